(** * Property C106: a loop whose input stays the same comes to rest.

    Vocabulary: SpecRest.v, with SpecPid.v and SpecHeat.v.  Proofs: RestProofs.v. *)
From Coq Require Import ZArith Bool List.
From Verif Require Import Base Dbl PidModel SpecPid SpecHeat SpecRest RestProofs PropertiesHeat.
Import ListNotations.

(** After any history the same sample is evaluated again and again.  Whatever the
    coefficients, rate limits and hysteresis are, the output moves in one direction
    from the second evaluation on, and stops moving. *)
Theorem C106_comes_to_rest : forall c h x,
  bounded_cfg c -> ordered_limits c -> sane_slew c -> Forall bounded_sample (h ++ [x]) ->
  one_way (steady c h x) /\ exists v, dfinite v /\ comes_to_rest_at (steady c h x) v.
Proof. exact C106_rest_lemma. Qed.
Print Assumptions C106_comes_to_rest.

(** A rate limit delays but does not prevent: a loop without integral ends exactly
    where it would be without the limit, and each evaluation that is not there yet
    has moved by the full rate. *)
Theorem C106_rate_limit_only_delays : forall c h x,
  bounded_cfg c -> ordered_limits c -> sane_slew c -> Forall bounded_sample (h ++ [x]) ->
  checkHysterWithSetpt c = false -> deq (integralCoeff c) d0 -> visible_rates c ->
  let t := steady (without_rate_limits c) h x 1 in
  comes_to_rest_at (steady c h x) t /\
  forall n, steady c h x (S n) = t \/
    dlt (steady c h x n) t /\ steady c h x (S n) = dadd (steady c h x n) (largest_rise c) \/
    dlt t (steady c h x n) /\ steady c h x (S n) = dadd (steady c h x n) (largest_fall c).
Proof. exact C106_rate_lemma. Qed.
Print Assumptions C106_rate_limit_only_delays.

(** An integral is driven to its limit as long as there is an error. *)
Theorem C106_integral_saturates : forall up c h x,
  bounded_cfg c -> ordered_limits c -> unlimited_rate c -> no_hysteresis c ->
  Forall bounded_sample (h ++ [x]) -> visible_gain up c x ->
  comes_to_rest_at (steady c h x) (saturated up c x).
Proof. exact C106_saturates_lemma. Qed.
Print Assumptions C106_integral_saturates.

(** Rates and gains are visible if they are not tiny. *)
Theorem C106_clear_rates : forall k c, (-1000 <= k <= 200)%Z ->
  bounded_cfg c -> clear_rates k c -> visible_rates c.
Proof. exact clear_rates_visible. Qed.
Print Assumptions C106_clear_rates.
Theorem C106_clear_gain : forall up k c x, (-1000 <= k <= 200)%Z ->
  bounded_cfg c -> bounded_sample x -> clear_gain up k c x -> visible_gain up c x.
Proof. exact clear_gain_visible. Qed.
Print Assumptions C106_clear_gain.

(** P = -2 with 10 per period: from 4 to 40 in four evaluations. *)
Definition re_rate : pidinfo := ht_cfg (D (-2)) (D 0) (D 0) (D 10) (D 0).
Ltac re_mag := split; [vm_compute; reflexivity|split; vm_compute; reflexivity].
Ltac re_samples := repeat (apply Forall_cons; [split; re_mag|]); apply Forall_nil.
Example C106_example_rate :
  bounded_cfg re_rate /\ ordered_limits re_rate /\ sane_slew re_rate /\
  Forall bounded_sample ([(D 42, D 40)] ++ [(D 60, D 40)]) /\
  checkHysterWithSetpt re_rate = false /\ deq (integralCoeff re_rate) d0 /\ clear_rates 8 re_rate /\
  map (fun n => dint (steady re_rate [(D 42, D 40)] (D 60, D 40) n)) (seq 0 6) = [14; 24; 34; 40; 40; 40]%Z /\
  dint (steady (without_rate_limits re_rate) [(D 42, D 40)] (D 60, D 40) 1) = 40%Z.
Proof.
  split; [ht_bounded|]. split; [split; vm_compute; reflexivity|].
  split; [split; [vm_compute; reflexivity|split; vm_compute; reflexivity]|].
  split; [cbn [app]; re_samples|]. split; [reflexivity|]. split; [vm_compute; reflexivity|].
  split; [split; [re_mag|split; [re_mag|split; [right|left]; vm_compute; reflexivity]]|].
  split; vm_compute; reflexivity.
Qed.
(** P = -2, I = -1/2, integral limited to 0..20: with an error of -4 it gains 2 per
    evaluation and ends at 8 + 20. *)
Example C106_example_saturates :
  bounded_cfg ht_pi /\ ordered_limits ht_pi /\ unlimited_rate ht_pi /\ no_hysteresis ht_pi /\
  Forall bounded_sample ([(D 50, D 40)] ++ [(D 44, D 40)]) /\ bounded_sample (D 44, D 40) /\
  clear_gain true 8 ht_pi (D 44, D 40) /\
  map (fun n => dint (steady ht_pi [(D 50, D 40)] (D 44, D 40) n)) (seq 0 10) = [15; 17; 19; 21; 23; 25; 27; 28; 28; 28]%Z /\
  dint (saturated true ht_pi (D 44, D 40)) = 28%Z.
Proof.
  split; [ht_bounded|]. split; [split; vm_compute; reflexivity|]. split; [split; vm_compute; reflexivity|].
  split; [split; [reflexivity|split; vm_compute; reflexivity]|].
  split; [cbn [app]; re_samples|]. split; [split; re_mag|].
  split; [split; [re_mag|split; [re_mag|vm_compute; reflexivity]]|].
  split; vm_compute; reflexivity.
Qed.
(** All at once: integral, derivative, rate limits and input hysteresis. *)
Definition re_all : pidinfo :=
  PidInfo false (D 1) (D (-2)) (D2 (-1) (-1)) (D (-1)) (D 0) (D 0) (Limits (D (-10)) (D 50)) (Limits (D 20) (D 90))
    (D (-5)) (D 10) (D 2) (D 2).
Example C106_example :
  bounded_cfg re_all /\ ordered_limits re_all /\ sane_slew re_all /\
  Forall bounded_sample ([(D 30, D 40); (D 60, D 40)] ++ [(D 61, D 40)]) /\
  map (fun n => dint (steady re_all [(D 30, D 40); (D 60, D 40)] (D 61, D 40) n)) (seq 0 8) =
    [40; 50; 60; 70; 80; 90; 90; 90]%Z.
Proof.
  split; [ht_bounded|]. split; [split; vm_compute; reflexivity|].
  split; [split; [vm_compute; reflexivity|split; vm_compute; reflexivity]|].
  split; [cbn [app]; re_samples|]. vm_compute; reflexivity.
Qed.

(** A rate that is lost in rounding prevents any change. *)
Definition re_tiny : pidinfo := ht_cfg (D (-2)) (D 0) (D 0) (D2 1 (-60)) (D 0).
Theorem C106_tiny_rate_refuted : exists c h x v,
  bounded_cfg c /\ ordered_limits c /\ sane_slew c /\ Forall bounded_sample (h ++ [x]) /\
  checkHysterWithSetpt c = false /\ deq (integralCoeff c) d0 /\ dlt d0 (slewPos c) /\
  (forall n, deq (steady c h x n) v) /\ dlt v (steady (without_rate_limits c) h x 1).
Proof.
  exists re_tiny, [(D 42, D 40)], (D 60, D 40), (D 4).
  assert (B : bounded_cfg re_tiny) by ht_bounded.
  assert (L : ordered_limits re_tiny) by (split; vm_compute; reflexivity).
  assert (W : sane_slew re_tiny) by (split; [vm_compute; reflexivity|split; vm_compute; reflexivity]).
  assert (F : Forall bounded_sample ([(D 42, D 40)] ++ [(D 60, D 40)])) by (cbn [app]; re_samples).
  assert (K : deq (integralCoeff re_tiny) d0) by (vm_compute; reflexivity).
  split; [exact B|]. split; [exact L|]. split; [exact W|]. split; [exact F|].
  split; [reflexivity|]. split; [exact K|]. split; [vm_compute; reflexivity|]. split; [|vm_compute; reflexivity].
  apply stuck_lemma; [exact B|exact L|exact W|exact F|reflexivity|exact K|vm_compute; reflexivity|vm_compute; reflexivity].
Qed.
Print Assumptions C106_tiny_rate_refuted.

(** With an integral and feed-forward, a rate limit that is never reached still changes
    the loop: at its setpoint the output climbs from 10 to 60, where without the limit
    it stays at 10.  The integral is set back from the output without taking the
    feed-forward term out. *)
Definition re_forward : pidinfo :=
  PidInfo false (D 1) (D 0) (D 1) (D 0) (D 0) (D 1) (Limits (D 0) (D 50)) (Limits (D 0) (D 90)) (D 0) (D 1000) (D 0) (D 0).
Theorem C106_unused_rate_limit_refuted : exists c x n,
  bounded_cfg c /\ ordered_limits c /\ sane_slew c /\ bounded_sample x /\ no_hysteresis c /\
  deq (fst x) (snd x) /\ dlt d0 (slewPos c) /\ deq (slewNeg c) d0 /\
  (forall m, (m < n)%nat -> dlt (steady c [] x (S m)) (dadd (steady c [] x m) (largest_rise c))) /\
  dlt (steady (without_rate_limits c) [] x n) (steady c [] x n).
Proof.
  exists re_forward, (D 10, D 10), 7%nat.
  split; [ht_bounded|]. split; [split; vm_compute; reflexivity|].
  split; [split; [vm_compute; reflexivity|split; vm_compute; reflexivity]|].
  split; [split; re_mag|]. split; [split; [reflexivity|split; vm_compute; reflexivity]|].
  split; [vm_compute; reflexivity|]. split; [vm_compute; reflexivity|]. split; [vm_compute; reflexivity|].
  split; [|vm_compute; reflexivity].
  intros m Hm. do 7 (destruct m as [|m]; [vm_compute; reflexivity|]). exfalso. apply (Nat.nlt_0_r m). now do 7 apply Nat.succ_lt_mono.
Qed.
Print Assumptions C106_unused_rate_limit_refuted.
Example C106_unused_rate_limit_example :
  map (fun n => dint (steady re_forward [] (D 10, D 10) n)) (seq 0 9) = [10; 10; 20; 30; 40; 50; 60; 60; 60]%Z /\
  map (fun n => dint (steady (without_rate_limits re_forward) [] (D 10, D 10) n)) (seq 0 9) = [10; 10; 10; 10; 10; 10; 10; 10; 10]%Z.
Proof. split; vm_compute; reflexivity. Qed.
