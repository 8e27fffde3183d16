(** * Properties C98 and C99: hotter histories ask for at least as much cooling.

    Vocabulary: SpecHeat.v, with SpecPid.v and SpecZone.v.  Proofs: HeatProofs.v,
    HeatZone.v. *)
From Coq Require Import ZArith Bool List String.
From Verif Require Import Base Dbl PidModel ZoneModel LoopModel SpecPid SpecZone ZoneProofs PropertiesZone SpecHeat HeatProofs
  HeatZone.
Import ListNotations.
Local Open Scope string_scope.

(** ** C98 *)

(** Two histories of one loop with the same setpoints, the second at least as hot in
    every sample: its output is at least as high in every sample. *)
Theorem C98_hotter_history : forall up c h k,
  bounded_cfg c -> cools up c -> unlimited_rate c -> no_hysteresis c -> ordered_limits c ->
  hotter_history up h k -> Forall2 dle (ctrl_outs c h) (ctrl_outs c k).
Proof. exact C98_hotter_lemma. Qed.
Print Assumptions C98_hotter_history.

(** While the input stays on the hot side of the setpoint and does not get cooler,
    the output never drops. *)
Theorem C98_never_drops : forall up c sp inputs,
  bounded_cfg c -> cools up c -> unlimited_rate c -> no_hysteresis c -> ordered_limits c ->
  mag_le 200 sp -> stays_hot up sp inputs ->
  forall i a b, nth_error (ctrl_outs c (map (fun v => (v, sp)) inputs)) i = Some a ->
    nth_error (ctrl_outs c (map (fun v => (v, sp)) inputs)) (S i) = Some b -> dle a b.
Proof. exact C98_stays_lemma. Qed.
Print Assumptions C98_never_drops.

(** A temperature loop, P = -2, I = -1/2 with the integral limited to 0..20.  The
    second history is hotter at first only, and asks for more to the end. *)
Definition ht_cfg (kp ki kd slew hyst : dbl) : pidinfo :=
  PidInfo false (D 1) kp ki kd (D 0) (D 0) (Limits (D 0) (D 20)) (Limits (D 0) (D 200)) (D 0) slew hyst hyst.
Definition ht_pi : pidinfo := ht_cfg (D (-2)) (D2 (-1) (-1)) (D 0) (D 0) (D 0).
Definition ht_samples (l : list Z) : list sample := map (fun v => (D v, D 40)) l.

Ltac ht_bounded := split;
  [repeat (apply Forall_cons; [split; [vm_compute; reflexivity|split; vm_compute; reflexivity]|]); apply Forall_nil
  |vm_compute; reflexivity].
Ltac ht_history := repeat (apply Forall2_cons;
  [split; [split; (split; [vm_compute; reflexivity|split; vm_compute; reflexivity])
          |split; [split; (split; [vm_compute; reflexivity|split; vm_compute; reflexivity])
                  |split; [vm_compute; reflexivity|reflexivity]]]|]); apply Forall2_nil.
Example C98_example :
  bounded_cfg ht_pi /\ cools true ht_pi /\ unlimited_rate ht_pi /\ no_hysteresis ht_pi /\ ordered_limits ht_pi /\
  hotter_history true (ht_samples [50; 52; 44; 44]%Z) (ht_samples [60; 54; 44; 44]%Z) /\
  map dint (ctrl_outs ht_pi (ht_samples [50; 52; 44; 44]%Z)) = [25; 35; 21; 23]%Z /\
  map dint (ctrl_outs ht_pi (ht_samples [60; 54; 44; 44]%Z)) = [50; 45; 27; 28]%Z /\
  map dint (ctrl_outs ht_pi (map (fun v => (v, D 40)) [D 44; D 44; D 45; D 50])) = [10; 12; 16; 31]%Z.
Proof.
  split; [ht_bounded|].
  split; [split; [vm_compute; reflexivity|split; vm_compute; reflexivity]|].
  split; [split; vm_compute; reflexivity|].
  split; [split; [reflexivity|split; vm_compute; reflexivity]|].
  split; [split; vm_compute; reflexivity|].
  split; [unfold ht_samples, map; ht_history|].
  split; [vm_compute; reflexivity|]. split; vm_compute; reflexivity.
Qed.
Example C98_example_stays_hot : stays_hot true (D 40) [D 44; D 44; D 45; D 50].
Proof.
  split; [repeat (apply Forall_cons; [split; [vm_compute; reflexivity|split; vm_compute; reflexivity]|]); apply Forall_nil|].
  split; [repeat (apply Forall_cons; [vm_compute; reflexivity|]); apply Forall_nil|].
  intros [|[|[|[|i]]]] a b; cbn [nth_error]; intros Ha Hb; try (destruct i; discriminate Hb); try discriminate Hb;
    injection Ha as <-; injection Hb as <-; vm_compute; reflexivity.
Qed.

(** Not so with a rate limit: the integral is set back from the limited output, so one
    hot sample makes the loop ask for less afterwards. *)
Definition ht_rate : pidinfo := ht_cfg (D (-2)) (D (-1)) (D 0) (D 1) (D 0).
Theorem C98_rate_limit_refuted : exists c h k,
  bounded_cfg c /\ cools true c /\ sane_slew c /\ no_hysteresis c /\ ordered_limits c /\
  hotter_history true h k /\ dlt (last (ctrl_outs c k) d0) (last (ctrl_outs c h) d0).
Proof.
  exists ht_rate, (ht_samples [50; 50; 50]%Z), (ht_samples [50; 70; 50]%Z).
  split; [ht_bounded|].
  split; [split; [vm_compute; reflexivity|split; vm_compute; reflexivity]|].
  split; [split; [vm_compute; reflexivity|split; vm_compute; reflexivity]|].
  split; [split; [reflexivity|split; vm_compute; reflexivity]|].
  split; [split; vm_compute; reflexivity|].
  split; [unfold ht_samples, map; ht_history|]. vm_compute. reflexivity.
Qed.
Print Assumptions C98_rate_limit_refuted.

(** Nor with a derivative term. *)
Theorem C98_derivative_refuted : exists c h k,
  bounded_cfg c /\ dle (proportionalCoeff c) d0 /\ dle (integralCoeff c) d0 /\ dle (derivativeCoeff c) d0 /\
  unlimited_rate c /\ no_hysteresis c /\ ordered_limits c /\
  hotter_history true h k /\ dlt (last (ctrl_outs c k) d0) (last (ctrl_outs c h) d0).
Proof.
  exists (ht_cfg (D (-2)) (D 0) (D (-1)) (D 0) (D 0)), (ht_samples [50; 50]%Z), (ht_samples [60; 50]%Z).
  split; [ht_bounded|].
  split; [vm_compute; reflexivity|]. split; [vm_compute; reflexivity|]. split; [vm_compute; reflexivity|].
  split; [split; vm_compute; reflexivity|].
  split; [split; [reflexivity|split; vm_compute; reflexivity]|].
  split; [split; vm_compute; reflexivity|].
  split; [unfold ht_samples, map; ht_history|]. vm_compute. reflexivity.
Qed.
Print Assumptions C98_derivative_refuted.

(** Nor with hysteresis: the hotter history may hold an older, lower value. *)
Theorem C98_hysteresis_refuted : exists c h k,
  bounded_cfg c /\ cools true c /\ unlimited_rate c /\ checkHysterWithSetpt c = false /\ ordered_limits c /\
  dle d0 (positiveHysteresis c) /\ dle d0 (negativeHysteresis c) /\
  hotter_history true h k /\ dlt (last (ctrl_outs c k) d0) (last (ctrl_outs c h) d0).
Proof.
  exists (ht_cfg (D (-2)) (D 0) (D 0) (D 0) (D 3)), (ht_samples [48; 52]%Z), (ht_samples [50; 52]%Z).
  split; [ht_bounded|].
  split; [split; [vm_compute; reflexivity|split; vm_compute; reflexivity]|].
  split; [split; vm_compute; reflexivity|]. split; [reflexivity|].
  split; [split; vm_compute; reflexivity|]. split; [vm_compute; reflexivity|]. split; [vm_compute; reflexivity|].
  split; [unfold ht_samples, map; ht_history|]. vm_compute. reflexivity.
Qed.
Print Assumptions C98_hysteresis_refuted.

(** ** C99 *)

(** Two lives of one zone with the same schedule of wake-ups, Manual and Enable
    writes, the readings of the second at least as hot in every poll: after any
    number of events the setpoint of the second is at least as high. *)
Theorem C99_hotter_zone : forall up f z e1 e2 te1 te2 now1 now2 a0 b0 evs1 evs2 a b,
  tuningEnabled f = false -> cooling_zone up z -> hotter_poll up z e1 e2 ->
  Forall2 (hotter_event up z) evs1 evs2 ->
  loop_start f e1 te1 now1 z = Ok a0 -> loop_run f evs1 a0 = Ok a ->
  loop_start f e2 te2 now2 z = Ok b0 -> loop_run f evs2 b0 = Ok b ->
  dle (z_maximumSetPoint (l_zone a)) (z_maximumSetPoint (l_zone b)).
Proof. exact C99_lemma. Qed.
Print Assumptions C99_hotter_zone.

(** A PI loop on the larger of t0 and t1, a margin loop on 90 - m0 and on the margin
    g0, a stepwise loop on t0, and a stepwise ceiling on t1. *)
Definition ht_margin : pidinfo := ht_cfg (D 1) (D2 1 (-1)) (D 0) (D 0) (D 0).
Definition ht_cpu : ThermalCtl :=
  TPid "cpu" [MkInput "t0" (D 0) false false; MkInput "t1" (D 0) false false] absolute (D 40) (pid_ctrl_init ht_pi).
Definition ht_mem : ThermalCtl :=
  TPid "mem" [MkInput "m0" (D 90) true false; MkInput "g0" (D 0) false false] margin (D 40) (pid_ctrl_init ht_margin).
Definition ht_gpu : ThermalCtl := TStep "gpu" ["t0"] (stepwise_ctrl_init (ex_steps false)).
Definition ht_cap : ThermalCtl := TStep "cap" ["t1"] (stepwise_ctrl_init (ex_steps true)).
Definition ht_zone : zone :=
  let z := zone_new 1 (D 10) (D 75) 100 1000 false in
  let z := addFanInput "fan0" false z in
  let z := addFanPID (createFanPid "fans" ["fan0"] ex_ff) z in
  let z := addThermalInput "t0" false z in
  let z := addThermalInput "t1" false z in
  let z := addThermalInput "m0" false z in
  let z := addThermalInput "g0" false z in
  let z := addPidControlProcess "cpu" "temp" (D 40) (addThermalPID ht_cpu z) in
  let z := addPidControlProcess "mem" "margin" (D 40) (addThermalPID ht_mem z) in
  let z := addPidControlProcess "gpu" "stepwise" (D 0) (addThermalPID ht_gpu z) in
  addPidControlProcess "cap" "stepwise" (D 0) (addThermalPID ht_cap z).
Definition ht_up (n : string) : bool := negb (String.eqb n "g0").
Definition ht_poll (t0 t1 m0 g0 now : Z) : poll_env :=
  PollEnv now (fun n =>
    if String.eqb n "t0" then Some (ex_view t0)
    else if String.eqb n "t1" then Some (ex_view t1)
    else if String.eqb n "m0" then Some (ex_view m0)
    else if String.eqb n "g0" then Some (ex_view g0)
    else if String.eqb n "fan0" then Some (ex_view 20) else None).
Definition ht_ticks (t0 t1 m0 g0 : Z) (n : nat) : list loop_event :=
  map (fun k => let now := (Z.of_nat k * 100000000)%Z in
    LTick (TickEnv (ht_poll t0 t1 m0 g0 now) (ht_poll t0 t1 m0 g0 now) ex_write ex_tune)) (seq 1 n).

Lemma ht_thermals : z_thermals ht_zone = [ht_cpu; ht_mem; ht_gpu; ht_cap]. Proof. reflexivity. Qed.
Lemma ht_inputs : z_thermalInputs ht_zone = ["t0"; "t1"; "m0"; "g0"]. Proof. reflexivity. Qed.
Lemma ht_steps b : increasing_table (ex_steps b) 3 /\
  (forall i j, (i <= j < 3)%nat -> dle (sw_output (ex_steps b) i) (sw_output (ex_steps b) j)) /\
  (forall i, (i < 3)%nat -> dfinite (sw_output (ex_steps b) i)).
Proof.
  split; [|split].
  - split; [Lia.lia|]. split; [|split].
    + intros [|[|[|i]]] Hi; try (exfalso; Lia.lia); vm_compute; reflexivity.
    + intros _. vm_compute. reflexivity.
    + intros [|[|[|i]]] [|[|[|j]]] Hij; try (exfalso; Lia.lia); vm_compute; reflexivity.
  - intros [|[|[|i]]] [|[|[|j]]] Hij; try (exfalso; Lia.lia); vm_compute; reflexivity.
  - intros [|[|[|i]]] Hi; try (exfalso; Lia.lia); vm_compute; reflexivity.
Qed.
Ltac ht_pid c := exists c; split; [reflexivity|]; split; [ht_bounded|];
  split; [split; [vm_compute; reflexivity|split; vm_compute; reflexivity]|];
  split; [split; [vm_compute; reflexivity|split; vm_compute; reflexivity]|];
  split; [split; vm_compute; reflexivity|];
  split; [split; [reflexivity|split; vm_compute; reflexivity]|];
  split; [split; vm_compute; reflexivity|];
  repeat (apply Forall_cons; [vm_compute; reflexivity|]); apply Forall_nil.
Ltac ht_step b := exists (ex_steps b), 3%nat; split; [reflexivity|];
  destruct (ht_steps b) as (A1 & A2 & A3); split; [exact A1|]; split; [exact A2|]; split; [exact A3|];
  split; [vm_compute; reflexivity|]; split; [vm_compute; reflexivity|];
  repeat (apply Forall_cons; [vm_compute; reflexivity|]); apply Forall_nil.
Example C99_example_zone : cooling_zone ht_up ht_zone.
Proof.
  split; rewrite ht_thermals.
  - apply Forall_cons; [ht_pid ht_pi|]. apply Forall_cons; [ht_pid ht_margin|].
    apply Forall_cons; [ht_step false|]. apply Forall_cons; [ht_step true|]. apply Forall_nil.
  - rewrite ht_inputs. repeat (apply Forall_cons; [intros n; cbn; tauto|]). apply Forall_nil.
Qed.
Ltac ht_moderate := unfold moderate; rewrite ht_thermals;
  apply Forall_cons; [split; [vm_compute; reflexivity|split; vm_compute; reflexivity]|];
  apply Forall_cons; [split; [vm_compute; reflexivity|split; vm_compute; reflexivity]|];
  apply Forall_cons; [exact Logic.I|]; apply Forall_cons; [exact Logic.I|]; apply Forall_nil.
Ltac ht_reading v w := right; exists (D v), (D w); split; [reflexivity|]; split; [reflexivity|];
  split; [vm_compute; reflexivity|]; split; vm_compute; reflexivity.
(** Hotter at start-up only; afterwards the same. *)
Lemma ht_polls now now' : hotter_poll ht_up ht_zone (ht_poll 30 55 60 35 now) (ht_poll 34 58 64 30 now').
Proof.
  split; [ht_moderate|]. split; [ht_moderate|]. rewrite ht_inputs. intros n [<-|[<-|[<-|[<-|[]]]]].
  - ht_reading 30%Z 34%Z.
  - ht_reading 55%Z 58%Z.
  - ht_reading 60%Z 64%Z.
  - ht_reading 35%Z 30%Z.
Qed.
Lemma ht_same t0 now now' : t0 = 30%Z -> hotter_poll ht_up ht_zone (ht_poll t0 55 60 35 now) (ht_poll t0 55 60 35 now').
Proof.
  intros ->. split; [ht_moderate|]. split; [ht_moderate|]. intros n _. left. reflexivity.
Qed.
Definition ht_run (first : poll_env) (evs : list loop_event) : outcome loop :=
  bind (loop_start ex_flags first ex_tune 0 ht_zone) (loop_run ex_flags evs).
Example C99_example :
  hotter_poll ht_up ht_zone (ht_poll 30 55 60 35 0) (ht_poll 34 58 64 30 0) /\
  Forall2 (hotter_event ht_up ht_zone) (ht_ticks 30 55 60 35 11) (ht_ticks 30 55 60 35 11) /\
  ok_and (ht_run (ht_poll 30 55 60 35 0) []) (fun l => Z.eqb (dint (z_maximumSetPoint (l_zone l))) 37) = true /\
  ok_and (ht_run (ht_poll 34 58 64 30 0) []) (fun l => Z.eqb (dint (z_maximumSetPoint (l_zone l))) 45) = true /\
  ok_and (ht_run (ht_poll 30 55 60 35 0) (ht_ticks 30 55 60 35 11))
    (fun l => Z.eqb (dint (z_maximumSetPoint (l_zone l))) 45) = true /\
  ok_and (ht_run (ht_poll 34 58 64 30 0) (ht_ticks 30 55 60 35 11))
    (fun l => Z.eqb (dint (z_maximumSetPoint (l_zone l))) 46) = true.
Proof.
  split; [apply ht_polls|]. split.
  { unfold ht_ticks. induction (seq 1 11) as [|k ks IH]; [apply Forall2_nil|].
    apply Forall2_cons; [|exact IH]. apply ht_same. reflexivity. }
  split; [vm_compute; reflexivity|]. split; [vm_compute; reflexivity|]. split; vm_compute; reflexivity.
Qed.
