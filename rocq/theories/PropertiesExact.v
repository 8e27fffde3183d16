(** * Property C84: rounding errors of the control law.

    Vocabulary: SpecExact.v, SpecPid.v.  Proofs: ExactProofs.v. *)
From Coq Require Import ZArith NArith Bool List Reals.
From Flocq Require Import IEEE754.BinarySingleNaN.
From Verif Require Import Base Dbl PidModel SpecPid SpecExact ExactProofs.
Import ListNotations.
Local Open Scope R_scope.

(** ** C84: the outputs follow the exact law *)

(** The [n]-th output computed in doubles is finite and differs from the
    [n]-th output of the law over the reals by at most [n+1] times
    [2^(a+k+t-47)]. *)
Theorem C84_rounding_error : forall a k t cfg h,
  scales_ok a k t -> scaled_cfg a k t cfg ->
  limits_ordered (integralLimit cfg) -> limits_ordered (outLim cfg) -> sane_slew cfg ->
  Forall (scaled_sample a) h ->
  length (pid_outs cfg h) = length h /\ length (exact_outs cfg h) = length h /\
  forall n o v, nth_error (pid_outs cfg h) n = Some o ->
    nth_error (exact_outs cfg h) n = Some v ->
    dfinite o /\ Rabs (B2R o - v) <= INR (S n) * two_to (a + k + t - 47).
Proof. exact C84_full. Qed.
Print Assumptions C84_rounding_error.

(** Without integral term and rate limit the error does not grow with time. *)
Theorem C84_no_memory_no_drift : forall a k t cfg h,
  scales_ok a k t -> scaled_cfg a k t cfg ->
  limits_ordered (integralLimit cfg) -> limits_ordered (outLim cfg) ->
  deqb (integralCoeff cfg) d0 = true ->
  deqb (slewNeg cfg) d0 = true -> deqb (slewPos cfg) d0 = true ->
  Forall (scaled_sample a) h ->
  forall n o v, nth_error (pid_outs cfg h) n = Some o ->
    nth_error (exact_outs cfg h) n = Some v ->
    dfinite o /\ Rabs (B2R o - v) <= two_to (a + k + t - 48).
Proof. exact C84_memoryless_lemma. Qed.
Print Assumptions C84_no_memory_no_drift.

(** The same for a controller: the exact law is applied to the readings the
    input hysteresis (C07) puts in use. *)
Theorem C84_controller : forall a k t cfg h,
  scales_ok a k t -> scaled_cfg a k t cfg ->
  limits_ordered (integralLimit cfg) -> limits_ordered (outLim cfg) -> sane_slew cfg ->
  checkHysterWithSetpt cfg = false -> Forall (scaled_sample a) h ->
  exists us, length us = length h /\
    (if deqb (positiveHysteresis cfg) d0 && deqb (negativeHysteresis cfg) d0
     then us = map fst h
     else held (positiveHysteresis cfg) (negativeHysteresis cfg) dnan (map fst h) us) /\
    forall n o v, nth_error (ctrl_outs cfg h) n = Some o ->
      nth_error (exact_outs cfg (combine us (map snd h))) n = Some v ->
      dfinite o /\ Rabs (B2R o - v) <= INR (S n) * two_to (a + k + t - 47).
Proof. exact C84_controller_lemma. Qed.
Print Assumptions C84_controller.

(** In numbers: with values up to 16384, coefficients up to 1 and a period of
    one second, the outputs of a whole year (366 days) stay within 1/256 of
    the exact ones. *)
Theorem C84_one_year : forall a cfg h,
  (0 <= a <= 14)%Z -> scaled_cfg a 0 0 cfg ->
  limits_ordered (integralLimit cfg) -> limits_ordered (outLim cfg) -> sane_slew cfg ->
  Forall (scaled_sample a) h -> (N.of_nat (length h) <= 31622400)%N ->
  forall n o v, nth_error (pid_outs cfg h) n = Some o ->
    nth_error (exact_outs cfg h) n = Some v -> Rabs (B2R o - v) <= / 256.
Proof. exact C84_year_lemma. Qed.
Print Assumptions C84_one_year.

(** A fan loop: P=1/8, I=1/16, D=-1/4, feed-forward 1/100, output within
    [0,100], rates -5 and +10, set point 4000 RPM. *)
Definition ex_fan : pidinfo :=
  PidInfo false (D 1) (D2 1 (-3)) (D2 1 (-4)) (D2 (-1) (-2)) (D 0) (ddiv (D 1) (D 100))
    (Limits (D 0) (D 50)) (Limits (D 0) (D 100)) (D (-5)) (D 10) (D 0) (D 0).
Definition ex_rpm : list sample := [(D 3900, D 4000); (D 3990, D 4000); (D 4090, D 4000)].
Example C84_example :
  scales_ok 14 0 0 /\ scaled_cfg 14 0 0 ex_fan /\
  limits_ordered (integralLimit ex_fan) /\ limits_ordered (outLim ex_fan) /\ sane_slew ex_fan /\
  Forall (scaled_sample 14) ex_rpm /\ (N.of_nat (length ex_rpm) <= 31622400)%N /\
  forallb (fun p => dltb (fst p) (snd p)) (combine [D 33; D 43; D 50] (pid_outs ex_fan ex_rpm)) &&
  forallb (fun p => dltb (fst p) (snd p)) (combine (pid_outs ex_fan ex_rpm) [D 34; D 44; D 55]) = true.
Proof.
  split; [repeat split; discriminate|].
  split. { split; [apply forallb_mag; vm_compute; reflexivity|].
    split; [apply forallb_mag; vm_compute; reflexivity|].
    split; [apply mag_leb_ok; vm_compute; reflexivity|vm_compute; reflexivity]. }
  split; [vm_compute; reflexivity|]. split; [vm_compute; reflexivity|].
  split. { split; [vm_compute; reflexivity|]. split; vm_compute; reflexivity. }
  split; [apply forallb_samples; vm_compute; reflexivity|].
  split; [discriminate|]. vm_compute. reflexivity.
Qed.

(** A loop without memory: [ex_fan] with P, D and feed-forward only. *)
Definition ex_fan_pd : pidinfo :=
  PidInfo false (D 1) (D2 1 (-3)) (D 0) (D2 (-1) (-2)) (D 0) (ddiv (D 1) (D 100))
    (Limits (D 0) (D 50)) (Limits (D 0) (D 100)) (D 0) (D 0) (D 0) (D 0).
Example C84_no_memory_example :
  scaled_cfg 14 0 0 ex_fan_pd /\ limits_ordered (integralLimit ex_fan_pd) /\
  limits_ordered (outLim ex_fan_pd) /\ deqb (integralCoeff ex_fan_pd) d0 = true /\
  deqb (slewNeg ex_fan_pd) d0 = true /\ deqb (slewPos ex_fan_pd) d0 = true.
Proof.
  split. { split; [apply forallb_mag; vm_compute; reflexivity|].
    split; [apply forallb_mag; vm_compute; reflexivity|].
    split; [apply mag_leb_ok; vm_compute; reflexivity|vm_compute; reflexivity]. }
  split; [vm_compute; reflexivity|]. split; [vm_compute; reflexivity|].
  split; [vm_compute; reflexivity|]. split; vm_compute; reflexivity.
Qed.

(** The outputs are not the exact ones: a gain and an error of [1 + 2^-52]
    already need rounding. *)
Theorem C84_exactness_refuted : exists cfg h n o v,
  nth_error (pid_outs cfg h) n = Some o /\ nth_error (exact_outs cfg h) n = Some v /\
  B2R o <> v.
Proof. exact (ex_intro _ _ (ex_intro _ _ (ex_intro _ 0%nat not_exact_lemma))). Qed.
Print Assumptions C84_exactness_refuted.
