(** * Properties C01-C10: PID and stepwise computations.

    Vocabulary: SpecPid.v.  Proofs: PidProofs.v. *)
From Coq Require Import ZArith Bool List.
From Verif Require Import Base Dbl PidModel SpecPid PidProofs.
Import ListNotations.

(** A thermal loop used in the examples: P=-2, I=-1/2, D=-1, integral within
    [-10,50], output within [20,90], slew -5/+10 per second, 1 s period. *)
Definition ex_cfg : pidinfo :=
  PidInfo false (D 1) (D (-2)) (D2 (-1) (-1)) (D (-1)) (D 0) (D 0)
    (Limits (D (-10)) (D 50)) (Limits (D 20) (D 90)) (D (-5)) (D 10) (D 0) (D 0).
Definition ex_hist : list sample := [(D 30, D 40); (D 60, D 40)].

(** ** C01 *)
Theorem C01_pid_output_in_limits : forall cfg h x,
  limits_ordered (outLim cfg) -> sane_slew cfg ->
  in_limits_or_nan (outLim cfg) (pid_out cfg h x).
Proof. exact pid_output_in_limits. Qed.
Print Assumptions C01_pid_output_in_limits.

Theorem C01_controller_output_in_limits : forall cfg h x,
  checkHysterWithSetpt cfg = false ->
  limits_ordered (outLim cfg) -> sane_slew cfg ->
  in_limits_or_nan (outLim cfg) (ctrl_out cfg h x).
Proof. exact ctrl_output_in_limits. Qed.
Print Assumptions C01_controller_output_in_limits.

(** Two evaluations clamped by outLim.min (20) and by the slew limit (30), the
    third one by the slew limit again. *)
Example C01_example :
  limits_ordered (outLim ex_cfg) /\ sane_slew ex_cfg /\ checkHysterWithSetpt ex_cfg = false /\
  dsame (pid_out ex_cfg [] (D 30, D 40)) (D 20) = true /\
  dsame (pid_out ex_cfg [(D 30, D 40)] (D 60, D 40)) (D 30) = true /\
  dsame (ctrl_out ex_cfg ex_hist (D 80, D 40)) (D 40) = true.
Proof. vm_compute. repeat split. Qed.

(** Without the sign conditions on the slew rates the claim is false: a
    positive slewNeg drives the output beyond outLim.max. *)
Theorem C01_positive_slewNeg_refuted : exists cfg h x,
  limits_ordered (outLim cfg) /\ dle d0 (slewPos cfg) /\ dle d0 (ts cfg) /\
  dlt d0 (slewNeg cfg) /\ dlt (lim_max (outLim cfg)) (pid_out cfg h x).
Proof.
  exists (PidInfo false (D 1) (D (-1)) (D 0) (D 0) (D 0) (D 0)
    (Limits (D 0) (D 0)) (Limits (D 0) (D 100)) (D 30) (D 0) (D 0) (D 0)),
   [(D 90, D 0)], (D 90, D 0).
  vm_compute. repeat split.
Qed.
Print Assumptions C01_positive_slewNeg_refuted.

(** With setpoint hysteresis the claim is false: below the band the controller
    outputs 0 whatever outLim.min is. *)
Theorem C01_setpoint_hysteresis_refuted : exists cfg h x,
  checkHysterWithSetpt cfg = true /\ limits_ordered (outLim cfg) /\ sane_slew cfg /\
  dlt (ctrl_out cfg h x) (lim_min (outLim cfg)).
Proof.
  exists (PidInfo true (D 1) (D (-2)) (D 0) (D 0) (D 0) (D 0)
    (Limits (D 0) (D 0)) (Limits (D 20) (D 90)) (D 0) (D 0) (D 2) (D 3)),
   [], (D 30, D 40).
  vm_compute. repeat split.
Qed.
Print Assumptions C01_setpoint_hysteresis_refuted.

(** ** C02 *)
Theorem C02_integral_in_limits : forall cfg h x,
  limits_ordered (integralLimit cfg) ->
  in_limits_or_nan (integralLimit cfg) (integral (pid_state cfg (h ++ [x]))).
Proof. exact pid_integral_in_limits. Qed.
Print Assumptions C02_integral_in_limits.

Theorem C02_controller_integral_in_limits : forall cfg h x,
  limits_ordered (integralLimit cfg) -> checkHysterWithSetpt cfg = false ->
  in_limits_or_nan (integralLimit cfg) (integral (pc_info (ctrl_state cfg (h ++ [x])))).
Proof. exact ctrl_integral_in_limits. Qed.
Print Assumptions C02_controller_integral_in_limits.

(** The back-calculated integral (30 - 40 = -10) hits the lower limit. *)
Example C02_example :
  limits_ordered (integralLimit ex_cfg) /\
  dsame (integral (pid_state ex_cfg [(D 30, D 40)])) (D (-5)) = true /\
  dsame (integral (pid_state ex_cfg [(D 30, D 40); (D 70, D 40)])) (D (-10)) = true.
Proof. vm_compute. repeat split. Qed.

(** ** C03 *)
Theorem C03_slew_increase : forall cfg h x y,
  let o := pid_out cfg h x in
  let o' := pid_out cfg (h ++ [x]) y in
  let bound := dadd o (dmul (slewPos cfg) (ts cfg)) in
  deqb (slewPos cfg) d0 = false -> notnan o' -> notnan bound -> dle o' bound.
Proof. exact pid_slew_pos. Qed.
Print Assumptions C03_slew_increase.

Theorem C03_slew_decrease : forall cfg h x y,
  sane_slew cfg ->
  let o := pid_out cfg h x in
  let o' := pid_out cfg (h ++ [x]) y in
  let bound := dadd o (dmul (slewNeg cfg) (ts cfg)) in
  deqb (slewNeg cfg) d0 = false -> notnan o' -> notnan bound -> dle bound o'.
Proof. exact pid_slew_neg. Qed.
Print Assumptions C03_slew_decrease.

(** The increase limit binds (20 -> 30), then the decrease limit (30 -> 25). *)
Example C03_example :
  sane_slew ex_cfg /\ deqb (slewPos ex_cfg) d0 = false /\ deqb (slewNeg ex_cfg) d0 = false /\
  dsame (pid_out ex_cfg [] (D 30, D 40)) (D 20) = true /\
  dsame (pid_out ex_cfg [(D 30, D 40)] (D 60, D 40)) (D 30) = true /\
  dsame (pid_out ex_cfg [(D 30, D 40); (D 60, D 40)] (D 20, D 40)) (D 25) = true.
Proof. vm_compute. repeat split. Qed.

(** ** C04 *)
Theorem C04_pid_formula : forall cfg h, pid_outs cfg h = spec_outs cfg h.
Proof. exact pid_refines. Qed.
Print Assumptions C04_pid_formula.

(** P = -2*(40-45.5) = 11, I = 2.75, D = 5.5, FF = (40+10)*0.5 = 25. *)
Example C04_example :
  let cfg := PidInfo false (D 1) (D (-2)) (D2 (-1) (-1)) (D (-1)) (D 10) (D2 1 (-1))
    (Limits (D (-10)) (D 50)) (Limits (D 20) (D 90)) (D (-5)) (D 10) (D 0) (D 0) in
  forallb (fun p => dsame (fst p) (snd p))
    (combine (pid_outs cfg [(D2 91 (-1), D 40); (D 80, D 40)]) [D2 177 (-2); D2 217 (-2)]) = true.
Proof. vm_compute. reflexivity. Qed.

(** ** C05 *)
Theorem C05_monotone_response : forall i setpoint x y,
  let c := params i in
  dle (proportionalCoeff c) d0 -> dle (integralCoeff c) d0 -> dle (derivativeCoeff c) d0 ->
  dlt d0 (ts c) -> limits_ordered (integralLimit c) -> limits_ordered (outLim c) ->
  dle x y ->
  notnan (snd (pid i x setpoint)) -> notnan (snd (pid i y setpoint)) ->
  dle (snd (pid i x setpoint)) (snd (pid i y setpoint)).
Proof. exact pid_monotone. Qed.
Print Assumptions C05_monotone_response.

Example C05_example :
  let i := pid_state ex_cfg ex_hist in
  let c := params i in
  dle (proportionalCoeff c) d0 /\ dle (integralCoeff c) d0 /\ dle (derivativeCoeff c) d0 /\
  dlt d0 (ts c) /\ limits_ordered (integralLimit c) /\ limits_ordered (outLim c) /\
  dlt (snd (pid i (D 57) (D 40))) (snd (pid i (D 58) (D 40))).
Proof. vm_compute. repeat split. Qed.

(** ** C06 *)
Theorem C06_no_nan : forall c h x,
  bounded_cfg c -> limits_ordered (integralLimit c) -> limits_ordered (outLim c) ->
  sane_slew c -> Forall bounded_sample (h ++ [x]) ->
  let s := pid_state c (h ++ [x]) in
  dfinite (pid_out c h x) /\ dfinite (integral s) /\ dfinite (lastError s) /\
  dfinite (lastOutput s).
Proof. exact pid_no_nan. Qed.
Print Assumptions C06_no_nan.

Example C06_example :
  bounded_cfg ex_cfg /\ limits_ordered (integralLimit ex_cfg) /\
  limits_ordered (outLim ex_cfg) /\ sane_slew ex_cfg /\
  Forall bounded_sample (ex_hist ++ [(D 80, D 40)]).
Proof.
  unfold bounded_cfg, ex_hist, app.
  repeat match goal with
  | |- _ /\ _ => split
  | |- Forall _ (_ :: _) => apply Forall_cons
  | |- Forall _ [] => apply Forall_nil
  end; vm_compute; repeat split.
Qed.

(** The sample period must not be 0: then NaN appears at once, even though the
    derivative coefficient is 0, and it stays in the integral. *)
Theorem C06_zero_period_refuted : exists c x y,
  deqb (ts c) d0 = true /\ deqb (derivativeCoeff c) d0 = true /\
  dfinite (fst x) /\ dfinite (snd x) /\ dfinite (fst y) /\ dfinite (snd y) /\
  limits_ordered (integralLimit c) /\ limits_ordered (outLim c) /\ sane_slew c /\
  is_nan (pid_out c [] x) = true /\ is_nan (pid_out c [x] y) = true /\
  is_nan (integral (pid_state c [x; y])) = true.
Proof.
  exists (PidInfo false (D 0) (D (-2)) (D 0) (D 0) (D 0) (D 0)
    (Limits (D 0) (D 10)) (Limits (D 20) (D 90)) (D (-1)) (D 1) (D 0) (D 0)),
   (D 50, D 40), (D 50, D 40).
  vm_compute. repeat split.
Qed.
Print Assumptions C06_zero_period_refuted.

(** ** C07 *)
Theorem C07_input_hysteresis : forall cfg h,
  checkHysterWithSetpt cfg = false ->
  deqb (positiveHysteresis cfg) d0 && deqb (negativeHysteresis cfg) d0 = false ->
  exists used,
    held (positiveHysteresis cfg) (negativeHysteresis cfg) dnan (map fst h) used /\
    ctrl_outs cfg h = pid_outs cfg (combine used (map snd h)) /\
    length used = length h.
Proof. exact (fun cfg h C Z => ctrl_held cfg C Z h (pid_ctrl_init cfg) (init_params cfg)). Qed.
Print Assumptions C07_input_hysteresis.

Theorem C07_used_value_within_band : forall pos neg readings used,
  dle d0 pos -> dle d0 neg ->
  held pos neg dnan readings used -> Forall dfinite readings ->
  Forall2 (fun r u => dle (dsub r u) pos /\ dle (dsub u r) neg) readings used.
Proof. exact (fun pos neg rs us Hp Hn H F => held_band pos neg Hp Hn dnan rs us H F). Qed.
Print Assumptions C07_used_value_within_band.

(** Readings 50, 51.5, 53, 50, 48 with band +2/-3.  The third leaves the band
    upwards; the fourth is exactly 3 below and is ignored. *)
Definition ex_hyst : pidinfo :=
  PidInfo false (D 1) (D (-2)) (D 0) (D 0) (D 0) (D 0)
    (Limits (D 0) (D 0)) (Limits (D 0) (D 90)) (D 0) (D 0) (D 2) (D 3).
Example C07_example :
  checkHysterWithSetpt ex_hyst = false /\
  deqb (positiveHysteresis ex_hyst) d0 && deqb (negativeHysteresis ex_hyst) d0 = false /\
  dle d0 (positiveHysteresis ex_hyst) /\ dle d0 (negativeHysteresis ex_hyst) /\
  forallb (fun p => dsame (fst p) (snd p))
    (combine (ctrl_outs ex_hyst [(D 50, D 40); (D2 103 (-1), D 40); (D 53, D 40); (D 50, D 40); (D 48, D 40)])
             [D 20; D 20; D 26; D 26; D 16]) = true.
Proof. vm_compute. repeat split. Qed.

(** ** C08 *)
Theorem C08_above_band : forall cfg h x,
  checkHysterWithSetpt cfg = true ->
  dlt (dadd (snd x) (positiveHysteresis cfg)) (fst x) ->
  ctrl_out cfg h x = snd (pid (pc_info (ctrl_state cfg h)) (fst x) (snd x)) /\
  pc_info (ctrl_state cfg (h ++ [x])) = fst (pid (pc_info (ctrl_state cfg h)) (fst x) (snd x)).
Proof. exact ctrl_check_above. Qed.
Print Assumptions C08_above_band.

Theorem C08_below_band : forall cfg h x,
  checkHysterWithSetpt cfg = true ->
  ~ dlt (dadd (snd x) (positiveHysteresis cfg)) (fst x) ->
  dlt (fst x) (dsub (snd x) (negativeHysteresis cfg)) ->
  ctrl_out cfg h x = d0 /\ integral (pc_info (ctrl_state cfg (h ++ [x]))) = d0.
Proof. exact ctrl_check_below. Qed.
Print Assumptions C08_below_band.

Theorem C08_inside_band : forall cfg h w x,
  checkHysterWithSetpt cfg = true ->
  ~ dlt (dadd (snd x) (positiveHysteresis cfg)) (fst x) ->
  ~ dlt (fst x) (dsub (snd x) (negativeHysteresis cfg)) ->
  ctrl_out cfg (h ++ [w]) x = ctrl_out cfg h w /\
  pc_info (ctrl_state cfg (h ++ [w; x])) = pc_info (ctrl_state cfg (h ++ [w])).
Proof. exact ctrl_check_repeat. Qed.
Print Assumptions C08_inside_band.

Definition ex_check : pidinfo :=
  PidInfo true (D 1) (D (-2)) (D (-1)) (D 0) (D 0) (D 0)
    (Limits (D 0) (D 50)) (Limits (D 0) (D 90)) (D 0) (D 0) (D 2) (D 3).
Example C08_example :
  checkHysterWithSetpt ex_check = true /\
  forallb (fun p => dsame (fst p) (snd p))
    (combine (ctrl_outs ex_check [(D 50, D 40); (D 42, D 40); (D 37, D 40); (D 36, D 40); (D 50, D 40)])
             [D 30; D 30; D 30; D 0; D 30]) = true.
Proof. vm_compute. repeat split. Qed.

(** ** C09 *)
Theorem C09_lookup : forall t x, lookup_is t x (stepwise t x).
Proof. exact stepwise_lookup. Qed.
Print Assumptions C09_lookup.

Theorem C09_lookup_determines_value : forall t x v w, lookup_is t x v -> lookup_is t x w -> v = w.
Proof. exact lookup_unique. Qed.
Print Assumptions C09_lookup_determines_value.

Theorem C09_highest_point_not_above_input : forall t n x i,
  increasing_table t n -> notnan x -> (i < n)%nat ->
  dle (sw_reading t i) x -> (forall j, (i < j < n)%nat -> dlt x (sw_reading t j)) ->
  stepwise t x = sw_output t i.
Proof. exact stepwise_sorted. Qed.
Print Assumptions C09_highest_point_not_above_input.

Theorem C09_below_all_points : forall t n x,
  increasing_table t n -> (forall j, (1 <= j < n)%nat -> dlt x (sw_reading t j)) ->
  stepwise t x = sw_output t 0.
Proof. exact stepwise_below. Qed.
Print Assumptions C09_below_all_points.

Theorem C09_points_after_nan_unused : forall t n,
  (1 <= n < 20)%nat -> is_nan (sw_reading t n) = true ->
  forall x, exists i, (i < n)%nat /\ stepwise t x = sw_output t i.
Proof. exact stepwise_nan_unused. Qed.
Print Assumptions C09_points_after_nan_unused.

Theorem C09_monotone : forall t n x y,
  increasing_table t n ->
  (forall i j, (i <= j < n)%nat -> dle (sw_output t i) (sw_output t j)) ->
  dle x y -> dle (stepwise t x) (stepwise t y).
Proof. exact stepwise_mono. Qed.
Print Assumptions C09_monotone.

(** Three points (30,20) (50,40) (70,90), hysteresis +2/-3. *)
Definition ex_table : StepwiseInfo :=
  Stepwise (D 1)
    (fun i => match i with 0%nat => D 30 | 1%nat => D 50 | 2%nat => D 70 | _ => dnan end)
    (fun i => match i with 0%nat => D 20 | 1%nat => D 40 | 2%nat => D 90 | _ => dnan end)
    (D 2) (D 3) false.
Example C09_example_table :
  increasing_table ex_table 3 /\
  (forall i j, (i <= j < 3)%nat -> dle (sw_output ex_table i) (sw_output ex_table j)).
Proof.
  split; [repeat split; try (repeat constructor; fail)|].
  - intros i Hi. destruct i as [|[|[|i]]]; try (exfalso; Lia.lia); reflexivity.
  - intros i j Hij. destruct i as [|[|[|i]]], j as [|[|[|j]]]; try (exfalso; Lia.lia); reflexivity.
  - intros i j Hij. destruct i as [|[|[|i]]], j as [|[|[|j]]]; try (exfalso; Lia.lia); reflexivity.
Qed.
Example C09_example :
  map (fun x => dint (stepwise ex_table x)) [D 10; D 49; D 50; D 69; D 70; D 200; dninf; dinf]
  = [20; 20; 40; 40; 90; 90; 20; 90]%Z.
Proof. vm_compute. reflexivity. Qed.

(** ** C10 *)
Theorem C10_stepwise_hysteresis : forall t h, step_trace t None h (step_outs t h).
Proof. exact step_trace_init. Qed.
Print Assumptions C10_stepwise_hysteresis.

Theorem C10_outputs_are_table_entries : forall t h,
  Forall (fun o => exists i, (i < 20)%nat /\ o = sw_output t i) (step_outs t h).
Proof. exact step_outs_in_table. Qed.
Print Assumptions C10_outputs_are_table_entries.

(** 49 -> 20; 51 is within +2 of 49, so still 20; 52 -> 40; 49 is within -3. *)
Example C10_example :
  map dint (step_outs ex_table [D 49; D 51; D 52; D 49; D 48]) = [20; 20; 40; 40; 20]%Z.
Proof. vm_compute. reflexivity. Qed.
