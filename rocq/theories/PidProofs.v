(** * Proofs about the PID and stepwise loops. *)
From Coq Require Import ZArith Bool List Lia Reals Lra.
From Flocq Require Import Core.
From Verif Require Import Base Dbl DblFacts DblBound PidModel SpecPid.
Import ListNotations.

Local Arguments pid : simpl never.
Local Arguments initializePIDStruct : simpl never.

(** ** clamp *)
Lemma clamp_nan_inv x lo hi : is_nan x = true -> clamp x lo hi = x.
Proof.
  intros H. unfold clamp, dgtb. now rewrite dltb_nan_l, dltb_nan_r.
Qed.
Lemma clamp_notnan x lo hi : notnan (clamp x lo hi) -> notnan x.
Proof.
  unfold notnan. intros H. destruct (is_nan x) eqn:E; [|reflexivity].
  rewrite clamp_nan_inv in H by assumption. congruence.
Qed.
Lemma clamp_in l x : limits_ordered l -> in_limits_or_nan l (clamp x (lim_min l) (lim_max l)).
Proof.
  intros H. unfold in_limits_or_nan.
  destruct (is_nan x) eqn:E.
  - left. now rewrite clamp_nan_inv.
  - right. unfold clamp, dgtb. unfold limits_ordered in H. assert (HH := H). apply dle_iff in HH.
    destruct HH as (N1 & N2 & L).
    destruct (dltb x (lim_min l)) eqn:E1.
    + split; [now apply dle_refl|assumption].
    + apply dltb_false_dle in E1; try assumption.
      destruct (dltb (lim_max l) x) eqn:E2.
      * split; [assumption|now apply dle_refl].
      * apply dltb_false_dle in E2; try assumption. now split.
Qed.
Lemma clamp_mono lo hi x y : dle lo hi -> dle x y -> dle (clamp x lo hi) (clamp y lo hi).
Proof.
  intros Hl Hxy. unfold clamp, dgtb.
  assert (A := Hl). assert (B := Hxy). apply dle_iff in A, B.
  destruct A as (N1 & N2 & L1), B as (N3 & N4 & L2).
  destruct (dltb x lo) eqn:E1.
  - destruct (dltb y lo) eqn:E2; [now apply dle_refl|].
    destruct (dltb hi y) eqn:E3; [assumption|].
    now apply dltb_false_dle.
  - destruct (dltb hi x) eqn:E3.
    + destruct (dltb y lo) eqn:E2.
      * exfalso. assert (dlt y lo) by exact E2. assert (dlt hi x) by exact E3.
        apply dlt_iff in H, H0. lra.
      * destruct (dltb hi y) eqn:E4; [now apply dle_refl|].
        exfalso. apply dltb_false_dle in E4; try assumption.
        assert (dlt hi x) by exact E3. apply dlt_iff in H. apply dle_iff in E4. lra.
    + apply dltb_false_dle in E1; try assumption. apply dltb_false_dle in E3; try assumption.
      destruct (dltb y lo) eqn:E2.
      * exfalso. assert (dlt y lo) by exact E2. apply dlt_iff in H. apply dle_iff in E1. lra.
      * destruct (dltb hi y) eqn:E4; [assumption|assumption].
Qed.

Lemma limit_clamp l x : limit l x = clamp x (lim_min l) (lim_max l).
Proof. reflexivity. Qed.

(** ** Fields of one evaluation *)
Lemma pid_params info i s : params (fst (pid info i s)) = params info.
Proof. reflexivity. Qed.
Lemma pid_initialized info i s : initialized (fst (pid info i s)) = true.
Proof. reflexivity. Qed.
Lemma pid_lastOutput info i s : lastOutput (fst (pid info i s)) = snd (pid info i s).
Proof. reflexivity. Qed.
Lemma init_params cfg : params (initializePIDStruct pid_info_default cfg) = cfg.
Proof. destruct cfg as [? ? ? ? ? ? ? [? ?] [? ?] ? ? ? ?]. reflexivity. Qed.
Lemma init_initialized cfg : initialized (initializePIDStruct pid_info_default cfg) = false.
Proof. reflexivity. Qed.

Lemma pid_state_app cfg h x : pid_state cfg (h ++ [x]) = fst (pid (pid_state cfg h) (fst x) (snd x)).
Proof. unfold pid_state. now rewrite fold_left_app. Qed.
Lemma pid_state_params cfg h : params (pid_state cfg h) = cfg.
Proof.
  induction h as [|x h IH] using rev_ind; [apply init_params|].
  rewrite pid_state_app, pid_params. exact IH.
Qed.

Lemma dneb_deqb a b : dneb a b = negb (deqb a b).
Proof. reflexivity. Qed.
Lemma deqb_sym a b : deqb a b = deqb b a.
Proof.
  unfold deqb. rewrite (BinarySingleNaN.Bcompare_swap 53 1024 a b).
  destruct (BinarySingleNaN.Bcompare a b) as [[]|]; reflexivity.
Qed.

(** ** Slew stage, seen from outside *)
Lemma pid_out_form info x :
  let p := params info in
  snd (pid info (fst x) (snd x)) =
  if initialized info
  then spec_slew p (lastOutput info) (spec_unslewed p (integral info) (lastError info) x)
  else spec_unslewed p (integral info) (lastError info) x.
Proof.
  unfold pid, pid_eval, spec_slew, spec_unslewed, spec_P, spec_I, spec_D, spec_FF. simpl.
  rewrite (dneb_deqb d0), (deqb_sym d0), !dneb_deqb. rewrite <- !limit_clamp.
  destruct (deqb (integralCoeff (params info)) d0); simpl;
  destruct (initialized info); simpl; try reflexivity;
  destruct (deqb (slewNeg (params info)) d0); simpl;
  destruct (deqb (slewPos (params info)) d0); simpl; reflexivity.
Qed.

Lemma pid_integral_form info x :
  let p := params info in
  integral (fst (pid info (fst x) (snd x))) =
  limit (integralLimit p)
    (if initialized info && negb (deqb (slewNeg p) d0 && deqb (slewPos p) d0)
     then dsub (snd (pid info (fst x) (snd x))) (spec_P p x)
     else spec_I p (integral info) x).
Proof.
  unfold pid, pid_eval, spec_slew, spec_unslewed, spec_P, spec_I, spec_D, spec_FF. simpl.
  rewrite (dneb_deqb d0), (deqb_sym d0), !dneb_deqb. rewrite <- !limit_clamp.
  destruct (deqb (integralCoeff (params info)) d0); simpl;
  destruct (initialized info); simpl; try reflexivity;
  destruct (deqb (slewNeg (params info)) d0); simpl;
  destruct (deqb (slewPos (params info)) d0); simpl; reflexivity.
Qed.
Lemma pid_error_form info x : lastError (fst (pid info (fst x) (snd x))) = dsub (snd x) (fst x).
Proof. reflexivity. Qed.

(** Slew limiting keeps values inside the limits and NaN as NaN. *)
Lemma spec_slew_nan c prev x : is_nan x = true -> spec_slew c prev x = x.
Proof.
  intros H. unfold spec_slew, dmax, dmin. rewrite (dltb_nan_l x) by exact H.
  destruct (deqb (slewNeg c) d0); destruct (deqb (slewPos c) d0); try reflexivity;
   now rewrite (dltb_nan_r _ x) by exact H.
Qed.
Lemma spec_slew_notnan c prev x : notnan (spec_slew c prev x) -> notnan x.
Proof.
  unfold notnan. intros H. destruct (is_nan x) eqn:E; [|reflexivity].
  rewrite spec_slew_nan in H by assumption. congruence.
Qed.

Lemma slew_lo_le_prev c prev : sane_slew c -> notnan (dadd prev (dmul (slewNeg c) (ts c))) ->
  dle (dadd prev (dmul (slewNeg c) (ts c))) prev.
Proof.
  intros (H1 & H2 & H3) N. destruct (notnan_dadd_inv _ _ N).
  apply dadd_nonpos; [|assumption]. now apply dmul_nonpos_nonneg.
Qed.
Lemma slew_hi_ge_prev c prev : sane_slew c -> notnan (dadd prev (dmul (slewPos c) (ts c))) ->
  dle prev (dadd prev (dmul (slewPos c) (ts c))).
Proof.
  intros (H1 & H2 & H3) N. destruct (notnan_dadd_inv _ _ N).
  apply dadd_nonneg; [|assumption]. now apply dmul_sign_nonneg.
Qed.

Lemma dltb_notnan_l a b : dltb a b = true -> notnan a.
Proof. intros H. assert (H' : dlt a b) by exact H. apply dlt_iff in H'. tauto. Qed.
Lemma dltb_notnan_r a b : dltb a b = true -> notnan b.
Proof. intros H. assert (H' : dlt a b) by exact H. apply dlt_iff in H'. tauto. Qed.

Lemma spec_slew_in c l prev x : sane_slew c ->
  in_limits_or_nan l prev -> in_limits_or_nan l x -> in_limits_or_nan l (spec_slew c prev x).
Proof.
  intros S Hp Hx. unfold spec_slew.
  set (lo := if deqb (slewNeg c) d0 then x else dmax x (dadd prev (dmul (slewNeg c) (ts c)))).
  assert (Hlo : in_limits_or_nan l lo).
  { unfold lo. destruct (deqb (slewNeg c) d0); [assumption|]. unfold dmax.
    destruct (dltb x (dadd prev (dmul (slewNeg c) (ts c)))) eqn:E; [|assumption].
    assert (N := dltb_notnan_r _ _ E). assert (Nx := dltb_notnan_l _ _ E).
    right. destruct Hx as [Hx|[Hx1 Hx2]]; [unfold notnan in Nx; congruence|].
    destruct (notnan_dadd_inv _ _ N) as [Np _].
    destruct Hp as [Hp|[Hp1 Hp2]]; [unfold notnan in Np; congruence|].
    split.
    - apply dle_trans with x; [assumption|]. now apply dlt_dle.
    - apply dle_trans with prev; [|assumption]. now apply slew_lo_le_prev. }
  destruct (deqb (slewPos c) d0); [assumption|]. unfold dmin.
  destruct (dltb (dadd prev (dmul (slewPos c) (ts c))) lo) eqn:E; [|assumption].
  assert (N := dltb_notnan_l _ _ E). assert (Nx := dltb_notnan_r _ _ E).
  right. destruct Hlo as [Hlo|[Hx1 Hx2]]; [unfold notnan in Nx; congruence|].
  destruct (notnan_dadd_inv _ _ N) as [Np _].
  destruct Hp as [Hp|[Hp1 Hp2]]; [unfold notnan in Np; congruence|].
  split.
  - apply dle_trans with prev; [assumption|]. now apply slew_hi_ge_prev.
  - apply dle_trans with lo; [|assumption]. now apply dlt_dle.
Qed.

(** ** C01 *)
Definition out_inv (cfg : pidinfo) (i : pid_info_t) : Prop :=
  params i = cfg /\ (initialized i = true -> in_limits_or_nan (outLim cfg) (lastOutput i)).

Lemma pid_out_in cfg i x : limits_ordered (outLim cfg) -> sane_slew cfg ->
  out_inv cfg i -> in_limits_or_nan (outLim cfg) (snd (pid i (fst x) (snd x))).
Proof.
  intros L S [P H]. rewrite pid_out_form, P.
  assert (U : in_limits_or_nan (outLim cfg) (spec_unslewed cfg (integral i) (lastError i) x)).
  { unfold spec_unslewed. rewrite limit_clamp. now apply clamp_in. }
  destruct (initialized i); [|exact U]. apply spec_slew_in; auto.
Qed.
Lemma pid_out_inv cfg i x : limits_ordered (outLim cfg) -> sane_slew cfg ->
  out_inv cfg i -> out_inv cfg (fst (pid i (fst x) (snd x))).
Proof.
  intros L S H. split.
  - rewrite pid_params. apply H.
  - intros _. rewrite pid_lastOutput. now apply pid_out_in.
Qed.
Lemma pid_state_out_inv cfg h : limits_ordered (outLim cfg) -> sane_slew cfg ->
  out_inv cfg (pid_state cfg h).
Proof.
  intros L S. induction h as [|x h IH] using rev_ind.
  - split; [apply init_params|]. discriminate.
  - rewrite pid_state_app. now apply pid_out_inv.
Qed.
Lemma pid_output_in_limits cfg h x : limits_ordered (outLim cfg) -> sane_slew cfg ->
  in_limits_or_nan (outLim cfg) (pid_out cfg h x).
Proof. intros L S. apply pid_out_in; try assumption. now apply pid_state_out_inv. Qed.

(** Controllers without setpoint hysteresis run the PID on every call. *)
Lemma ctrl_state_app cfg h x :
  ctrl_state cfg (h ++ [x]) = fst (pid_process (ctrl_state cfg h) (snd x) (fst x)).
Proof. unfold ctrl_state. now rewrite fold_left_app. Qed.

Lemma process_nocheck c setpt input : checkHysterWithSetpt (params (pc_info c)) = false ->
  exists u, fst (pid_process c setpt input) =
            PidCtrl (fst (pid (pc_info c) u setpt))
                    (pc_lastInput (fst (pid_process c setpt input))) /\
            snd (pid_process c setpt input) = snd (pid (pc_info c) u setpt).
Proof.
  intros H. unfold pid_process, calPIDOutput. rewrite H.
  destruct (_ && _).
  - exists input. simpl. split; reflexivity.
  - eexists. simpl. split; reflexivity.
Qed.

Lemma ctrl_params_nocheck cfg h : checkHysterWithSetpt cfg = false ->
  params (pc_info (ctrl_state cfg h)) = cfg.
Proof.
  intros H. induction h as [|x h IH] using rev_ind; [apply init_params|].
  rewrite ctrl_state_app.
  destruct (process_nocheck (ctrl_state cfg h) (snd x) (fst x)) as [u [E _]]; [now rewrite IH|].
  rewrite E. simpl. exact IH.
Qed.
Lemma ctrl_params cfg h : params (pc_info (ctrl_state cfg h)) = cfg.
Proof.
  induction h as [|x h IH] using rev_ind; [apply init_params|].
  rewrite ctrl_state_app. unfold pid_process, calPIDOutput. rewrite IH.
  destruct (checkHysterWithSetpt cfg).
  - destruct (dgtb _ _); [simpl; exact IH|]. destruct (dltb _ _); [simpl; reflexivity|simpl; exact IH].
  - destruct (_ && _); simpl; exact IH.
Qed.

Lemma ctrl_out_inv cfg h : checkHysterWithSetpt cfg = false ->
  limits_ordered (outLim cfg) -> sane_slew cfg -> out_inv cfg (pc_info (ctrl_state cfg h)).
Proof.
  intros C L S. induction h as [|x h IH] using rev_ind.
  - split; [apply init_params|]. discriminate.
  - rewrite ctrl_state_app.
    destruct (process_nocheck (ctrl_state cfg h) (snd x) (fst x)) as [u [E _]]; [now rewrite ctrl_params|].
    rewrite E. simpl. exact (pid_out_inv cfg _ (u, snd x) L S IH).
Qed.
Lemma ctrl_output_in_limits cfg h x : checkHysterWithSetpt cfg = false ->
  limits_ordered (outLim cfg) -> sane_slew cfg -> in_limits_or_nan (outLim cfg) (ctrl_out cfg h x).
Proof.
  intros C L S. unfold ctrl_out.
  destruct (process_nocheck (ctrl_state cfg h) (snd x) (fst x)) as [u [_ E]]; [now rewrite ctrl_params|].
  rewrite E. apply (pid_out_in cfg _ (u, snd x) L S). now apply ctrl_out_inv.
Qed.

(** ** C02 *)
Lemma pid_integral_in i x : limits_ordered (integralLimit (params i)) ->
  in_limits_or_nan (integralLimit (params i)) (integral (fst (pid i (fst x) (snd x)))).
Proof. intros L. rewrite pid_integral_form. rewrite limit_clamp. now apply clamp_in. Qed.
Lemma pid_integral_in_limits cfg h x : limits_ordered (integralLimit cfg) ->
  in_limits_or_nan (integralLimit cfg) (integral (pid_state cfg (h ++ [x]))).
Proof.
  intros L. rewrite pid_state_app. rewrite <- (pid_state_params cfg h) at 1.
  apply pid_integral_in. now rewrite pid_state_params.
Qed.
Lemma ctrl_integral_in_limits cfg h x : limits_ordered (integralLimit cfg) ->
  checkHysterWithSetpt cfg = false ->
  in_limits_or_nan (integralLimit cfg) (integral (pc_info (ctrl_state cfg (h ++ [x])))).
Proof.
  intros L C. rewrite ctrl_state_app.
  destruct (process_nocheck (ctrl_state cfg h) (snd x) (fst x)) as [u [E _]]; [now rewrite ctrl_params|].
  rewrite E. simpl pc_info.
  assert (H := pid_integral_in (pc_info (ctrl_state cfg h)) (u, snd x)).
  rewrite ctrl_params in H. now apply H.
Qed.

(** ** C03 *)
Lemma spec_slew_hi c prev x : negb (deqb (slewPos c) d0) = true ->
  let b := dadd prev (dmul (slewPos c) (ts c)) in
  notnan (spec_slew c prev x) -> notnan b -> dle (spec_slew c prev x) b.
Proof.
  intros Hn b N Nb. unfold spec_slew in *. destruct (deqb (slewPos c) d0); [discriminate|].
  fold b in N |- *.
  set (lo := if deqb (slewNeg c) d0 then x else _) in *. unfold dmin in *.
  destruct (dltb b lo) eqn:E; [now apply dle_refl|]. now apply dltb_false_dle.
Qed.
Lemma spec_slew_lo c prev x : sane_slew c -> negb (deqb (slewNeg c) d0) = true ->
  let b := dadd prev (dmul (slewNeg c) (ts c)) in
  notnan (spec_slew c prev x) -> notnan b -> dle b (spec_slew c prev x).
Proof.
  intros S Hn b N Nb. unfold spec_slew in *. destruct (deqb (slewNeg c) d0); [discriminate|].
  fold b in N |- *.
  assert (Hlo : notnan (dmax x b) -> dle b (dmax x b)).
  { intros M. unfold dmax in *. destruct (dltb x b) eqn:E; [now apply dle_refl|]. now apply dltb_false_dle. }
  destruct (deqb (slewPos c) d0); [auto|]. unfold dmin in *.
  destruct (dltb (dadd prev (dmul (slewPos c) (ts c))) (dmax x b)) eqn:E; [|auto].
  assert (N2 := dltb_notnan_l _ _ E).
  apply dle_trans with prev; [now apply slew_lo_le_prev|now apply slew_hi_ge_prev].
Qed.

Lemma pid_slew_pos cfg h x y : let o := pid_out cfg h x in let o' := pid_out cfg (h ++ [x]) y in
  let b := dadd o (dmul (slewPos cfg) (ts cfg)) in
  deqb (slewPos cfg) d0 = false -> notnan o' -> notnan b -> dle o' b.
Proof.
  intros o o' b Hz N Nb. unfold o', pid_out in *. rewrite pid_state_app in *.
  rewrite pid_out_form in *. rewrite pid_params, pid_initialized, pid_lastOutput in *.
  rewrite pid_state_params in *. apply spec_slew_hi; try assumption. now rewrite Hz.
Qed.
Lemma pid_slew_neg cfg h x y : sane_slew cfg -> let o := pid_out cfg h x in let o' := pid_out cfg (h ++ [x]) y in
  let b := dadd o (dmul (slewNeg cfg) (ts cfg)) in
  deqb (slewNeg cfg) d0 = false -> notnan o' -> notnan b -> dle b o'.
Proof.
  intros S o o' b Hz N Nb. unfold o', pid_out in *. rewrite pid_state_app in *.
  rewrite pid_out_form in *. rewrite pid_params, pid_initialized, pid_lastOutput in *.
  rewrite pid_state_params in *. apply spec_slew_lo; try assumption. now rewrite Hz.
Qed.

(** ** C04 *)
Definition mem_of (i : pid_info_t) : option spec_mem :=
  if initialized i then Some (SpecMem (integral i) (lastError i) (lastOutput i)) else None.

Lemma pid_refines_step cfg i x : params i = cfg ->
  (initialized i = false -> integral i = d0 /\ lastError i = d0) ->
  spec_step cfg (mem_of i) x =
  SpecMem (integral (fst (pid i (fst x) (snd x)))) (lastError (fst (pid i (fst x) (snd x))))
          (snd (pid i (fst x) (snd x))).
Proof.
  intros P H. rewrite pid_integral_form, pid_error_form. rewrite (pid_out_form i x).
  rewrite P. unfold mem_of, spec_step. destruct (initialized i) eqn:E; simpl.
  - destruct (deqb (slewNeg cfg) d0 && deqb (slewPos cfg) d0); reflexivity.
  - destruct (H eq_refl) as [-> ->]. reflexivity.
Qed.
Lemma pid_outs_cons i x r : pid_outs_from i (x :: r) =
  snd (pid i (fst x) (snd x)) :: pid_outs_from (fst (pid i (fst x) (snd x))) r.
Proof. reflexivity. Qed.
Lemma pid_refines_from cfg h : forall i, params i = cfg ->
  (initialized i = false -> integral i = d0 /\ lastError i = d0) ->
  pid_outs_from i h = spec_outs_from cfg (mem_of i) h.
Proof.
  induction h as [|x r IH]; intros i P H; [reflexivity|].
  rewrite pid_outs_cons. cbn [spec_outs_from]. rewrite (pid_refines_step cfg i x P H).
  cbn [m_output]. f_equal. rewrite IH.
  - reflexivity.
  - now rewrite pid_params.
  - rewrite pid_initialized. discriminate.
Qed.
Lemma pid_refines cfg h : pid_outs cfg h = spec_outs cfg h.
Proof.
  unfold pid_outs, spec_outs.
  rewrite (pid_refines_from cfg h _ (init_params cfg)); [reflexivity|].
  intros _. split; reflexivity.
Qed.

(** ** C05 *)
Lemma limit_notnan l x : notnan (limit l x) -> notnan x.
Proof. rewrite limit_clamp. apply clamp_notnan. Qed.

Lemma spec_unslewed_mono c mi me sp x y :
  dle (proportionalCoeff c) d0 -> dle (integralCoeff c) d0 -> dle (derivativeCoeff c) d0 ->
  dlt d0 (ts c) -> limits_ordered (integralLimit c) -> limits_ordered (outLim c) ->
  dle x y ->
  notnan (spec_unslewed c mi me (x, sp)) -> notnan (spec_unslewed c mi me (y, sp)) ->
  dle (spec_unslewed c mi me (x, sp)) (spec_unslewed c mi me (y, sp)).
Proof.
  intros KP KI KD T LI LO Hxy Nx Ny. unfold spec_unslewed in *.
  assert (Sx := limit_notnan _ _ Nx). assert (Sy := limit_notnan _ _ Ny).
  rewrite !limit_clamp. apply clamp_mono; [exact LO|].
  destruct (notnan_dadd_inv _ _ Sx) as [S1x FFx]. destruct (notnan_dadd_inv _ _ Sy) as [S1y FFy].
  destruct (notnan_dadd_inv _ _ S1x) as [S2x Dx]. destruct (notnan_dadd_inv _ _ S1y) as [S2y Dy].
  destruct (notnan_dadd_inv _ _ S2x) as [Px Ix]. destruct (notnan_dadd_inv _ _ S2y) as [Py Iy].
  unfold spec_P, spec_I, spec_D, spec_FF in *. simpl fst in *. simpl snd in *.
  assert (Ex : notnan (dsub sp x)) by (apply notnan_dmul_inv in Px; tauto).
  assert (Ey : notnan (dsub sp y)) by (apply notnan_dmul_inv in Py; tauto).
  destruct (notnan_dsub_inv _ _ Ex) as [Nsp _].
  assert (HE : dle (dsub sp y) (dsub sp x)).
  { apply dsub_mono; try assumption. now apply dle_refl. }
  apply dadd_mono; try assumption; [|now apply dle_refl].
  apply dadd_mono; try assumption.
  - apply dadd_mono; try assumption.
    + apply dmul_anti_l; assumption.
    + destruct (deqb (integralCoeff c) d0); [apply dle_refl; reflexivity|].
      assert (Jx := limit_notnan _ _ Ix). assert (Jy := limit_notnan _ _ Iy).
      rewrite !limit_clamp. apply clamp_mono; [exact LI|].
      destruct (notnan_dadd_inv _ _ Jx) as [Mi Qx]. destruct (notnan_dadd_inv _ _ Jy) as [_ Qy].
      apply dadd_mono; try assumption; [now apply dle_refl|].
      apply dmul_mono_r; try assumption; [now apply dlt_dle|].
      apply notnan_dmul_inv in Qx. apply notnan_dmul_inv in Qy.
      apply dmul_anti_r; tauto.
  - assert (Vx : notnan (ddiv (dsub (dsub sp x) me) (ts c))) by (apply notnan_dmul_inv in Dx; tauto).
    assert (Vy : notnan (ddiv (dsub (dsub sp y) me) (ts c))) by (apply notnan_dmul_inv in Dy; tauto).
    apply dmul_anti_l; try assumption.
    apply ddiv_mono; try assumption.
    apply notnan_ddiv_inv in Vx. apply notnan_ddiv_inv in Vy.
    destruct Vx as [Vx _], Vy as [Vy _]. destruct (notnan_dsub_inv _ _ Vx) as [_ Nme].
    apply dsub_mono; try assumption. now apply dle_refl.
Qed.

Lemma dmax_mono_l x y b : notnan x -> notnan y -> dle x y -> notnan (dmax x b) -> notnan (dmax y b) -> dle (dmax x b) (dmax y b).
Proof.
  intros Nx Ny H N1 N2. unfold dmax in *. destruct (dltb x b) eqn:E1, (dltb y b) eqn:E2.
  - now apply dle_refl.
  - now apply dltb_false_dle.
  - apply dltb_notnan_r in E2 as Nb. apply dlt_dle. apply dle_lt_trans with y; assumption.
  - assumption.
Qed.
Lemma dmin_mono_l x y b : notnan x -> notnan y -> dle x y -> dle (dmin x b) (dmin y b).
Proof.
  intros Nx Ny H. unfold dmin in *. destruct (dltb b x) eqn:E1, (dltb b y) eqn:E2.
  - apply dltb_notnan_l in E1. now apply dle_refl.
  - apply dlt_dle. apply dlt_le_trans with x; assumption.
  - apply dltb_notnan_l in E2. now apply dltb_false_dle.
  - assumption.
Qed.
Lemma dmax_notnan x b : notnan x -> notnan (dmax x b).
Proof. intros H. unfold dmax. destruct (dltb x b) eqn:E; [|assumption]. now apply dltb_notnan_r in E. Qed.

Lemma spec_slew_mono c prev x y : notnan x -> notnan y -> dle x y -> dle (spec_slew c prev x) (spec_slew c prev y).
Proof.
  intros Nx Ny H. unfold spec_slew.
  destruct (deqb (slewNeg c) d0), (deqb (slewPos c) d0); try assumption.
  - now apply dmin_mono_l.
  - apply dmax_mono_l; try assumption; now apply dmax_notnan.
  - apply dmin_mono_l; try now apply dmax_notnan.
    apply dmax_mono_l; try assumption; now apply dmax_notnan.
Qed.

Lemma pid_monotone i sp x y :
  let c := params i in
  dle (proportionalCoeff c) d0 -> dle (integralCoeff c) d0 -> dle (derivativeCoeff c) d0 ->
  dlt d0 (ts c) -> limits_ordered (integralLimit c) -> limits_ordered (outLim c) ->
  dle x y ->
  notnan (snd (pid i x sp)) -> notnan (snd (pid i y sp)) ->
  dle (snd (pid i x sp)) (snd (pid i y sp)).
Proof.
  intros c KP KI KD T LI LO Hxy Nx Ny.
  assert (Fx := pid_out_form i (x, sp)). assert (Fy := pid_out_form i (y, sp)).
  cbv zeta in Fx, Fy. fold c in Fx, Fy. simpl fst in *. simpl snd at 2 in Fx. simpl snd at 2 in Fy.
  change (snd (x, sp)) with sp in *. change (snd (y, sp)) with sp in *.
  rewrite Fx in Nx |- *. rewrite Fy in Ny |- *.
  destruct (initialized i).
  - assert (Ux := spec_slew_notnan _ _ _ Nx). assert (Uy := spec_slew_notnan _ _ _ Ny).
    apply spec_slew_mono; try assumption. now apply spec_unslewed_mono.
  - now apply spec_unslewed_mono.
Qed.

(** ** C06 *)
Lemma Rx_D2_npow (k : Z) : (-1074 <= k <= 1023)%Z -> dfinite (D2 (-1) k) /\ Rx (D2 (-1) k) = (- bpow radix2 k)%R.
Proof.
  intros H.
  assert (C := BinarySingleNaN.binary_normalize_correct 53 1024 prec_pos prec_emax BinarySingleNaN.mode_NE (-1) k false).
  cbv zeta in C. fold (D2 (-1) k) in C. simpl BinarySingleNaN.round_mode in C.
  assert (EF : F2R (Float radix2 (-1) k) = (- bpow radix2 k)%R) by (unfold F2R; simpl; lra).
  rewrite EF in C. fold (RN (- bpow radix2 k)) in C. rewrite RN_opp, (RN_bpow k H) in C.
  rewrite Rlt_bool_true in C.
  - destruct C as (C1 & C2 & _). split; [exact C2|]. rewrite Rx_finite by exact C2. exact C1.
  - rewrite Rabs_Ropp, Rabs_pos_eq by apply bpow_ge_0. apply bpow_lt. lia.
Qed.
Lemma mag_le_bnd k x : (-1074 <= k <= 1023)%Z -> mag_le k x -> bnd k x.
Proof.
  intros Hk (F & L & U). apply dle_iff in L, U.
  destruct (Rx_D2_pow k Hk) as [_ E1]. destruct (Rx_D2_npow k Hk) as [_ E2].
  split; [assumption|]. apply Rabs_le. lra.
Qed.

Lemma clamp_bnd k x l : notnan x -> limits_ordered l -> bnd k (lim_min l) -> bnd k (lim_max l) ->
  bnd k (limit l x).
Proof.
  intros N O B1 B2. rewrite limit_clamp.
  destruct (clamp_in l x O) as [H|[H1 H2]].
  - unfold clamp, dgtb in *. destruct (dltb x (lim_min l)); [assumption|].
    destruct (dltb (lim_max l) x); [assumption|]. unfold notnan in N. congruence.
  - exact (bnd_between k _ _ _ B1 B2 H1 H2).
Qed.
Lemma dmin_notnan x b : notnan x -> notnan (dmin x b).
Proof. intros H. unfold dmin. destruct (dltb b x) eqn:E; [|assumption]. now apply dltb_notnan_l in E. Qed.
Lemma spec_slew_keeps_notnan c prev x : notnan x -> notnan (spec_slew c prev x).
Proof.
  intros H. unfold spec_slew.
  destruct (deqb (slewNeg c) d0), (deqb (slewPos c) d0); auto using dmin_notnan, dmax_notnan.
Qed.

Record bounded (c : pidinfo) : Prop := {
  b_ts : bnd 200 (ts c); b_ts_low : (bpow radix2 (-100) <= Rx (ts c))%R;
  b_p : bnd 200 (proportionalCoeff c); b_i : bnd 200 (integralCoeff c);
  b_d : bnd 200 (derivativeCoeff c);
  b_fo : bnd 200 (feedFwdOffset c); b_fg : bnd 200 (feedFwdGain c);
  b_imin : bnd 200 (lim_min (integralLimit c)); b_imax : bnd 200 (lim_max (integralLimit c));
  b_omin : bnd 200 (lim_min (outLim c)); b_omax : bnd 200 (lim_max (outLim c)) }.
Lemma bounded_cfg_bounded c : bounded_cfg c -> bounded c.
Proof.
  intros [H T]. repeat match goal with H : Forall _ (_ :: _) |- _ => inversion H; clear H; subst end.
  assert (K : forall x, mag_le 200 x -> bnd 200 x) by (intros; apply mag_le_bnd; [lia|assumption]).
  constructor; auto.
  apply dle_iff in T. destruct (Rx_D2_pow (-100) ltac:(lia)) as [_ E]. rewrite E in T. tauto.
Qed.

Definition fin_inv (c : pidinfo) (i : pid_info_t) : Prop :=
  params i = c /\ bnd 200 (integral i) /\ bnd 201 (lastError i) /\
  (initialized i = true -> in_limits (outLim c) (lastOutput i)).

Lemma spec_parts_bnd c mi me x : bounded c -> limits_ordered (integralLimit c) ->
  bnd 200 mi -> bnd 201 me -> bnd 200 (fst x) -> bnd 200 (snd x) ->
  bnd 201 (dsub (snd x) (fst x)) /\ bnd 401 (spec_P c x) /\ bnd 200 (spec_I c mi x) /\
  bnd 502 (spec_D c me x) /\ bnd 401 (spec_FF c x).
Proof.
  intros B LI Hmi Hme Hx Hs. destruct B.
  assert (He : bnd 201 (dsub (snd x) (fst x))) by (apply (bnd_sub 200); [lia|assumption|assumption]).
  split; [assumption|]. split; [|split; [|split]].
  - unfold spec_P. apply (bnd_mul 200 201); [lia|assumption|assumption].
  - unfold spec_I. destruct (deqb (integralCoeff c) d0); [apply bnd_d0|].
    apply clamp_bnd; try assumption.
    apply (bnd_notnan 602). apply (bnd_add 601); [lia| |].
    + apply (bnd_weaken 200); [lia|assumption].
    + apply (bnd_mul 401 200); [lia| |assumption].
      apply (bnd_mul 201 200); [lia|assumption|assumption].
  - unfold spec_D. apply (bnd_mul 200 302); [lia|assumption|].
    apply (bnd_div 202 100); [lia| |now apply bnd_finite in b_ts0|assumption].
    apply (bnd_sub 201); [lia|assumption|assumption].
  - unfold spec_FF. apply (bnd_mul 201 200); [lia| |assumption].
    apply (bnd_add 200); [lia|assumption|assumption].
Qed.

Lemma pid_fin_step c i x : bounded c -> limits_ordered (integralLimit c) -> limits_ordered (outLim c) ->
  sane_slew c -> bnd 200 (fst x) -> bnd 200 (snd x) -> fin_inv c i ->
  bnd 200 (snd (pid i (fst x) (snd x))) /\ fin_inv c (fst (pid i (fst x) (snd x))).
Proof.
  intros B LI LO S Hx Hs (P & Ii & Ie & Io).
  destruct (spec_parts_bnd c (integral i) (lastError i) x B LI Ii Ie Hx Hs) as (HE & HP & HI & HD & HF).
  assert (U : bnd 200 (spec_unslewed c (integral i) (lastError i) x)).
  { unfold spec_unslewed. apply clamp_bnd; [|assumption|apply B|apply B].
    apply (bnd_notnan 504). apply (bnd_add 503); [lia| |apply (bnd_weaken 401); [lia|assumption]].
    apply (bnd_add 502); [lia| |assumption].
    apply (bnd_weaken 402); [lia|]. apply (bnd_add 401); [lia|assumption|].
    apply (bnd_weaken 200); [lia|assumption]. }
  assert (UI : in_limits (outLim c) (spec_unslewed c (integral i) (lastError i) x)).
  { unfold spec_unslewed in *. rewrite limit_clamp in *. destruct (clamp_in (outLim c)
      (dadd (dadd (dadd (spec_P c x) (spec_I c (integral i) x)) (spec_D c (lastError i) x)) (spec_FF c x)) LO) as [N|H]; [|exact H].
    apply bnd_notnan in U. unfold notnan in U. congruence. }
  assert (O : in_limits (outLim c) (snd (pid i (fst x) (snd x)))).
  { rewrite pid_out_form, P. destruct (initialized i) eqn:E; [|exact UI].
    destruct (spec_slew_in c (outLim c) (lastOutput i)
       (spec_unslewed c (integral i) (lastError i) x) S (or_intror (Io eq_refl)) (or_intror UI)) as [N|H]; [|exact H].
    assert (N2 := spec_slew_keeps_notnan c (lastOutput i) _ (bnd_notnan _ _ U)).
    unfold notnan in N2. congruence. }
  assert (OB : bnd 200 (snd (pid i (fst x) (snd x)))).
  { destruct O as [O1 O2]. destruct B. exact (bnd_between 200 _ _ _ b_omin0 b_omax0 O1 O2). }
  split; [exact OB|]. split; [now rewrite pid_params|]. split; [|split].
  - rewrite pid_integral_form, P. apply clamp_bnd; try assumption; try apply B.
    destruct (_ && _).
    + apply (bnd_notnan 402). apply (bnd_sub 401); [lia|apply (bnd_weaken 200); [lia|assumption]|assumption].
    + now apply (bnd_notnan 200).
  - rewrite pid_error_form. exact HE.
  - intros _. rewrite pid_lastOutput. exact O.
Qed.
Lemma fin_inv_state c h : bounded c -> limits_ordered (integralLimit c) -> limits_ordered (outLim c) ->
  sane_slew c -> Forall bounded_sample h -> fin_inv c (pid_state c h).
Proof.
  intros B LI LO S. induction h as [|x h IH] using rev_ind; intros F.
  - split; [apply init_params|]. split; [apply bnd_d0|]. split; [apply bnd_d0|]. discriminate.
  - apply Forall_app in F. destruct F as [F1 F2]. inversion F2; subst.
    rewrite pid_state_app. apply pid_fin_step; auto; apply mag_le_bnd; try lia; apply H1.
Qed.
Lemma pid_no_nan c h x : bounded_cfg c -> limits_ordered (integralLimit c) ->
  limits_ordered (outLim c) -> sane_slew c -> Forall bounded_sample (h ++ [x]) ->
  let s := pid_state c (h ++ [x]) in
  dfinite (pid_out c h x) /\ dfinite (integral s) /\ dfinite (lastError s) /\ dfinite (lastOutput s).
Proof.
  intros B LI LO S F s. apply bounded_cfg_bounded in B. apply Forall_app in F. destruct F as [F1 F2].
  inversion F2; subst. destruct H1 as [X1 X2].
  assert (I := fin_inv_state c h B LI LO S F1).
  destruct (pid_fin_step c (pid_state c h) x B LI LO S) as [O (Q1 & Q2 & Q3 & Q4)]; auto;
    try (apply mag_le_bnd; [lia|assumption]).
  unfold s. rewrite pid_state_app. unfold pid_out.
  split; [eapply bnd_finite, O|]. split; [eapply bnd_finite, Q2|]. split; [eapply bnd_finite, Q3|].
  rewrite pid_lastOutput. eapply bnd_finite, O.
Qed.

(** ** C07 *)
Lemma ctrl_outs_cons c x r : ctrl_outs_from c (x :: r) =
  snd (pid_process c (snd x) (fst x)) :: ctrl_outs_from (fst (pid_process c (snd x) (fst x))) r.
Proof. cbn [ctrl_outs_from]. destruct (pid_process c (snd x) (fst x)). reflexivity. Qed.

Lemma ctrl_held cfg : checkHysterWithSetpt cfg = false ->
  deqb (positiveHysteresis cfg) d0 && deqb (negativeHysteresis cfg) d0 = false ->
  forall h c, params (pc_info c) = cfg ->
  exists us, held (positiveHysteresis cfg) (negativeHysteresis cfg) (pc_lastInput c) (map fst h) us /\
    ctrl_outs_from c h = pid_outs_from (pc_info c) (combine us (map snd h)) /\ length us = length h.
Proof.
  intros C Z. induction h as [|[r sp] h IH]; intros c P.
  - exists []. split; [constructor|]. split; reflexivity.
  - rewrite ctrl_outs_cons. cbn [fst snd map].
    set (u := if negb (disfinite (pc_lastInput c)) then r
      else if dgtb (dsub r (pc_lastInput c)) (positiveHysteresis cfg) then r
      else if dgtb (dsub (pc_lastInput c) r) (negativeHysteresis cfg) then r
      else pc_lastInput c).
    assert (E : pid_process c sp r = (PidCtrl (fst (pid (pc_info c) u sp)) u, snd (pid (pc_info c) u sp))).
    { unfold pid_process, calPIDOutput. rewrite P, C, Z. reflexivity. }
    rewrite E. cbn [fst snd].
    destruct (IH (PidCtrl (fst (pid (pc_info c) u sp)) u)) as (us & H1 & H2 & H3).
    { cbn [pc_info]. now rewrite pid_params. }
    exists (u :: us). cbn [pc_info pc_lastInput combine length] in *. split; [|split].
    + unfold u in *. destruct (disfinite (pc_lastInput c)) eqn:F; cbn [negb] in *.
      * destruct (dgtb (dsub r (pc_lastInput c)) (positiveHysteresis cfg)) eqn:G1.
        -- apply held_moves; [assumption|left; exact G1|assumption].
        -- destruct (dgtb (dsub (pc_lastInput c) r) (negativeHysteresis cfg)) eqn:G2.
           ++ apply held_moves; [assumption|right; exact G2|assumption].
           ++ apply held_keeps; [assumption| |assumption].
              intros [K|K]; unfold dlt, dgtb in *; congruence.
      * apply held_first; assumption.
    + rewrite pid_outs_cons. cbn [fst snd]. f_equal. exact H2.
    + now f_equal.
Qed.
Lemma held_band pos neg : dle d0 pos -> dle d0 neg -> forall prev rs us,
  held pos neg prev rs us -> Forall dfinite rs ->
  Forall2 (fun r u => dle (dsub r u) pos /\ dle (dsub u r) neg) rs us.
Proof.
  intros Hp Hn.
  assert (Refl : forall r, dfinite r -> dle (dsub r r) pos /\ dle (dsub r r) neg).
  { intros r F. destruct (dsub_Rx r r F F) as [N E].
    replace (Rx r - Rx r)%R with 0%R in E by lra. rewrite clip_RN_0 in E.
    apply dle_iff in Hp, Hn. rewrite Rx_d0 in *.
    split; apply dle_iff; repeat split; try tauto; try assumption; rewrite E; tauto. }
  intros prev rs us H. induction H; intros F; [constructor| | |]; inversion F; subst.
  - constructor; auto.
  - constructor; auto.
  - constructor; auto. apply dle_iff in Hp, Hn.
    unfold outside_band, dlt in H0.
    assert (N1 := proj1 (dsub_Rx r prev H4 H)). assert (N2 := proj1 (dsub_Rx prev r H H4)).
    split; apply dltb_false_dle; try tauto.
    + destruct (dltb pos (dsub r prev)) eqn:G; [exfalso; apply H0; now left|reflexivity].
    + destruct (dltb neg (dsub prev r)) eqn:G; [exfalso; apply H0; now right|reflexivity].
Qed.

(** ** C08 *)
Lemma ctrl_check_above cfg h x : checkHysterWithSetpt cfg = true ->
  dlt (dadd (snd x) (positiveHysteresis cfg)) (fst x) ->
  ctrl_out cfg h x = snd (pid (pc_info (ctrl_state cfg h)) (fst x) (snd x)) /\
  pc_info (ctrl_state cfg (h ++ [x])) = fst (pid (pc_info (ctrl_state cfg h)) (fst x) (snd x)).
Proof.
  intros C H. rewrite ctrl_state_app. unfold ctrl_out, pid_process, calPIDOutput. rewrite ctrl_params, C.
  unfold dlt in H. unfold dgtb. rewrite H. split; reflexivity.
Qed.
Lemma ctrl_check_below cfg h x : checkHysterWithSetpt cfg = true ->
  ~ dlt (dadd (snd x) (positiveHysteresis cfg)) (fst x) ->
  dlt (fst x) (dsub (snd x) (negativeHysteresis cfg)) ->
  ctrl_out cfg h x = d0 /\ integral (pc_info (ctrl_state cfg (h ++ [x]))) = d0.
Proof.
  intros C H1 H2. rewrite ctrl_state_app. unfold ctrl_out, pid_process, calPIDOutput. rewrite ctrl_params, C.
  unfold dlt in *. unfold dgtb.
  destruct (dltb (dadd (snd x) (positiveHysteresis cfg)) (fst x)); [congruence|].
  rewrite H2. split; reflexivity.
Qed.
Lemma ctrl_lastOutput cfg h x : lastOutput (pc_info (ctrl_state cfg (h ++ [x]))) = ctrl_out cfg h x.
Proof.
  rewrite ctrl_state_app. unfold ctrl_out, pid_process.
  destruct (calPIDOutput (ctrl_state cfg h) (snd x) (fst x)). reflexivity.
Qed.
Lemma ctrl_check_between cfg h x : checkHysterWithSetpt cfg = true ->
  ~ dlt (dadd (snd x) (positiveHysteresis cfg)) (fst x) ->
  ~ dlt (fst x) (dsub (snd x) (negativeHysteresis cfg)) ->
  ctrl_out cfg h x = lastOutput (pc_info (ctrl_state cfg h)) /\
  pc_info (ctrl_state cfg (h ++ [x])) = pc_info (ctrl_state cfg h).
Proof.
  intros C H1 H2. rewrite ctrl_state_app. unfold ctrl_out, pid_process, calPIDOutput. rewrite ctrl_params, C.
  unfold dlt in *. unfold dgtb.
  destruct (dltb (dadd (snd x) (positiveHysteresis cfg)) (fst x)); [congruence|].
  destruct (dltb (fst x) (dsub (snd x) (negativeHysteresis cfg))); [congruence|].
  cbn [fst snd pc_info]. split; [reflexivity|]. rewrite ctrl_params. destruct (pc_info (ctrl_state cfg h)) eqn:E. cbn.
  assert (P := ctrl_params cfg h). rewrite E in P. cbn in P. now subst.
Qed.

Lemma ctrl_check_repeat cfg h w x : checkHysterWithSetpt cfg = true ->
  ~ dlt (dadd (snd x) (positiveHysteresis cfg)) (fst x) ->
  ~ dlt (fst x) (dsub (snd x) (negativeHysteresis cfg)) ->
  ctrl_out cfg (h ++ [w]) x = ctrl_out cfg h w /\
  pc_info (ctrl_state cfg (h ++ [w; x])) = pc_info (ctrl_state cfg (h ++ [w])).
Proof.
  intros C H1 H2. destruct (ctrl_check_between cfg (h ++ [w]) x C H1 H2) as [E1 E2].
  rewrite ctrl_lastOutput in E1. split; [exact E1|].
  change [w; x] with ([w] ++ [x]). now rewrite app_assoc.
Qed.

(** ** C09 *)
Lemma stepwise_loop_spec t x : forall n ii v i0,
  (ii + n = 20)%nat -> (ii = S i0)%nat -> v = sw_output t i0 ->
  (forall j, (1 <= j <= i0)%nat -> usable t x j) ->
  lookup_is t x (stepwise_loop t x ii n v).
Proof.
  induction n as [|n IH]; intros ii v i0 E1 E2 Ev U.
  - simpl. exists i0. split; [lia|]. split; [exact Ev|]. split; [exact U|]. left. lia.
  - simpl. unfold disnan. destruct (is_nan (sw_reading t ii)) eqn:N.
    + exists i0. split; [lia|]. split; [exact Ev|]. split; [exact U|]. right. subst ii.
      intros [K _]. congruence.
    + unfold dgtb. destruct (dltb x (sw_reading t ii)) eqn:L.
      * exists i0. split; [lia|]. split; [exact Ev|]. split; [exact U|]. right. subst ii.
        intros [_ K]. apply K. exact L.
      * apply (IH (S ii) _ ii); [lia|lia|reflexivity|].
        intros j Hj. destruct (Nat.eq_dec j ii) as [->|Hne].
        -- split; [exact N|]. unfold dlt. congruence.
        -- apply U. lia.
Qed.
Lemma stepwise_lookup t x : lookup_is t x (stepwise t x).
Proof.
  unfold stepwise, maxStepwisePoints. apply (stepwise_loop_spec t x _ _ _ 0); try reflexivity.
  intros j Hj. lia.
Qed.
Lemma lookup_unique t x v w : lookup_is t x v -> lookup_is t x w -> v = w.
Proof.
  intros (i & Hi & Ev & Ui & Ni) (j & Hj & Ew & Uj & Nj).
  assert (i = j); [|congruence].
  destruct (Nat.lt_trichotomy i j) as [L|[E|L]]; [|assumption|].
  - exfalso. destruct Ni as [->|Ni]; [lia|]. apply Ni, Uj. lia.
  - exfalso. destruct Nj as [->|Nj]; [lia|]. apply Nj, Ui. lia.
Qed.
Lemma usable_le t n x j : increasing_table t n -> notnan x -> (j < n)%nat ->
  (usable t x j <-> dle (sw_reading t j) x).
Proof.
  intros (Hn & NN & _ & _) Nx Hj. assert (N := NN j Hj). split.
  - intros [_ K]. apply dltb_false_dle; try assumption. unfold dlt in K.
    destruct (dltb x (sw_reading t j)); congruence.
  - intros K. split; [exact N|]. intros K2. apply dle_not_lt in K. unfold dlt in K2. congruence.
Qed.
Lemma stepwise_sorted t n x i : increasing_table t n -> notnan x -> (i < n)%nat ->
  dle (sw_reading t i) x -> (forall j, (i < j < n)%nat -> dlt x (sw_reading t j)) ->
  stepwise t x = sw_output t i.
Proof.
  intros T Nx Hi Hle Hgt. apply (lookup_unique t x); [apply stepwise_lookup|].
  assert (T' := T). destruct T' as (Hn & NN & NL & Inc).
  exists i. split; [lia|]. split; [reflexivity|]. split.
  - intros j Hj. apply (usable_le t n); try assumption; [lia|].
    destruct (Nat.eq_dec j i) as [->|Hne]; [assumption|].
    apply dle_trans with (sw_reading t i); [|assumption]. apply dlt_dle, Inc. lia.
  - destruct (Nat.eq_dec i 19) as [->|Hne]; [now left|]. right.
    destruct (Nat.eq_dec (S i) n) as [E|E].
    + intros [K _]. subst n. rewrite NL in K by lia. discriminate.
    + intros K. destruct K as [_ K]. apply K, Hgt. lia.
Qed.
Lemma stepwise_below t n x : increasing_table t n ->
  (forall j, (1 <= j < n)%nat -> dlt x (sw_reading t j)) -> stepwise t x = sw_output t 0.
Proof.
  intros T Hgt. apply (lookup_unique t x); [apply stepwise_lookup|].
  destruct T as (Hn & NN & NL & Inc).
  exists 0%nat. split; [lia|]. split; [reflexivity|]. split; [intros; lia|]. right.
  destruct (Nat.eq_dec 1 n) as [E|E].
  - intros [K _]. subst n. rewrite NL in K by lia. discriminate.
  - intros [_ K]. apply K, Hgt. lia.
Qed.
Lemma stepwise_nan_unused t n : (1 <= n < 20)%nat -> is_nan (sw_reading t n) = true ->
  forall x, exists i, (i < n)%nat /\ stepwise t x = sw_output t i.
Proof.
  intros Hn N x. destruct (stepwise_lookup t x) as (i & Hi & E & U & _).
  exists i. split; [|exact E]. destruct (Nat.lt_ge_cases i n) as [H|H]; [assumption|].
  exfalso. destruct (U n ltac:(lia)) as [K _]. congruence.
Qed.
Lemma stepwise_mono t n x y : increasing_table t n ->
  (forall i j, (i <= j < n)%nat -> dle (sw_output t i) (sw_output t j)) ->
  dle x y -> dle (stepwise t x) (stepwise t y).
Proof.
  intros T O Hxy. assert (A := Hxy). apply dle_iff in A. destruct A as (Nx & Ny & _).
  destruct (stepwise_lookup t x) as (i & Hi & Ex & Ux & Dx).
  destruct (stepwise_lookup t y) as (j & Hj & Ey & Uy & Dy).
  rewrite Ex, Ey. assert (T' := T). destruct T' as (Hn & NN & NL & Inc).
  assert (B : forall i, (forall k, (1 <= k <= i)%nat -> usable t x k) -> (i < 20)%nat -> (i < n)%nat).
  { intros k Uk Hk. destruct (Nat.lt_ge_cases k n) as [H|H]; [assumption|]. exfalso.
    destruct (Uk n ltac:(lia)) as [K _]. rewrite NL in K by lia. discriminate. }
  assert (B' : (j < n)%nat).
  { destruct (Nat.lt_ge_cases j n) as [H|H]; [assumption|]. exfalso.
    destruct (Uy n ltac:(lia)) as [K _]. rewrite NL in K by lia. discriminate. }
  specialize (B i Ux Hi). apply O. split; [|assumption].
  destruct (Nat.le_gt_cases i j) as [H|H]; [assumption|]. exfalso.
  destruct Dy as [->|Dy]; [lia|]. apply Dy. 
  assert (Uxj : usable t x (S j)) by (apply Ux; lia).
  apply (usable_le t n) in Uxj; try assumption; [|lia].
  apply (usable_le t n); try assumption; [lia|]. now apply dle_trans with x.
Qed.

(** ** C10 *)
Lemma step_outs_cons c x r : step_outs_from c (x :: r) =
  snd (stepwise_process c x) :: step_outs_from (fst (stepwise_process c x)) r.
Proof. cbn [step_outs_from]. destruct (stepwise_process c x). reflexivity. Qed.

Lemma step_trace_from t : forall h c p, sc_info c = t ->
  (p = None /\ is_nan (sc_lastOutput c) = true \/ p = Some (sc_lastInput c, sc_lastOutput c)) ->
  step_trace t p h (step_outs_from c h).
Proof.
  induction h as [|x h IH]; intros c p E Hp; [constructor|].
  rewrite step_outs_cons. unfold stepwise_process. rewrite E. unfold disnan.
  assert (R : step_trace t (Some (x, stepwise t x)) h
     (step_outs_from (StepCtrl t x (stepwise t x)) h)) by (apply IH; [reflexivity|now right]).
  destruct (is_nan (sc_lastOutput c)) eqn:N.
  - cbn [fst snd]. destruct Hp as [[-> _]| ->].
    + apply st_first; [apply stepwise_lookup|exact R].
    + apply st_moves; [now right|apply stepwise_lookup|exact R].
  - destruct Hp as [[_ K]| ->]; [congruence|].
    destruct (dgtb (dsub x (sc_lastInput c)) (sw_positiveHysteresis t)) eqn:G1.
    + cbn [fst snd]. apply st_moves; [left; left; exact G1|apply stepwise_lookup|exact R].
    + destruct (dgtb (dsub (sc_lastInput c) x) (sw_negativeHysteresis t)) eqn:G2.
      * cbn [fst snd]. apply st_moves; [left; right; exact G2|apply stepwise_lookup|exact R].
      * cbn [fst snd]. apply st_holds; [|assumption|].
        -- intros [K|K]; unfold dlt, dgtb in *; congruence.
        -- apply IH; [reflexivity|now right].
Qed.
Lemma step_trace_init t h : step_trace t None h (step_outs t h).
Proof. apply step_trace_from; [reflexivity|]. left. split; reflexivity. Qed.
Lemma step_trace_in_table t p h os : step_trace t p h os ->
  (forall x o, p = Some (x, o) -> exists i, (i < 20)%nat /\ o = sw_output t i) ->
  Forall (fun o => exists i, (i < 20)%nat /\ o = sw_output t i) os.
Proof.
  intros H. induction H; intros Hp.
  - constructor.
  - destruct H as (i & Hi & E & _). constructor; [eauto|]. apply IHstep_trace. intros x' o' K. inversion K; subst. eauto.
  - destruct H0 as (i & Hi & E & _). constructor; [eauto|]. apply IHstep_trace. intros x' o' K. inversion K; subst. eauto.
  - constructor; [eauto|]. apply IHstep_trace. exact Hp.
Qed.
Lemma step_outs_in_table t h : Forall (fun o => exists i, (i < 20)%nat /\ o = sw_output t i) (step_outs t h).
Proof. eapply step_trace_in_table; [apply step_trace_init|]. discriminate. Qed.
