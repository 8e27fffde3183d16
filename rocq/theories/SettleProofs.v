(** * Proofs for C107: a zone whose readings stay the same, controllers and setpoint. *)
From Coq Require Import ZArith Bool List String Lia.
From Coq Require Import Floats.SpecFloat.
From Coq Require Import Reals Lra.
From Flocq Require Import Core IEEE754.BinarySingleNaN.
From Verif Require Import Base BaseFacts Dbl DblFacts DblBound DblOrder PidModel SpecPid PidProofs ZoneModel LoopModel SpecZone
  ZoneFrame ZoneThermal ZoneFan ZoneProofs SpecHeat HeatProofs HeatZone SpecRest RestProofs.
Import ListNotations.
Local Open Scope list_scope.
Local Arguments pid_process : simpl never.
Local Arguments stepwise_process : simpl never.

(** ** Doubles that differ in the sign of zero at most *)
Definition sim (x y : dbl) : Prop := x = y \/ exists s t, x = B754_zero s /\ y = B754_zero t.

Lemma sim_refl x : sim x x. Proof. now left. Qed.
Lemma sim_sym x y : sim x y -> sim y x.
Proof. intros [->|(s & t & -> & ->)]; [now left|right; eauto]. Qed.
Lemma sim_trans x y z : sim x y -> sim y z -> sim x z.
Proof.
  intros [->|(s & t & -> & ->)] [<-|(s' & t' & E & ->)]; try (now left).
  - subst. right. eauto.
  - right. eauto.
  - right. eauto.
Qed.
Lemma sim_zeros s t : sim (B754_zero s) (B754_zero t).
Proof. right. eauto. Qed.

Lemma dadd_sim a a' b b' : sim a a' -> sim b b' -> sim (dadd a b) (dadd a' b').
Proof.
  intros [->|(s & t & -> & ->)] [->|(s' & t' & -> & ->)]; try apply sim_refl.
  - destruct a'; try apply sim_refl. unfold dadd, Bplus. destruct s, s', t'; apply sim_zeros.
  - destruct b'; try apply sim_refl. unfold dadd, Bplus. destruct s, s0, t; apply sim_zeros.
  - unfold dadd, Bplus. destruct s, s', t, t'; apply sim_zeros.
Qed.
Lemma dsub_sim a a' b b' : sim a a' -> sim b b' -> sim (dsub a b) (dsub a' b').
Proof.
  intros [->|(s & t & -> & ->)] [->|(s' & t' & -> & ->)]; try apply sim_refl.
  - destruct a'; try apply sim_refl. unfold dsub, Bminus. destruct s, s', t'; apply sim_zeros.
  - destruct b'; try apply sim_refl. unfold dsub, Bminus. destruct s, s0, t; apply sim_zeros.
  - unfold dsub, Bminus. destruct s, s', t, t'; apply sim_zeros.
Qed.
Lemma dmul_sim a a' b b' : sim a a' -> sim b b' -> sim (dmul a b) (dmul a' b').
Proof.
  intros [->|(s & t & -> & ->)] [->|(s' & t' & -> & ->)]; try apply sim_refl.
  - destruct a'; try apply sim_refl; apply sim_zeros.
  - destruct b'; try apply sim_refl; apply sim_zeros.
  - apply sim_zeros.
Qed.
Lemma ddiv_sim a a' b : sim a a' -> sim (ddiv a b) (ddiv a' b).
Proof.
  intros [->|(s & t & -> & ->)]; try apply sim_refl.
  destruct b; try apply sim_refl; apply sim_zeros.
Qed.
Lemma Bcompare_sim (a a' b b' : dbl) : sim a a' -> sim b b' -> Bcompare a b = Bcompare a' b'.
Proof. intros [->|(s & t & -> & ->)] [->|(s' & t' & -> & ->)]; reflexivity. Qed.
Lemma dltb_sim a a' b b' : sim a a' -> sim b b' -> dltb a b = dltb a' b'.
Proof. intros A B. unfold dltb. now rewrite (Bcompare_sim _ _ _ _ A B). Qed.
Lemma dleb_sim a a' b b' : sim a a' -> sim b b' -> dleb a b = dleb a' b'.
Proof. intros A B. unfold dleb. now rewrite (Bcompare_sim _ _ _ _ A B). Qed.
Lemma disfinite_sim a a' : sim a a' -> disfinite a = disfinite a'.
Proof. intros [->|(s & t & -> & ->)]; reflexivity. Qed.
Lemma clamp_sim a a' lo hi : sim a a' -> sim (clamp a lo hi) (clamp a' lo hi).
Proof.
  intros A. unfold clamp, dgtb. rewrite (dltb_sim _ _ _ _ A (sim_refl lo)), (dltb_sim _ _ _ _ (sim_refl hi) A).
  destruct (dltb _ _); [apply sim_refl|]. destruct (dltb _ _); [apply sim_refl|exact A].
Qed.
Lemma dmax_sim a a' b b' : sim a a' -> sim b b' -> sim (dmax a b) (dmax a' b').
Proof. intros A B. unfold dmax. rewrite (dltb_sim _ _ _ _ A B). now destruct (dltb _ _). Qed.
Lemma dmin_sim a a' b b' : sim a a' -> sim b b' -> sim (dmin a b) (dmin a' b').
Proof. intros A B. unfold dmin. rewrite (dltb_sim _ _ _ _ B A). now destruct (dltb _ _). Qed.

Lemma sim_deq x y : notnan x -> sim x y -> deq x y.
Proof. intros N [->|(s & t & -> & ->)]; [now apply deq_refl|reflexivity]. Qed.
Lemma strict_nonzero (x : dbl) : is_finite_strict x = true -> B2R x <> 0%R.
Proof.
  destruct x as [| | |s m e b]; try discriminate. intros _. unfold B2R. destruct s.
  - apply Rlt_not_eq. apply Float_prop.F2R_lt_0. reflexivity.
  - apply Rgt_not_eq. apply Float_prop.F2R_gt_0. reflexivity.
Qed.
Lemma weak_zero (x : dbl) : dfinite x -> is_finite_strict x = false -> exists s, x = B754_zero s.
Proof. destruct x; try discriminate. eauto. Qed.
Lemma deq_sim x y : dfinite x -> deq x y -> sim x y.
Proof.
  intros F E. assert (Fy : dfinite y).
  { destruct x; try discriminate F; destruct y; try reflexivity; try discriminate E;
    unfold deq, deqb in E; cbn in E; try destruct s; try destruct s0; discriminate E. }
  apply deq_iff in E. destruct E as (_ & _ & E). rewrite (Rx_finite x F), (Rx_finite y Fy) in E.
  destruct (is_finite_strict x) eqn:Sx, (is_finite_strict y) eqn:Sy.
  - left. now apply (B2R_inj 53 1024).
  - destruct (weak_zero y Fy Sy) as (s & ->). exfalso. exact (strict_nonzero _ Sx E).
  - destruct (weak_zero x F Sx) as (s & ->). exfalso. exact (strict_nonzero _ Sy (eq_sym E)).
  - destruct (weak_zero x F Sx) as (s & ->), (weak_zero y Fy Sy) as (t & ->). apply sim_zeros.
Qed.

(** ** PID controllers do not see the sign of zero *)
Definition isim (i j : pid_info_t) : Prop :=
  initialized i = initialized j /\ params i = params j /\ sim (integral i) (integral j) /\
  sim (lastOutput i) (lastOutput j) /\ sim (lastError i) (lastError j).
Definition csim (p q : pid_ctrl) : Prop := isim (pc_info p) (pc_info q) /\ sim (pc_lastInput p) (pc_lastInput q).
Lemma isim_refl i : isim i i.
Proof. unfold isim. auto using sim_refl. Qed.
Lemma csim_refl p : csim p p.
Proof. split; [apply isim_refl|apply sim_refl]. Qed.

Lemma spec_P_sim c x y : sim (fst x) (fst y) -> sim (snd x) (snd y) -> sim (spec_P c x) (spec_P c y).
Proof. intros A B. unfold spec_P. apply dmul_sim; [apply sim_refl|now apply dsub_sim]. Qed.
Lemma spec_I_sim c mi mj x y : sim mi mj -> sim (fst x) (fst y) -> sim (snd x) (snd y) -> sim (spec_I c mi x) (spec_I c mj y).
Proof.
  intros M A B. unfold spec_I. destruct (deqb _ _); [apply sim_refl|]. rewrite !limit_clamp. apply clamp_sim, dadd_sim; [exact M|].
  apply dmul_sim; [|apply sim_refl]. apply dmul_sim; [now apply dsub_sim|apply sim_refl].
Qed.
Lemma unslewed_sim c mi mj ei ej x y : sim mi mj -> sim ei ej -> sim (fst x) (fst y) -> sim (snd x) (snd y) ->
  sim (spec_unslewed c mi ei x) (spec_unslewed c mj ej y).
Proof.
  intros M E A B. unfold spec_unslewed. rewrite !limit_clamp. apply clamp_sim.
  apply dadd_sim; [apply dadd_sim; [apply dadd_sim|]|].
  - now apply spec_P_sim.
  - now apply spec_I_sim.
  - unfold spec_D. apply dmul_sim; [apply sim_refl|]. apply ddiv_sim, dsub_sim; [now apply dsub_sim|exact E].
  - unfold spec_FF. apply dmul_sim; [|apply sim_refl]. apply dadd_sim; [exact B|apply sim_refl].
Qed.
Lemma slew_sim c p q x y : sim p q -> sim x y -> sim (spec_slew c p x) (spec_slew c q y).
Proof.
  intros P X. unfold spec_slew.
  assert (G : forall r, sim (dadd p r) (dadd q r)) by (intros r; apply dadd_sim; [exact P|apply sim_refl]).
  destruct (deqb (slewNeg c) d0), (deqb (slewPos c) d0); auto using dmin_sim, dmax_sim.
Qed.

Lemma pid_sim i j x y : isim i j -> sim (fst x) (fst y) -> sim (snd x) (snd y) ->
  sim (snd (pid i (fst x) (snd x))) (snd (pid j (fst y) (snd y))) /\
  isim (fst (pid i (fst x) (snd x))) (fst (pid j (fst y) (snd y))).
Proof.
  intros (Ei & Ep & A1 & A2 & A3) X S.
  assert (O : sim (snd (pid i (fst x) (snd x))) (snd (pid j (fst y) (snd y)))).
  { rewrite !pid_out_form, Ei, Ep. destruct (initialized j); [apply slew_sim; [exact A2|]|]; now apply unslewed_sim. }
  split; [exact O|]. unfold isim. rewrite !pid_params, !pid_lastOutput, !pid_error_form, !pid_integral_form, Ei, Ep.
  split; [reflexivity|]. split; [reflexivity|]. split; [|split; [exact O|now apply dsub_sim]].
  rewrite !limit_clamp. apply clamp_sim. destruct (_ && _); [|now apply spec_I_sim].
  apply dsub_sim; [exact O|now apply spec_P_sim].
Qed.

Lemma process_sim p q s t u v : csim p q -> sim s t -> sim u v ->
  sim (snd (pid_process p s u)) (snd (pid_process q t v)) /\ csim (fst (pid_process p s u)) (fst (pid_process q t v)).
Proof.
  intros (I & L) S U. assert (I' := I). destruct I' as (Ei & Ep & A1 & A2 & A3).
  assert (G : forall u v, sim u v ->
    sim (snd (pid (pc_info p) u s)) (snd (pid (pc_info q) v t)) /\
    isim (fst (pid (pc_info p) u s)) (fst (pid (pc_info q) v t)))
    by (intros u' v' H; exact (pid_sim _ _ (u', s) (v', t) I H S)).
  unfold pid_process, calPIDOutput. rewrite Ep.
  destruct (checkHysterWithSetpt (params (pc_info q))).
  - unfold dgtb. rewrite (dltb_sim _ _ _ _ (dadd_sim _ _ _ _ S (sim_refl (positiveHysteresis (params (pc_info q))))) U).
    rewrite (dltb_sim _ _ _ _ U (dsub_sim _ _ _ _ S (sim_refl (negativeHysteresis (params (pc_info q)))))).
    destruct (dltb _ v).
    + destruct (G u v U) as (O & (K1 & K2 & K3 & K4 & K5)).
      destruct (pid (pc_info p) u s) as [i o], (pid (pc_info q) v t) as [j o']. cbn in *.
      split; [exact O|]. split; [|exact U]. unfold isim. cbn. auto.
    + destruct (dltb v _).
      * cbn. split; [apply sim_refl|]. split; [|exact S]. unfold isim. cbn. auto using sim_refl.
      * cbn. split; [exact A2|]. split; [|exact U]. unfold isim. cbn. auto.
  - destruct (_ && _).
    + destruct (G u v U) as (O & (K1 & K2 & K3 & K4 & K5)).
      destruct (pid (pc_info p) u s) as [i o], (pid (pc_info q) v t) as [j o']. cbn in *.
      split; [exact O|]. split; [|exact U]. unfold isim. cbn. auto.
    + set (a := if negb (disfinite (pc_lastInput p)) then u else _).
      set (b := if negb (disfinite (pc_lastInput q)) then v else _).
      assert (AB : sim a b).
      { unfold a, b, dgtb. rewrite (disfinite_sim _ _ L). destruct (disfinite (pc_lastInput q)); cbn [negb]; [|exact U].
        rewrite (dltb_sim _ _ _ _ (sim_refl (positiveHysteresis (params (pc_info q)))) (dsub_sim _ _ _ _ U L)).
        destruct (dltb _ _); [exact U|].
        rewrite (dltb_sim _ _ _ _ (sim_refl (negativeHysteresis (params (pc_info q)))) (dsub_sim _ _ _ _ L U)).
        destruct (dltb _ _); [exact U|exact L]. }
      destruct (G a b AB) as (O & (K1 & K2 & K3 & K4 & K5)).
      destruct (pid (pc_info p) a s) as [i o], (pid (pc_info q) b t) as [j o']. cbn in *.
      split; [exact O|]. split; [|exact AB]. unfold isim. cbn. auto.
Qed.

(** ** The setpoint does not see the sign of zero *)
Definition req_sim (a b : string * dbl) : Prop := fst a = fst b /\ sim (snd a) (snd b).
Lemma fold_sim g : (forall a a' b b', sim a a' -> sim b b' -> sim (g a b) (g a' b')) ->
  forall l l', Forall2 sim l l' -> forall a a', sim a a' -> sim (fold_left g l a) (fold_left g l' a').
Proof. intros G l l' H. induction H; intros a a' A; cbn; auto. Qed.
Lemma profile_sum_sim p r1 r2 : Forall2 req_sim r1 r2 -> sim (profile_sum p r1) (profile_sum p r2).
Proof.
  intros H. unfold profile_sum. apply fold_sim; [exact dadd_sim| |apply sim_refl].
  induction H as [|a b r1 r2 (E & L) H IH]; [constructor|]. cbn. rewrite E. destruct (String.eqb _ _); cbn; auto.
Qed.
Lemma running_sums_sim r1 r2 : Forall2 req_sim r1 r2 -> Forall2 sim (running_sums r1) (running_sums r2).
Proof.
  intros H. unfold running_sums.
  assert (EL : List.length r1 = List.length r2) by (clear -H; induction H; simpl; congruence).
  rewrite <- EL. generalize (seq 0 (List.length r1)). intros ks. induction ks as [|k ks IH]; [constructor|].
  cbn [map]. constructor; [|exact IH].
  assert (P := Forall2_firstn _ _ _ H (S k)).
  assert (N : match nth_error r1 k, nth_error r2 k with
              | Some a, Some b => fst a = fst b | None, None => True | _, _ => False end).
  { clear -H. revert k. induction H as [|a b r1 r2 (E & _) H IH]; intros [|k]; simpl; auto. apply IH. }
  destruct (nth_error r1 k) as [a|], (nth_error r2 k) as [b|]; try contradiction.
  - rewrite N. now apply profile_sum_sim.
  - apply sim_refl.
Qed.
Lemma top_sim acc r1 r2 : Forall2 req_sim r1 r2 -> sim (fr_max (fold_req acc r1)) (fr_max (fold_req acc r2)).
Proof.
  intros H. destruct acc.
  - destruct (fold_req_acc r1) as [-> _]. destruct (fold_req_acc r2) as [-> _].
    apply fold_sim; [exact dmax_sim|now apply running_sums_sim|apply sim_refl].
  - destruct (fold_req_plain r1) as [-> _]. destruct (fold_req_plain r2) as [-> _].
    apply fold_sim; [exact dmax_sim| |apply sim_refl].
    clear -H. induction H as [|a b r1 r2 (_ & L) H IH]; constructor; auto.
Qed.
(** The setpoint that follows from requests and ceilings. *)
Definition setpoint (mn : dbl) (acc : bool) (reqs : list (string * dbl)) (ceils : list dbl) : dbl :=
  let top := fr_max (fold_req acc reqs) in
  let c := match ceils with [] => top | c :: r => let m := fold_left dmin r c in if dltb m top then m else top end in
  if dleb c mn then mn else c.
Lemma setpoint_sim mn acc r1 r2 c1 c2 : Forall2 req_sim r1 r2 -> Forall2 sim c1 c2 ->
  sim (setpoint mn acc r1 c1) (setpoint mn acc r2 c2).
Proof.
  intros R C. assert (T := top_sim acc _ _ R). unfold setpoint.
  assert (G : forall a b, sim a b -> sim (if dleb a mn then mn else a) (if dleb b mn then mn else b)).
  { intros a b H. rewrite (dleb_sim _ _ _ _ H (sim_refl mn)). destruct (dleb _ _); [apply sim_refl|exact H]. }
  apply G. destruct C as [|a b l l' Hab H]; [exact T|].
  assert (M := fold_sim dmin dmin_sim _ _ H _ _ Hab). cbv zeta. rewrite (dltb_sim _ _ _ _ M T). now destruct (dltb _ _).
Qed.
Lemma cycle_setpoint f env te z z' : tuningEnabled f = false -> thermal_cycle f env te z = Ok z' ->
  z_maximumSetPoint z' = setpoint (z_minThermalOutputSetPt z) (z_accumulateSetPoint z)
    (requests (cycle_readings env z) z) (ceilings (cycle_readings env z) z) /\
  z_thermals z' = map (ctl_next (cycle_readings env z)) (z_thermals z).
Proof.
  intros Tn H. destruct (cycle_requests _ _ _ _ _ H) as (w & Dm & S1 & Ce & Cf & T1 & _).
  rewrite determine_split, Tn in Dm. injection Dm as <-. split.
  - rewrite det_core_max. unfold capped, setpoint, dgeb.
    assert (X : z_maximumSetPoint w = fr_max (sp3 w)) by reflexivity. rewrite X, S1, Ce.
    assert (E : z_minThermalOutputSetPt w = z_minThermalOutputSetPt z) by (use_conf Cf; reflexivity). rewrite E.
    destruct (ceilings _ _) as [|c r]; [reflexivity|]. rewrite min_element_fold. reflexivity.
  - rewrite <- T1. unfold det_core, apply_ceilings. cbv zeta.
    repeat match goal with |- context [match ?x with _ => _ end] => destruct x end; reflexivity.
Qed.

(** ** Thermal controllers come to rest *)
Definition settling (t : ThermalCtl) : Prop :=
  match t with
  | TPid _ _ _ sp p => bnd 200 sp /\ exists c, bounded_cfg c /\ ordered_limits c /\ sane_slew c /\ cmoder c p
  | TStep _ _ _ => True
  end.
Definition input_ok (rd : readings_map) (t : ThermalCtl) : Prop :=
  match t with TPid _ inputs ty sp _ => bnd 200 (thermal_input rd ty inputs sp) | TStep _ _ _ => True end.
(** What does not change in a controller. *)
Definition shape (t t' : ThermalCtl) : Prop :=
  match t, t' with
  | TPid id inputs ty sp _, TPid id' inputs' ty' sp' _ => id' = id /\ inputs' = inputs /\ ty' = ty /\ sp' = sp
  | TStep id inputs c, TStep id' inputs' c' => id' = id /\ inputs' = inputs /\ sc_info c' = sc_info c
  | _, _ => False
  end.
Lemma shape_refl t : shape t t.
Proof. destruct t; cbn; auto. Qed.
Lemma shape_trans a b c : shape a b -> shape b c -> shape a c.
Proof. destruct a, b, c; cbn; intuition congruence. Qed.
Lemma shape_next rd t : shape t (ctl_next rd t).
Proof. destruct t; cbn; auto. now rewrite stepwise_process_info. Qed.
Lemma shape_same t t' : shape t t' -> thermal_id t' = thermal_id t /\ is_ceiling t' = is_ceiling t /\
  controller_inputs t' = controller_inputs t.
Proof. destruct t, t'; cbn; try contradiction; intros (A & B & C); [destruct C as (C & E)|]; repeat split; congruence. Qed.
Lemma input_ok_shape rd t t' : shape t t' -> input_ok rd t -> input_ok rd t'.
Proof. destruct t, t'; cbn; try contradiction; auto. now intros (_ & -> & -> & ->). Qed.

Lemma settling_next rd t : settling t -> input_ok rd t -> settling (ctl_next rd t).
Proof.
  destruct t as [id inputs ty sp p|]; cbn; auto. intros (Hs & c & B & OL & SL & M) Hx. split; [exact Hs|].
  exists c. repeat (split; [assumption|]).
  exact (cmoder_step c p (thermal_input rd ty inputs sp, sp) (bounded_cfg_bounded c B) OL SL Hx Hs M).
Qed.

Lemma stepwise_again c u : fst (stepwise_process (fst (stepwise_process c u)) u) = fst (stepwise_process c u) /\
  snd (stepwise_process (fst (stepwise_process c u)) u) = snd (stepwise_process c u).
Proof.
  assert (K : forall i, fst (stepwise_process (StepCtrl i u (stepwise i u)) u) = StepCtrl i u (stepwise i u) /\
                        snd (stepwise_process (StepCtrl i u (stepwise i u)) u) = stepwise i u).
  { intros i. unfold stepwise_process. cbn [sc_info sc_lastOutput sc_lastInput].
    destruct (disnan _); [split; reflexivity|]. destruct (dgtb _ _); [split; reflexivity|]. destruct (dgtb _ _); split; reflexivity. }
  assert (E : fst (stepwise_process c u) = StepCtrl (sc_info c) u (stepwise (sc_info c) u) /\
              snd (stepwise_process c u) = stepwise (sc_info c) u \/
              fst (stepwise_process c u) = c /\ snd (stepwise_process c u) = sc_lastOutput c).
  { destruct c as [i l o]. unfold stepwise_process. cbn [sc_info sc_lastOutput sc_lastInput].
    destruct (disnan o); [left; split; reflexivity|]. destruct (dgtb _ _); [left; split; reflexivity|].
    destruct (dgtb _ _); [left|right]; split; reflexivity. }
  destruct E as [(-> & ->)|(E1 & E2)]; [apply K|]. rewrite !E1. auto.
Qed.

Definition runs (rd : readings_map) (k : nat) (t : ThermalCtl) : ThermalCtl := Nat.iter k (ctl_next rd) t.
Lemma runs_S rd k t : runs rd (S k) t = ctl_next rd (runs rd k t).
Proof. reflexivity. Qed.
Lemma shape_runs rd k t : shape t (runs rd k t).
Proof. induction k as [|k IH]; [apply shape_refl|]. rewrite runs_S. eapply shape_trans; [exact IH|apply shape_next]. Qed.

Lemma ctl_rests rd t : settling t -> input_ok rd t ->
  exists k0, forall k, (k0 <= k)%nat -> sim (ctl_output rd (runs rd k t)) (ctl_output rd (runs rd k0 t)).
Proof.
  destruct t as [id inputs ty sp p|id inputs c].
  - intros (Hs & c & B & OL & SL & M) Hx. cbn in Hx. set (u := thermal_input rd ty inputs sp) in *.
    destruct (rests_from c p (u, sp) B OL SL Hx Hs M) as (_ & v & F & n0 & H).
    assert (E : forall k, runs rd k (TPid id inputs ty sp p) = TPid id inputs ty sp (ctrl_iter (u, sp) p k)).
    { induction k as [|k IH]; [reflexivity|]. rewrite runs_S, IH, ctrl_iter_S. reflexivity. }
    exists n0. intros k Hk. rewrite !E. cbn [ctl_output]. fold u.
    assert (A := H k Hk). assert (A0 := H n0 (le_n n0)). cbn [fst snd] in A, A0.
    apply (sim_trans _ v); apply sim_sym; [|apply sim_sym]; (apply deq_sim; [exact F|now apply deq_sym]) || (apply sim_sym, deq_sim; [exact F|now apply deq_sym]).
  - intros _ _. exists 1%nat. intros k Hk. set (u := stepwise_input rd inputs).
    assert (E : forall k, runs rd (S k) (TStep id inputs c) = TStep id inputs (fst (stepwise_process c u))).
    { clear. induction k as [|k IH]; [reflexivity|]. rewrite runs_S, IH. cbn [ctl_next]. fold u.
      now rewrite (proj1 (stepwise_again c u)). }
    destruct k as [|k]; [lia|]. rewrite !E. apply sim_refl.
Qed.
Lemma thermals_rest rd ts : Forall settling ts -> Forall (input_ok rd) ts ->
  exists k0, forall k, (k0 <= k)%nat ->
    Forall2 (fun t t' => sim (ctl_output rd t) (ctl_output rd t') /\ thermal_id t = thermal_id t' /\ is_ceiling t = is_ceiling t')
      (map (runs rd k) ts) (map (runs rd k0) ts).
Proof.
  intros S I. induction ts as [|t ts IH]; [exists 0%nat; constructor|].
  inversion S; inversion I; subst. destruct IH as (k1 & G1); auto. destruct (ctl_rests rd t) as (k2 & G2); auto.
  assert (Sm : forall k k', thermal_id (runs rd k t) = thermal_id (runs rd k' t) /\ is_ceiling (runs rd k t) = is_ceiling (runs rd k' t)).
  { intros k k'. destruct (shape_same _ _ (shape_runs rd k t)) as (-> & -> & _).
    destruct (shape_same _ _ (shape_runs rd k' t)) as (-> & -> & _). auto. }
  exists (Nat.max k1 k2). intros k Hk. cbn [map]. constructor.
  - split; [|apply Sm]. apply (sim_trans _ (ctl_output rd (runs rd k2 t))); [apply G2; lia|apply sim_sym, G2; lia].
  - assert (A := G1 k ltac:(lia)). assert (B := G1 (Nat.max k1 k2) ltac:(lia)). clear - A B.
    revert A B. generalize (map (runs rd k) ts) (map (runs rd k1) ts) (map (runs rd (Nat.max k1 k2)) ts).
    intros a b c A. revert c. induction A as [|x y l l' (X1 & X2 & X3) A IH]; intros c B; inversion B as [|z w m m' (Y1 & Y2 & Y3) Bm]; subst; constructor.
    + split; [eapply sim_trans; [exact X1|now apply sim_sym]|]. split; congruence.
    + now apply IH.
Qed.

Definition reqs (rd : readings_map) (en : string -> bool) (ts : list ThermalCtl) : list (string * dbl) :=
  flat_map (fun t => if negb (is_ceiling t) && en (thermal_id t) then [(thermal_id t, ctl_output rd t)] else []) ts.
Definition ceils (rd : readings_map) (ts : list ThermalCtl) : list dbl :=
  flat_map (fun t => if is_ceiling t then [ctl_output rd t] else []) ts.
Lemma setpoint_rests rd en mn acc ts : Forall settling ts -> Forall (input_ok rd) ts ->
  exists k0, forall k, (k0 <= k)%nat ->
    sim (setpoint mn acc (reqs rd en (map (runs rd k) ts)) (ceils rd (map (runs rd k) ts)))
        (setpoint mn acc (reqs rd en (map (runs rd k0) ts)) (ceils rd (map (runs rd k0) ts))).
Proof.
  intros S I. destruct (thermals_rest rd ts S I) as (k0 & H). exists k0. intros k Hk. specialize (H k Hk).
  apply setpoint_sim.
  - unfold reqs. induction H as [|t t' l l' (A & B & C) H IH]; [constructor|]. cbn [flat_map]. apply Forall2_app; [|exact IH].
    rewrite B, C. destruct (_ && _); [|constructor]. constructor; [|constructor]. split; [reflexivity|exact A].
  - unfold ceils. induction H as [|t t' l l' (A & B & C) H IH]; [constructor|]. cbn [flat_map]. apply Forall2_app; [|exact IH].
    rewrite C. destruct (is_ceiling t'); [|constructor]. constructor; [exact A|constructor].
Qed.

(** ** Cycles that run from time to time *)
Lemma bounded_count (c : nat -> nat) : (forall n, (c n <= c (S n))%nat) -> forall K, (forall n, (c n <= K)%nat) ->
  exists N, forall n, (N <= n)%nat -> c n = c N.
Proof.
  intros Mo. assert (Mo' : forall n m, (n <= m)%nat -> (c n <= c m)%nat).
  { intros n m H. induction H as [|m H IH]; [lia|]. specialize (Mo m). lia. }
  induction K as [|K IH]; intros H.
  - exists 0%nat. intros n _. assert (A := H n). assert (B := H 0%nat). lia.
  - destruct (Classical_Prop.classic (exists n, c n = S K)) as [(N & E)|Ne].
    + exists N. intros n Hn. assert (A := H n). assert (B := Mo' N n Hn). lia.
    + apply IH. intros n. assert (A := H n). destruct (Nat.eq_dec (c n) (S K)) as [E|E]; [|lia]. exfalso. eauto.
Qed.

Section Clocked.
  Variables (T : nat -> list ThermalCtl) (M : nat -> dbl) (due : nat -> bool) (rd : readings_map) (en : string -> bool) (mn : dbl) (acc : bool).
  Hypothesis (HT : forall n, T (S n) = if due n then map (ctl_next rd) (T n) else T n).
  Hypothesis (HM : forall n, M (S n) = if due n then setpoint mn acc (reqs rd en (T n)) (ceils rd (T n)) else M n).
  Hypothesis (S0 : Forall settling (T 0%nat)) (I0 : Forall (input_ok rd) (T 0%nat)).

  Fixpoint cycles (n : nat) : nat := match n with O => 0 | S n => if due n then S (cycles n) else cycles n end.
  Lemma T_cycles n : T n = map (runs rd (cycles n)) (T 0%nat).
  Proof.
    induction n as [|n IH]; cbn [cycles].
    - symmetry. rewrite <- map_id. apply map_ext. reflexivity.
    - rewrite HT. destruct (due n); [|exact IH]. rewrite IH, map_map. apply map_ext. reflexivity.
  Qed.
  Let SP k := setpoint mn acc (reqs rd en (map (runs rd k) (T 0%nat))) (ceils rd (map (runs rd k) (T 0%nat))).
  Lemma M_cycles n : cycles n = 0%nat \/ M n = SP (cycles n - 1)%nat.
  Proof.
    induction n as [|n IH]; [left; reflexivity|]. cbn [cycles]. rewrite HM. destruct (due n); [|exact IH].
    right. unfold SP. replace (S (cycles n) - 1)%nat with (cycles n) by lia. now rewrite <- T_cycles.
  Qed.
  Lemma cycles_mono n m : (n <= m)%nat -> (cycles n <= cycles m)%nat.
  Proof. intros H. induction H as [|m H IH]; [lia|]. cbn [cycles]. destruct (due m); lia. Qed.
  Lemma clocked_rests : exists N, forall n, (N <= n)%nat -> sim (M n) (M N).
  Proof.
    destruct (setpoint_rests rd en mn acc (T 0%nat) S0 I0) as (k0 & H). fold (SP k0) in H.
    destruct (Classical_Prop.classic (exists n, (S k0 <= cycles n)%nat)) as [(N & HN)|Ne].
    - exists N. assert (G : forall n, (N <= n)%nat -> sim (M n) (SP k0)).
      { intros n Hn. assert (A := cycles_mono N n Hn). destruct (M_cycles n) as [E| ->]; [lia|]. apply H. lia. }
      intros n Hn. apply (sim_trans _ (SP k0)); [now apply G|]. apply sim_sym, G. lia.
    - destruct (bounded_count cycles) with (K := k0) as (N & HN).
      + intros n. apply cycles_mono. lia.
      + intros n. destruct (le_lt_dec (S k0) (cycles n)); [exfalso; eauto|lia].
      + exists N. intros n Hn. induction Hn as [|n Hn IH]; [apply sim_refl|]. rewrite HM.
        assert (A := HN n Hn). assert (B := HN (S n) ltac:(lia)). cbn [cycles] in B. destruct (due n); [lia|exact IH].
  Qed.
End Clocked.

(** ** Fan controllers come to rest *)
Lemma pid_follows c q (s : nat -> dbl) m u : bounded_cfg c -> ordered_limits c -> sane_slew c -> bnd 200 u -> bnd 200 m ->
  cmoder c (q 0%nat) -> (forall n, sim (s n) m) ->
  (forall n, q (S n) = fst (pid_process (q n) (s n) u)) ->
  exists n0, forall n, (n0 <= n)%nat ->
    sim (snd (pid_process (q n) (s n) u)) (snd (pid_process (q n0) (s n0) u)).
Proof.
  intros B OL SL Hu Hm Mq Hs Hq.
  assert (C : forall n, csim (q n) (ctrl_iter (u, m) (q 0%nat) n)).
  { induction n as [|n IH]; [apply csim_refl|]. rewrite Hq, ctrl_iter_S. cbn [fst snd].
    apply process_sim; [exact IH|apply Hs|apply sim_refl]. }
  destruct (rests_from c (q 0%nat) (u, m) B OL SL Hu Hm Mq) as (_ & v & F & n0 & H).
  assert (G : forall n, (n0 <= n)%nat -> sim (snd (pid_process (q n) (s n) u)) v).
  { intros n Hn. eapply sim_trans; [apply process_sim; [apply C|apply Hs|apply sim_refl]|].
    apply sim_sym, deq_sim; [exact F|]. apply deq_sym. exact (H n Hn). }
  exists n0. intros n Hn. apply (sim_trans _ v); [now apply G|]. apply sim_sym, G. lia.
Qed.
