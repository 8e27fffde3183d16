(** * Proofs for C99: two histories of one zone. *)
From Coq Require Import ZArith Reals Bool List String Lia Lra.
From Flocq Require Import BinarySingleNaN.
From Verif Require Import Base BaseFacts Dbl DblFacts DblOrder PidModel SpecPid PidProofs ZoneModel LoopModel
  ZoneFrame ZoneThermal ZoneFan SpecZone ZoneProofs SpecHeat HeatProofs.
From Verif Require WriteProofs.
Import ListNotations.
Local Arguments pid : simpl never.
Local Arguments pid_process : simpl never.
Local Arguments stepwise_process : simpl never.
Local Arguments stepwise : simpl never.

(** ** Doubles *)
Lemma apart a b : dlt a b -> dlt d0 (dsub b a).
Proof.
  intros H. apply dlt_iff in H. destruct H as (Na & Nb & L). pose proof big_pos as BP.
  destruct (finite_or_inf _ Na) as [Fa|[->| ->]], (finite_or_inf _ Nb) as [Fb|[->| ->]];
    rewrite ?Rx_dinf, ?Rx_dninf in L; try (exfalso; lra).
  - apply dlt_iff. split; [reflexivity|]. split; [apply (dsub_Rx b a Fb Fa)|].
    rewrite Rx_d0. now apply WriteProofs.dsub_pos.
  - destruct a; try discriminate; reflexivity.
  - exfalso. apply Rx_finite_bound in Fa. lra.
  - exfalso. apply Rx_finite_bound in Fb. lra.
  - destruct b; try discriminate; reflexivity.
  - reflexivity.
Qed.
Lemma dadd_fin_notnan a b : notnan a -> dfinite b -> notnan (dadd a b).
Proof.
  intros Na Fb. destruct (finite_or_inf _ Na) as [Fa|[->| ->]].
  - apply (dadd_Rx a b Fa Fb).
  - destruct b; try discriminate; reflexivity.
  - destruct b; try discriminate; reflexivity.
Qed.
Lemma dmax_mono a a' v v' : dle a a' -> v = v' \/ dle v v' -> dle (dmax a v) (dmax a' v').
Proof.
  intros A V. destruct (dle_notnan _ _ A) as [Na Na'].
  destruct (nan_dec v) as [Nv|Nv].
  - assert (L : dle v v') by (destruct V as [<-|V]; [now apply dle_refl|exact V]).
    destruct (dle_notnan _ _ L) as [_ Nv']. unfold dmax at 1. destruct (dltb a v).
    + eapply dle_trans; [exact L|]. now apply dmax_ge_r.
    + eapply dle_trans; [exact A|]. now apply dmax_ge_l.
  - destruct V as [<-|V]; [|apply dle_notnan in V; unfold notnan in V; destruct V; congruence].
    unfold dmax. now rewrite !dltb_nan_r by exact Nv.
Qed.
Lemma dmin_mono a a' v v' : dle a a' -> dle v v' -> dle (dmin a v) (dmin a' v').
Proof.
  intros A V. destruct (dle_notnan _ _ A) as [Na Na']. destruct (dle_notnan _ _ V) as [Nv Nv'].
  unfold dmin at 2. destruct (dltb v' a').
  - eapply dle_trans; [|exact V]. now apply dmin_le_r.
  - eapply dle_trans; [|exact A]. now apply dmin_le_l.
Qed.
Lemma fold_dmax_mono l l' : Forall2 dle l l' -> forall b b', dle b b' ->
  dle (fold_left dmax l b) (fold_left dmax l' b').
Proof. intros H. induction H; intros b b' B; simpl; [exact B|]. apply IHForall2. apply dmax_mono; auto. Qed.
Lemma fold_dmin_mono l l' : Forall2 dle l l' -> forall b b', dle b b' ->
  dle (fold_left dmin l b) (fold_left dmin l' b').
Proof. intros H. induction H; intros b b' B; simpl; [exact B|]. apply IHForall2. now apply dmin_mono. Qed.
Lemma fold_dadd_notnan_inv l : forall b, notnan (fold_left dadd l b) -> notnan b.
Proof.
  induction l as [|x l IH]; intros b H; simpl in H; [exact H|]. apply IH in H. apply notnan_dadd_inv in H. tauto.
Qed.
Lemma fold_dadd_mono l l' : Forall2 dle l l' -> forall b b', dle b b' ->
  notnan (fold_left dadd l b) -> notnan (fold_left dadd l' b') ->
  dle (fold_left dadd l b) (fold_left dadd l' b').
Proof.
  intros H. induction H; intros b b' B N N'; simpl in *; [exact B|].
  apply IHForall2; auto. apply dadd_mono; auto; eapply fold_dadd_notnan_inv; eauto.
Qed.
Lemma fold_dadd_fin l : Forall dfinite l -> forall b, notnan b -> notnan (fold_left dadd l b).
Proof. intros H. induction H; intros b N; simpl; [exact N|]. apply IHForall. now apply dadd_fin_notnan. Qed.
Lemma Forall2_flip_dle (l l' : list dbl) : Forall2 (toward false) l l' -> Forall2 dle l' l.
Proof. intros H. induction H; constructor; auto. Qed.

(** ** Inputs *)
Definition heat_type (ty : ThermalType) : bool := match ty with margin => false | _ => true end.

Lemma reading_toward up rd1 rd2 ty i : input_toward up ty i = true ->
  hotter_reading (up (si_name i)) (rd1 (si_name i)) (rd2 (si_name i)) ->
  Forall2 (toward (heat_type ty)) (thermal_reading rd1 ty i) (thermal_reading rd2 ty i).
Proof.
  intros T H. unfold thermal_reading.
  assert (Self : forall v, dfinite v -> Forall2 (toward (heat_type ty))
    (match ty with margin => if si_convertTempToMargin i then [dsub (si_convertMarginZero i) v] else [v] | _ => [v] end)
    (match ty with margin => if si_convertTempToMargin i then [dsub (si_convertMarginZero i) v] else [v] | _ => [v] end)).
  { intros v F. assert (Nv := finite_notnan _ F).
    destruct ty; try (constructor; [now apply toward_refl|constructor]).
    simpl in T. destruct (si_convertTempToMargin i); (constructor; [|constructor]); apply toward_refl; [|exact Nv].
    apply andb_true_iff in T. destruct T as (_ & Fz). now apply (dsub_Rx _ v). }
  destruct H as [E|(v & w & E1 & E2 & Fv & Fw & L)].
  - rewrite E. destruct (rd2 (si_name i)) as [v|]; [|constructor].
    destruct (disfinite v) eqn:Fv; [|constructor]. now apply Self.
  - rewrite E1, E2. unfold disfinite. rewrite Fv, Fw.
    destruct ty; simpl in T; simpl heat_type.
    + destruct (si_convertTempToMargin i); (constructor; [|constructor]).
      * apply andb_true_iff in T. destruct T as (Tu & Fz). rewrite Tu in L. simpl in L.
        simpl. apply dsub_mono; auto using dle_refl, finite_notnan; now apply dsub_Rx.
      * destruct (up (si_name i)); [discriminate|exact L].
    + rewrite T in L. constructor; [exact L|constructor].
    + rewrite T in L. constructor; [exact L|constructor].
Qed.

Lemma readings_toward up rd1 rd2 ty inputs : Forall (fun i => input_toward up ty i = true) inputs ->
  (forall i, In i inputs -> hotter_reading (up (si_name i)) (rd1 (si_name i)) (rd2 (si_name i))) ->
  Forall2 (toward (heat_type ty)) (thermal_readings rd1 ty inputs) (thermal_readings rd2 ty inputs).
Proof.
  intros F. induction F as [|i inputs T F IH]; intros H; [constructor|].
  unfold thermal_readings. simpl. apply Forall2_app.
  - apply reading_toward with up; [exact T|]. apply H. now left.
  - apply IH. intros j J. apply H. now right.
Qed.

Lemma input_toward_le up rd1 rd2 ty inputs sp : Forall (fun i => input_toward up ty i = true) inputs ->
  (forall i, In i inputs -> hotter_reading (up (si_name i)) (rd1 (si_name i)) (rd2 (si_name i))) ->
  notnan (thermal_input rd1 ty inputs sp) -> notnan (thermal_input rd2 ty inputs sp) ->
  toward (heat_type ty) (thermal_input rd1 ty inputs sp) (thermal_input rd2 ty inputs sp).
Proof.
  intros F H. assert (R := readings_toward _ _ _ _ _ F H). unfold thermal_input.
  intros N1 N2. destruct R as [|a b l l' Hab R]; [now apply toward_refl|].
  assert (R' : Forall2 (toward (heat_type ty)) (a :: l) (b :: l')) by (constructor; assumption).
  destruct ty; cbn [heat_type] in *.
  - apply fold_dmin_mono; [now apply Forall2_flip_dle|]. apply dle_refl. reflexivity.
  - apply (fold_dmax_mono _ _ R'). apply dle_refl. reflexivity.
  - apply (fold_dadd_mono _ _ R'); auto. apply dle_refl. reflexivity.
Qed.

Lemma stepwise_input_le up rd1 rd2 inputs : Forall (fun i => up i = true) inputs ->
  (forall i, In i inputs -> hotter_reading (up i) (rd1 i) (rd2 i)) ->
  dle (stepwise_input rd1 inputs) (stepwise_input rd2 inputs).
Proof.
  unfold stepwise_input. assert (G : dle dlowest dlowest) by (apply dle_refl; reflexivity).
  revert G. generalize dlowest at 1 3. generalize dlowest. intros b' b G F. revert b b' G.
  induction F as [|i inputs U F IH]; intros b b' G H; simpl; [exact G|]. apply IH.
  - destruct (H i (or_introl eq_refl)) as [E|(v & w & E1 & E2 & _ & _ & L)].
    + rewrite E. destruct (rd2 i); [|exact G]. apply dmax_mono; auto.
    + rewrite E1, E2. rewrite U in L. apply dmax_mono; auto.
  - intros j J. apply H. now right.
Qed.

(** ** Controllers *)
Definition step_inv (c : StepwiseInfo) (s : stepwise_ctrl) : Prop :=
  sc_info s = c /\ (is_nan (sc_lastOutput s) = true \/
    (notnan (sc_lastInput s) /\ sc_lastOutput s = stepwise c (sc_lastInput s))).
Lemma stepwise_step c n s x : step_inv c s -> notnan x -> increasing_table c n ->
  (forall i j, (i <= j < n)%nat -> dle (sw_output c i) (sw_output c j)) ->
  deq (sw_positiveHysteresis c) d0 -> deq (sw_negativeHysteresis c) d0 ->
  step_inv c (fst (stepwise_process s x)) /\
  exists y, deq y x /\ snd (stepwise_process s x) = stepwise c y.
Proof.
  intros (E & I) Nx T O HP HN. unfold stepwise_process. rewrite E. cbv zeta.
  assert (New : step_inv c (StepCtrl c x (stepwise c x))).
  { split; [reflexivity|]. right. split; [exact Nx|reflexivity]. }
  assert (Same : exists y, deq y x /\ stepwise c x = stepwise c y).
  { exists x. split; [now apply deq_refl|reflexivity]. }
  unfold disnan, dgtb. destruct I as [I|(Nl & I)].
  { rewrite I. split; assumption. }
  destruct (is_nan (sc_lastOutput s)); [split; assumption|].
  destruct (dltb (sw_positiveHysteresis c) (dsub x (sc_lastInput s))) eqn:E1; [split; assumption|].
  destruct (dltb (sw_negativeHysteresis c) (dsub (sc_lastInput s) x)) eqn:E2; [split; assumption|].
  cbn [fst snd]. split.
  - split; [reflexivity|]. right. split; assumption.
  - exists (sc_lastInput s). split; [|exact I].
    assert (K : forall h d, deq h d0 -> dltb h d = false -> ~ dlt d0 d).
    { intros h d Hh Hd L. apply deq_le in Hh. assert (dlt h d) by (eapply dle_lt_trans; eauto). unfold dlt in *. congruence. }
    apply dle_antisym.
    + apply dltb_false_dle; auto. destruct (dltb x (sc_lastInput s)) eqn:L; [|reflexivity].
      exfalso. apply (K _ _ HN E2). now apply apart.
    + apply dltb_false_dle; auto. destruct (dltb (sc_lastInput s) x) eqn:L; [|reflexivity].
      exfalso. apply (K _ _ HP E1). now apply apart.
Qed.
Lemma stepwise_in_table c n x : increasing_table c n -> exists i, (i < n)%nat /\ stepwise c x = sw_output c i.
Proof.
  intros (Hn & _ & NL & _). destruct (Nat.eq_dec n 20) as [->|Ne].
  - destruct (stepwise_lookup c x) as (i & Hi & E & _). eauto.
  - apply stepwise_nan_unused; [lia|apply NL; lia].
Qed.

(** What the same controller has become in the two runs. *)
Inductive ctl_rel (up : string -> bool) : ThermalCtl -> ThermalCtl -> ThermalCtl -> Prop :=
| rel_pid id inputs ty sp c h1 h2 p1 p2 :
    pc_info p1 = pid_state c h1 -> pc_info p2 = pid_state c h2 ->
    hotter_history (heat_type ty) h1 h2 ->
    ctl_rel up (TPid id inputs ty sp (pid_ctrl_init c)) (TPid id inputs ty sp p1) (TPid id inputs ty sp p2)
| rel_step id inputs c s1 s2 :
    step_inv c s1 -> step_inv c s2 ->
    ctl_rel up (TStep id inputs (stepwise_ctrl_init c)) (TStep id inputs s1) (TStep id inputs s2).

Lemma plain_process c p sp x h : no_hysteresis c -> pc_info p = pid_state c h ->
  snd (pid_process p sp x) = pid_out c h (x, sp) /\
  pc_info (fst (pid_process p sp x)) = pid_state c (h ++ [(x, sp)]).
Proof.
  intros (C & P & N) E. unfold pid_process, calPIDOutput. rewrite E, pid_state_params, C, P, N. cbn [andb].
  unfold pid_out. rewrite pid_state_app. cbn [fst snd]. split; reflexivity.
Qed.

(** One controller, one cycle. *)
Lemma ctl_step up t0 t1 t2 rd1 rd2 : ctl_rel up t0 t1 t2 -> cooling_controller up t0 ->
  (forall n, In n (controller_inputs t0) -> hotter_reading (up n) (rd1 n) (rd2 n)) ->
  match t0 with
  | TPid _ inputs ty sp _ => mag_le 200 (thermal_input rd1 ty inputs sp) /\ mag_le 200 (thermal_input rd2 ty inputs sp)
  | TStep _ _ _ => True
  end ->
  ctl_rel up t0 (ctl_next rd1 t1) (ctl_next rd2 t2) /\
  dle (ctl_output rd1 t1) (ctl_output rd2 t2) /\
  dfinite (ctl_output rd1 t1) /\ dfinite (ctl_output rd2 t2).
Proof.
  intros R C H M. destruct R as [id inputs ty sp c h1 h2 p1 p2 E1 E2 HH|id inputs c s1 s2 I1 I2].
  - destruct C as (c' & Ec & B & Bs & CO & U & NH & OL & F).
    assert (c' = c).
    { apply (f_equal (fun p => params (pc_info p))) in Ec. cbv beta in Ec.
      rewrite <- (init_params c), <- (init_params c'). symmetry. exact Ec. }
    subst c'. clear Ec. destruct M as (M1 & M2). cbn [controller_inputs] in H.
    assert (T : toward (heat_type ty) (thermal_input rd1 ty inputs sp) (thermal_input rd2 ty inputs sp)).
    { apply input_toward_le with up; auto.
      - intros i Hi. apply H. now apply in_map.
      - apply finite_notnan, M1.
      - apply finite_notnan, M2. }
    cbn [ctl_next ctl_output].
    destruct (plain_process c p1 sp (thermal_input rd1 ty inputs sp) h1 NH E1) as (O1 & S1).
    destruct (plain_process c p2 sp (thermal_input rd2 ty inputs sp) h2 NH E2) as (O2 & S2).
    assert (HS : hotter_sample (heat_type ty) (thermal_input rd1 ty inputs sp, sp) (thermal_input rd2 ty inputs sp, sp)).
    { split; [split; assumption|]. split; [split; assumption|]. split; [exact T|reflexivity]. }
    destruct (hotter_bounded _ _ _ HH) as (F1 & F2).
    split.
    { econstructor; [exact S1|exact S2|]. now apply Forall2_snoc. }
    rewrite O1, O2. split.
    { apply (both_le (heat_type ty) c B); auto; destruct ty; exact CO. }
    split; apply (out_finite c B U OL); apply Forall_app; (split; [assumption|]);
      (constructor; [|constructor]); apply HS.
  - destruct C as (c' & n & Ec & T & O & Fo & HP & HN & F).
    assert (c' = c) by (unfold stepwise_ctrl_init in Ec; congruence). subst c'. clear Ec M.
    assert (L := stepwise_input_le up rd1 rd2 inputs F H).
    destruct (dle_notnan _ _ L) as (N1 & N2).
    destruct (stepwise_step c n s1 _ I1 N1 T O HP HN) as (J1 & y1 & Y1 & O1).
    destruct (stepwise_step c n s2 _ I2 N2 T O HP HN) as (J2 & y2 & Y2 & O2).
    cbn [ctl_next ctl_output]. split; [constructor; assumption|]. rewrite O1, O2. split.
    + apply stepwise_mono with n; auto. eapply dle_trans; [apply deq_le; exact Y1|].
      eapply dle_trans; [exact L|]. now apply deq_le, deq_sym.
    + destruct (stepwise_in_table c n y1 T) as (i1 & L1 & ->). destruct (stepwise_in_table c n y2 T) as (i2 & L2 & ->).
      split; now apply Fo.
Qed.

(** ** The zone *)
Inductive Forall3 {A B C : Type} (R : A -> B -> C -> Prop) : list A -> list B -> list C -> Prop :=
| F3_nil : Forall3 R [] [] []
| F3_cons a b c la lb lc : R a b c -> Forall3 R la lb lc -> Forall3 R (a :: la) (b :: lb) (c :: lc).

(** Pairs of requests. *)
Definition req_le (a b : string * dbl) : Prop :=
  fst a = fst b /\ dle (snd a) (snd b) /\ dfinite (snd a) /\ dfinite (snd b).

Lemma rel_same up t0 t1 t2 : ctl_rel up t0 t1 t2 -> thermal_id t1 = thermal_id t2 /\ is_ceiling t1 = is_ceiling t2.
Proof.
  intros R. destruct R as [|id inputs c s1 s2 (E1 & _) (E2 & _)]; [split; reflexivity|].
  split; [reflexivity|]. simpl. now rewrite E1, E2.
Qed.

Lemma profile_sum_le p r1 r2 : Forall2 req_le r1 r2 -> dle (profile_sum p r1) (profile_sum p r2).
Proof.
  intros H. unfold profile_sum.
  assert (G : Forall2 dle (map snd (filter (fun r => String.eqb (profile_of (fst r)) p) r1))
                          (map snd (filter (fun r => String.eqb (profile_of (fst r)) p) r2)) /\
              Forall dfinite (map snd (filter (fun r => String.eqb (profile_of (fst r)) p) r1)) /\
              Forall dfinite (map snd (filter (fun r => String.eqb (profile_of (fst r)) p) r2))).
  { induction H as [|a b r1 r2 (E & L & Fa & Fb) H (IH & I1 & I2)]; [repeat constructor|].
    simpl. rewrite E. destruct (String.eqb _ _); simpl; auto. }
  destruct G as (G & F1 & F2). apply fold_dadd_mono; auto; [apply dle_refl| |];
    try apply fold_dadd_fin; auto; reflexivity.
Qed.
Lemma Forall2_firstn {A B : Type} (R : A -> B -> Prop) l1 l2 : Forall2 R l1 l2 ->
  forall k, Forall2 R (firstn k l1) (firstn k l2).
Proof. intros H. induction H; intros [|k]; simpl; constructor; auto. Qed.
Lemma running_sums_le r1 r2 : Forall2 req_le r1 r2 -> Forall2 dle (running_sums r1) (running_sums r2).
Proof.
  intros H. unfold running_sums.
  assert (EL : List.length r1 = List.length r2) by (clear -H; induction H; simpl; congruence).
  rewrite <- EL. generalize (seq 0 (List.length r1)). intros ks. induction ks as [|k ks IH]; [constructor|].
  cbn [map]. constructor; [|exact IH].
  assert (P := Forall2_firstn _ _ _ H (S k)).
  assert (N : match nth_error r1 k, nth_error r2 k with
              | Some a, Some b => fst a = fst b | None, None => True | _, _ => False end).
  { clear -H. revert k. induction H as [|a b r1 r2 (E & _) H IH]; intros [|k]; simpl; auto. apply IH. }
  destruct (nth_error r1 k) as [a|], (nth_error r2 k) as [b|]; try contradiction.
  - rewrite N. now apply profile_sum_le.
  - apply dle_refl. reflexivity.
Qed.
Lemma top_le acc r1 r2 : Forall2 req_le r1 r2 -> dle (fr_max (fold_req acc r1)) (fr_max (fold_req acc r2)).
Proof.
  intros H. assert (Z : dle d0 d0) by (apply dle_refl; reflexivity). destruct acc.
  - destruct (fold_req_acc r1) as [-> _]. destruct (fold_req_acc r2) as [-> _].
    apply fold_dmax_mono; [now apply running_sums_le|exact Z].
  - destruct (fold_req_plain r1) as [-> _]. destruct (fold_req_plain r2) as [-> _].
    apply fold_dmax_mono; [|exact Z]. clear -H. induction H as [|a b r1 r2 (_ & L & _) H IH]; constructor; auto.
Qed.

Lemma result_le m c1 c2 : dle c1 c2 -> dle (if dgeb m c1 then m else c1) (if dgeb m c2 then m else c2).
Proof.
  intros L. destruct (dle_notnan _ _ L) as (N1 & N2). unfold dgeb.
  destruct (dleb c1 m) eqn:E1, (dleb c2 m) eqn:E2.
  - apply dle_refl. apply (dle_notnan _ _ E1).
  - destruct (dle_notnan _ _ E1) as (_ & Nm). apply dlt_dle, dleb_false_dlt; auto.
  - exfalso. assert (dle c1 m) by (eapply dle_trans; eauto). unfold dle in *. congruence.
  - exact L.
Qed.
Lemma capped_le z1 z2 : dle (z_maximumSetPoint z1) (z_maximumSetPoint z2) ->
  Forall2 dle (z_rpmCeilings z1) (z_rpmCeilings z2) -> dle (capped z1) (capped z2).
Proof.
  intros L H. unfold capped. destruct H as [|a b l l' Hab H]; [exact L|].
  rewrite !min_element_fold. set (x := fold_left dmin l a). set (y := fold_left dmin l' b).
  assert (XY : dle x y) by (now apply fold_dmin_mono).
  destruct (dle_notnan _ _ XY) as (Nx & Ny). destruct (dle_notnan _ _ L) as (N1 & N2).
  destruct (dltb x (z_maximumSetPoint z1)) eqn:E1, (dltb y (z_maximumSetPoint z2)) eqn:E2.
  - exact XY.
  - eapply dle_trans; [apply dlt_dle; exact E1|exact L].
  - eapply dle_trans; [|exact XY]. now apply dltb_false_dle.
  - exact L.
Qed.

(** Readings seen by the controllers come from the sensors. *)
Lemma thermal_input_in rd rd' ty inputs sp : (forall n, In n (map si_name inputs) -> rd n = rd' n) ->
  thermal_input rd ty inputs sp = thermal_input rd' ty inputs sp.
Proof.
  intros H. unfold thermal_input.
  assert (E : thermal_readings rd ty inputs = thermal_readings rd' ty inputs).
  { unfold thermal_readings. induction inputs as [|i r IH]; [reflexivity|]. simpl.
    rewrite IH by (intros n N; apply H; now right). f_equal. unfold thermal_reading.
    rewrite (H (si_name i)) by (now left). reflexivity. }
  rewrite E. reflexivity.
Qed.

(** The two runs of a zone that was [z0] at first. *)
Record zrel (up : string -> bool) (z0 z1 z2 : zone) : Prop := Zrel {
  zr_conf1 : conf z1 = conf z0;
  zr_conf2 : conf z2 = conf z0;
  zr_manual : z_manualMode z1 = z_manualMode z2;
  zr_enabled : forall n, option_map po_enabled (mget n (z_pidsControlProcess z1)) =
                         option_map po_enabled (mget n (z_pidsControlProcess z2));
  zr_ctls : Forall3 (ctl_rel up) (z_thermals z0) (z_thermals z1) (z_thermals z2)
}.

Lemma rel_inputs up t0 t1 t2 : ctl_rel up t0 t1 t2 -> controller_inputs t1 = controller_inputs t0.
Proof. intros R. destruct R; reflexivity. Qed.

Lemma ctls_step up z0 rd1 rd2 l0 l1 l2 : Forall3 (ctl_rel up) l0 l1 l2 ->
  Forall (cooling_controller up) l0 ->
  Forall (fun t => incl (controller_inputs t) (z_thermalInputs z0)) l0 ->
  (forall n, In n (z_thermalInputs z0) -> hotter_reading (up n) (rd1 n) (rd2 n)) ->
  Forall (fun t => match t with
    | TPid _ inputs ty sp _ => mag_le 200 (thermal_input rd1 ty inputs sp) /\ mag_le 200 (thermal_input rd2 ty inputs sp)
    | TStep _ _ _ => True end) l0 ->
  Forall3 (ctl_rel up) l0 (map (ctl_next rd1) l1) (map (ctl_next rd2) l2) /\
  (forall en1 en2 : string -> bool, (forall n, en1 n = en2 n) ->
    Forall2 req_le
      (flat_map (fun t => if negb (is_ceiling t) && en1 (thermal_id t) then [(thermal_id t, ctl_output rd1 t)] else []) l1)
      (flat_map (fun t => if negb (is_ceiling t) && en2 (thermal_id t) then [(thermal_id t, ctl_output rd2 t)] else []) l2)) /\
  Forall2 dle (flat_map (fun t => if is_ceiling t then [ctl_output rd1 t] else []) l1)
    (flat_map (fun t => if is_ceiling t then [ctl_output rd2 t] else []) l2).
Proof.
  intros R. induction R as [|t0 t1 t2 l0 l1 l2 R RS IH]; intros C I H M.
  - split; [constructor|]. split; [intros; constructor|constructor].
  - inversion C as [|? ? C1 C2]; subst. inversion I as [|? ? I1 I2]; subst. inversion M as [|? ? M1 M2]; subst.
    destruct (IH C2 I2 H M2) as (A1 & A2 & A3).
    destruct (ctl_step up t0 t1 t2 rd1 rd2 R C1) as (B1 & B2 & F1 & F2).
    { intros n N. apply H, I1, N. }
    { destruct t0; exact M1. }
    destruct (rel_same _ _ _ _ R) as (Ei & Ec).
    split; [constructor; assumption|]. split.
    + intros en1 en2 En. cbn [flat_map]. apply Forall2_app; [|now apply A2].
      rewrite Ei, Ec, (En (thermal_id t2)). destruct (negb (is_ceiling t2) && en2 (thermal_id t2)); [|constructor].
      constructor; [|constructor]. split; [reflexivity|]. split; [exact B2|]. split; assumption.
    + cbn [flat_map]. apply Forall2_app; [|exact A3]. rewrite Ec.
      destruct (is_ceiling t2); [|constructor]. constructor; [exact B2|constructor].
Qed.

(** One thermal cycle in both runs. *)
Lemma cycle_rel up f z0 z1 z2 e1 e2 te1 te2 y1 y2 : zrel up z0 z1 z2 -> cooling_zone up z0 ->
  hotter_poll up z0 e1 e2 -> tuningEnabled f = false ->
  thermal_cycle f e1 te1 z1 = Ok y1 -> thermal_cycle f e2 te2 z2 = Ok y2 ->
  zrel up z0 y1 y2 /\ dle (z_maximumSetPoint y1) (z_maximumSetPoint y2).
Proof.
  intros [C1 C2 Man En Ct] (CC & CI) (M1 & M2 & H) Tn Y1 Y2.
  destruct (thermal_cycle_frame _ _ _ _ _ Y1) as (K1 & Mo1 & _ & _ & En1 & _).
  destruct (thermal_cycle_frame _ _ _ _ _ Y2) as (K2 & Mo2 & _ & _ & En2 & _).
  destruct (cycle_requests _ _ _ _ _ Y1) as (w1 & D1 & S1 & Ce1 & Cf1 & T1 & _).
  destruct (cycle_requests _ _ _ _ _ Y2) as (w2 & D2 & S2 & Ce2 & Cf2 & T2 & _).
  rewrite determine_split, Tn in D1, D2. injection D1 as <-. injection D2 as <-.
  set (rd1 := cycle_readings e1 z1) in *. set (rd2 := cycle_readings e2 z2) in *.
  assert (Rd1 : forall n, In n (z_thermalInputs z0) -> rd1 n = option_map sv_value (pe_sensor e1 n)).
  { intros n N. unfold rd1, cycle_readings. use_conf C1.
    apply smem_In in N. rewrite N. reflexivity. }
  assert (Rd2 : forall n, In n (z_thermalInputs z0) -> rd2 n = option_map sv_value (pe_sensor e2 n)).
  { intros n N. unfold rd2, cycle_readings. use_conf C2.
    apply smem_In in N. rewrite N. reflexivity. }
  assert (HR : forall n, In n (z_thermalInputs z0) -> hotter_reading (up n) (rd1 n) (rd2 n)).
  { intros n N. rewrite Rd1, Rd2 by exact N. now apply H. }
  destruct (ctls_step up z0 rd1 rd2 _ _ _ Ct CC CI HR) as (A1 & A2 & A3).
  { unfold moderate in M1, M2. rewrite Forall_forall in *. intros t It.
    specialize (M1 t It). specialize (M2 t It). specialize (CI t It). destruct t as [id inputs ty sp p|]; [|exact Logic.I].
    rewrite (thermal_input_in rd1 (fun n => option_map sv_value (pe_sensor e1 n))) by (intros n N; apply Rd1, CI, N).
    rewrite (thermal_input_in rd2 (fun n => option_map sv_value (pe_sensor e2 n))) by (intros n N; apply Rd2, CI, N).
    split; assumption. }
  assert (EnB : forall n, enabled_in z1 n = enabled_in z2 n).
  { intros n. specialize (En n). unfold enabled_in. destruct (mget n (z_pidsControlProcess z1)), (mget n (z_pidsControlProcess z2));
      simpl in En; congruence. }
  specialize (A2 (enabled_in z1) (enabled_in z2) EnB).
  assert (Acc : z_accumulateSetPoint z1 = z_accumulateSetPoint z2).
  { unfold conf in C1, C2. congruence. }
  split.
  - constructor.
    + congruence.
    + congruence.
    + unfold mode in Mo1, Mo2. congruence.
    + intros n. rewrite En1, En2. apply En.
    + assert (Th : forall w, z_thermals (det_core w) = z_thermals w).
      { intros w. unfold det_core, apply_ceilings. cbv zeta.
        repeat match goal with |- context [match ?x with _ => _ end] => destruct x end; reflexivity. }
      rewrite !Th, T1, T2. exact A1.
  - rewrite !det_core_max.
    assert (Em : z_minThermalOutputSetPt w1 = z_minThermalOutputSetPt w2).
    { unfold conf in C1, C2, Cf1, Cf2. congruence. }
    rewrite Em. apply result_le. apply capped_le.
    + assert (X1 : z_maximumSetPoint w1 = fr_max (sp3 w1)) by reflexivity.
      assert (X2 : z_maximumSetPoint w2 = fr_max (sp3 w2)) by reflexivity.
      rewrite X1, X2, S1, S2, Acc. now apply top_le.
    + rewrite Ce1, Ce2. exact A3.
Qed.

(** One event. *)
Record lrel (up : string -> bool) (z0 : zone) (l1 l2 : loop) : Prop := Lrel {
  lr_zone : zrel up z0 (l_zone l1) (l_zone l2);
  lr_cnt : l_cycleCnt l1 = l_cycleCnt l2;
  lr_max : dle (z_maximumSetPoint (l_zone l1)) (z_maximumSetPoint (l_zone l2))
}.

Lemma zrel_frame up z0 z1 z2 y1 y2 : zrel up z0 z1 z2 ->
  conf y1 = conf z1 -> conf y2 = conf z2 -> z_manualMode y1 = z_manualMode z1 -> z_manualMode y2 = z_manualMode z2 ->
  z_pidsControlProcess y1 = z_pidsControlProcess z1 -> z_pidsControlProcess y2 = z_pidsControlProcess z2 ->
  z_thermals y1 = z_thermals z1 -> z_thermals y2 = z_thermals z2 -> zrel up z0 y1 y2.
Proof.
  intros [C1 C2 M E T] K1 K2 M1 M2 P1 P2 T1 T2.
  constructor; try congruence.
Qed.

Lemma step_rel up f z0 l1 l2 a b y1 y2 : lrel up z0 l1 l2 -> cooling_zone up z0 -> tuningEnabled f = false ->
  hotter_event up z0 a b -> loop_step f l1 a = Ok y1 -> loop_step f l2 b = Ok y2 -> lrel up z0 y1 y2.
Proof.
  intros [R C M] CZ Tn H Y1 Y2. destruct a as [e1|m1|p1 x1], b as [e2|m2|p2 x2]; try contradiction; simpl in H.
  - simpl in Y1, Y2. apply loop_tick_cases in Y1, Y2.
    assert (Man := zr_manual _ _ _ _ R).
    destruct Y1 as [(N1 & ->)|(u1 & v1 & A1)], Y2 as [(N2 & ->)|(u2 & v2 & A2)].
    + constructor; assumption.
    + destruct A2. congruence.
    + destruct A1. congruence.
    + destruct A1 as [_ F1 T1 (w1 & W1 & Z1) Cn1 _]. destruct A2 as [_ F2 T2 (w2 & W2 & Z2) Cn2 _].
      assert (Iv : z_updateThermalsTimeMS (l_zone l1) = z_updateThermalsTimeMS (l_zone l2) /\
                   z_cycleIntervalTimeMS (l_zone l1) = z_cycleIntervalTimeMS (l_zone l2)).
      { destruct R as [C1 C2 _ _ _]. unfold conf in C1, C2. split; congruence. }
      destruct Iv as (Iv & Jv). rewrite Iv, C in T1, Cn1. rewrite Jv in Cn1.
      apply updateFanTelemetry_spec in F1, F2.
      destruct F1 as (Fc1 & Fm1 & Fs1 & Fk1 & _). destruct F2 as (Fc2 & Fm2 & Fs2 & Fk2 & _).
      assert (RU : zrel up z0 u1 u2).
      { unfold mode, ctls in *. apply zrel_frame with (l_zone l1) (l_zone l2); try assumption; congruence. }
      assert (MU : dle (z_maximumSetPoint u1) (z_maximumSetPoint u2)).
      { unfold sps in *. replace (z_maximumSetPoint u1) with (z_maximumSetPoint (l_zone l1)) by congruence.
        replace (z_maximumSetPoint u2) with (z_maximumSetPoint (l_zone l2)) by congruence. exact M. }
      assert (RV : zrel up z0 v1 v2 /\ dle (z_maximumSetPoint v1) (z_maximumSetPoint v2)).
      { destruct (z_updateThermalsTimeMS (l_zone l2) <=? l_cycleCnt l2)%Z.
        - eapply cycle_rel; eauto.
        - subst. split; assumption. }
      destruct RV as (RV & MV).
      apply processFans_spec in W1, W2.
      destruct W1 as (Wc1 & Wm1 & _ & Ws1 & Wt1 & Wp1 & _). destruct W2 as (Wc2 & Wm2 & _ & Ws2 & Wt2 & Wp2 & _).
      assert (Q1 := quiet_log f [LComma; LBool (getFailSafeMode w1); LEndl] w1).
      assert (Q2 := quiet_log f [LComma; LBool (getFailSafeMode w2); LEndl] w2).
      rewrite <- Z1 in Q1. rewrite <- Z2 in Q2.
      destruct Q1 as [Qc1 Qm1 Qs1 Qk1 _ _ _ _]. destruct Q2 as [Qc2 Qm2 Qs2 Qk2 _ _ _ _].
      constructor.
      * unfold mode, ctls in *. apply zrel_frame with v1 v2; try assumption; congruence.
      * congruence.
      * unfold sps in *. replace (z_maximumSetPoint (l_zone y1)) with (z_maximumSetPoint v1) by congruence.
        replace (z_maximumSetPoint (l_zone y2)) with (z_maximumSetPoint v2) by congruence. exact MV.
  - subst m2. simpl in Y1, Y2. injection Y1 as <-. injection Y2 as <-.
    constructor; [|exact C|]; cbn [l_zone with_zone].
    + destruct R as [C1 C2 Mn E T]. destruct m1; constructor; simpl; (assumption || reflexivity).
    + destruct m1; exact M.
  - destruct H as (<- & <-). simpl in Y1, Y2. injection Y1 as <-. injection Y2 as <-.
    constructor; [|exact C|]; cbn [l_zone with_zone].
    + destruct R as [C1 C2 Mn E T]. constructor.
      * rewrite <- C1. unfold setProcessEnabled. destruct (mget p1 _); reflexivity.
      * rewrite <- C2. unfold setProcessEnabled. destruct (mget p1 _); reflexivity.
      * unfold setProcessEnabled. destruct (mget p1 _), (mget p1 _); exact Mn.
      * intros n. rewrite !enabled_setProcess. specialize (E n). destruct (String.eqb n p1); [|exact E].
        destruct (mget n (z_pidsControlProcess (l_zone l1))), (mget n (z_pidsControlProcess (l_zone l2)));
          simpl in *; congruence.
      * unfold setProcessEnabled. destruct (mget p1 _), (mget p1 _); exact T.
    + unfold setProcessEnabled. destruct (mget p1 _), (mget p1 _); exact M.
Qed.

Lemma run_rel up f z0 : cooling_zone up z0 -> tuningEnabled f = false -> forall evs1 evs2,
  Forall2 (hotter_event up z0) evs1 evs2 -> forall l1 l2 y1 y2, lrel up z0 l1 l2 ->
  loop_run f evs1 l1 = Ok y1 -> loop_run f evs2 l2 = Ok y2 -> lrel up z0 y1 y2.
Proof.
  intros CZ Tn evs1 evs2 H. induction H as [|a b evs1 evs2 Hab H IH]; intros l1 l2 y1 y2 R Y1 Y2.
  - unfold loop_run in *. simpl in *. congruence.
  - unfold loop_run in Y1, Y2. simpl in Y1, Y2. apply bind_ok in Y1, Y2.
    destruct Y1 as (x1 & X1 & Y1), Y2 as (x2 & X2 & Y2).
    apply (IH x1 x2); auto. eapply step_rel; eauto.
Qed.

Lemma fresh_rel up ts : Forall (cooling_controller up) ts -> Forall3 (ctl_rel up) ts ts ts.
Proof.
  intros H. induction H as [|t ts C H IH]; constructor; auto.
  destruct t as [id inputs ty sp p|id inputs s].
  - destruct C as (c & -> & _). apply (rel_pid up id inputs ty sp c [] []); [reflexivity|reflexivity|constructor].
  - destruct C as (c & n & -> & _). constructor; (split; [reflexivity|left; reflexivity]).
Qed.
Lemma start_rel up f z e1 e2 te1 te2 now1 now2 l1 l2 : cooling_zone up z -> tuningEnabled f = false ->
  hotter_poll up z e1 e2 ->
  loop_start f e1 te1 now1 z = Ok l1 -> loop_start f e2 te2 now2 z = Ok l2 -> lrel up z l1 l2.
Proof.
  intros CZ Tn H Y1 Y2. destruct (loop_start_frame _ _ _ _ _ _ Y1) as (Cl & _). unfold loop_start in Y1, Y2. apply bind_ok in Y1, Y2.
  destruct Y1 as (z1 & T1 & Y1), Y2 as (z2 & T2 & Y2). injection Y1 as <-. injection Y2 as <-.
  simpl in Cl. destruct (thermal_cycle_frame _ _ _ _ _ T1) as (Ct & _).
  set (w := initializeCache (initializeLog f z)) in *.
  assert (R : zrel up z w w).
  { assert (Q : quiet_step z (initializeLog f z) []) by apply quiet_log. destruct Q as [Qc Qm Qs Qk _ _ _ _].
    destruct (initializeCache_frame (initializeLog f z)) as (Im & Ik & Is). fold w in Im, Ik, Is.
    assert (Cw : conf w = conf z) by congruence.
    constructor; try congruence; auto.
    assert (Et : z_thermals w = z_thermals z) by (unfold ctls in *; congruence). rewrite Et.
    apply fresh_rel, CZ. }
  destruct (cycle_rel up f z w w e1 e2 te1 te2 z1 z2 R CZ H Tn T1 T2) as (R' & M').
  constructor; [exact R'|reflexivity|exact M'].
Qed.

Lemma C99_lemma up f z e1 e2 te1 te2 now1 now2 a0 b0 evs1 evs2 a b :
  tuningEnabled f = false -> cooling_zone up z -> hotter_poll up z e1 e2 ->
  Forall2 (hotter_event up z) evs1 evs2 ->
  loop_start f e1 te1 now1 z = Ok a0 -> loop_run f evs1 a0 = Ok a ->
  loop_start f e2 te2 now2 z = Ok b0 -> loop_run f evs2 b0 = Ok b ->
  dle (z_maximumSetPoint (l_zone a)) (z_maximumSetPoint (l_zone b)).
Proof.
  intros Tn CZ H HE A0 A B0 B. assert (R := start_rel _ _ _ _ _ _ _ _ _ _ _ CZ Tn H A0 B0).
  exact (lr_max _ _ _ _ (run_rel up f z CZ Tn _ _ HE _ _ _ _ R A B)).
Qed.
