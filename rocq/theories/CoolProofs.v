(** * Proofs for C105: the fan commands of two lives of one zone. *)
From Coq Require Import ZArith Bool List String Lia.
From Verif Require Import Base BaseFacts Dbl DblFacts DblOrder DblBound PidModel ZoneModel LoopModel SpecPid PidProofs SpecZone
  ZoneFrame ZoneThermal ZoneFan ZoneProofs LoopProofs SpecHeat HeatProofs HeatZone BuilderModel SpecBuilder SpecRange
  RangeProofs RangeSystem SpecCool.
Import ListNotations.
Local Arguments pid : simpl never.

(** ** One fan loop *)
Lemma ff_form p sp x : let c := params (pc_info p) in feeds_forward c ->
  snd (pid_process p sp x) = spec_unslewed c (integral (pc_info p)) (lastError (pc_info p)) (x, sp).
Proof.
  intros c (_ & _ & _ & _ & U & (C & P & N)). subst c. unfold pid_process, calPIDOutput. rewrite C, P, N. cbn [andb].
  assert (E := pid_out_form (pc_info p) (x, sp)). cbv zeta in E. cbn [fst snd] in E.
  destruct (pid (pc_info p) x sp) as [i o]. cbn [snd] in *. rewrite E.
  destruct (initialized (pc_info p)); [now rewrite zero_slew|reflexivity].
Qed.
Lemma ff_params p sp x : params (pc_info (fst (pid_process p sp x))) = params (pc_info p).
Proof.
  unfold pid_process, calPIDOutput.
  repeat match goal with |- context [if ?b then _ else _] => destruct b end; cbn; try reflexivity;
    unfold pid, pid_eval; cbn; reflexivity.
Qed.
Lemma zero_dadd a b : deq a d0 -> notnan (dadd a b) -> deq b d0 -> deq (dadd a b) d0.
Proof.
  intros A N B. destruct a as [sa|sa| |sa ma ea Ha]; try (destruct sa; discriminate A); try discriminate A.
  destruct b as [sb|sb| |sb mb eb Hb]; try (destruct sb; discriminate B); try discriminate B.
  destruct sa, sb; reflexivity.
Qed.

Lemma ff_le c mi1 mi2 me1 me2 x1 x2 sp1 sp2 : feeds_forward c -> limits_ordered (outLim c) -> dle sp1 sp2 ->
  notnan (spec_unslewed c mi1 me1 (x1, sp1)) -> notnan (spec_unslewed c mi2 me2 (x2, sp2)) ->
  dle (spec_unslewed c mi1 me1 (x1, sp1)) (spec_unslewed c mi2 me2 (x2, sp2)).
Proof.
  intros (KP & KI & KD & KF & _) LO L N1 N2.
  destruct (unslewed_parts _ _ _ _ _ N1) as (P1 & I1 & D1 & F1 & S1 & S2 & S3).
  destruct (unslewed_parts _ _ _ _ _ N2) as (P2 & I2 & D2 & F2 & U1 & U2 & U3).
  unfold spec_unslewed. rewrite !limit_clamp. apply clamp_mono; [exact LO|].
  apply dadd_mono; auto.
  - assert (Z : forall mi me x sp, notnan (spec_P c (x, sp)) -> notnan (spec_D c me (x, sp)) ->
      notnan (dadd (spec_P c (x, sp)) (spec_I c mi (x, sp))) ->
      notnan (dadd (dadd (spec_P c (x, sp)) (spec_I c mi (x, sp))) (spec_D c me (x, sp))) ->
      deq (dadd (dadd (spec_P c (x, sp)) (spec_I c mi (x, sp))) (spec_D c me (x, sp))) d0).
    { intros mi me x sp NP ND NS NT. apply zero_dadd; [|exact NT|].
      - apply zero_dadd; [|exact NS|]; [now apply zero_dmul|]. unfold spec_I. rewrite KI. reflexivity.
      - now apply zero_dmul. }
    apply zeros_le; apply Z; assumption.
  - unfold spec_FF in *. cbn [snd] in *.
    destruct (notnan_dmul_inv _ _ F1) as [A1 _]. destruct (notnan_dmul_inv _ _ F2) as [A2 _].
    apply dmul_mono_r; auto. apply dadd_mono; auto. apply dle_refl. apply (notnan_dadd_inv _ _ A1).
Qed.

(** ** Failing sensors *)
Definition fsub (same : bool) (z1 z2 : zone) : Prop :=
  forall n, (mget n (z_failSafeSensors z1) <> None -> mget n (z_failSafeSensors z2) <> None) /\
    (same = true -> mget n (z_failSafeSensors z2) <> None -> mget n (z_failSafeSensors z1) <> None).

Lemma bad_iff e n v : pe_sensor e n = Some v ->
  found_bad e n <-> bad_reason (Some (pe_now e, v)) <> None.
Proof.
  intros E. unfold found_bad. cbn. split.
  - intros (w & Ew & H). rewrite E in Ew. injection Ew as <-.
    destruct (sv_failed v); [discriminate|]. destruct H as [H|H]; [discriminate|]. rewrite H. discriminate.
  - intros H. exists v. split; [exact E|]. destruct (sv_failed v); [left; reflexivity|].
    destruct (timed_out (pe_now e) v); [right; reflexivity|]. congruence.
Qed.

Lemma poll_sub same f b e1 e2 n z1 z2 y1 y2 : conf z1 = conf z2 ->
  processSensorInput f b e1 z1 n = Ok y1 -> processSensorInput f b e2 z2 n = Ok y2 ->
  (found_bad e1 n -> found_bad e2 n) /\ (same = true -> found_bad e2 n -> found_bad e1 n) ->
  fsub same z1 z2 -> fsub same y1 y2 /\ conf y1 = conf y2.
Proof.
  intros C H1 H2 NH S. apply poll_one in H1, H2. destruct H1 as (v1 & E1 & P1), H2 as (v2 & E2 & P2).
  destruct P1 as [C1 _ _ _ _ _ F1 _]. destruct P2 as [C2 _ _ _ _ _ F2 _].
  split; [|congruence]. rewrite (bad_iff _ _ _ E1), (bad_iff _ _ _ E2) in NH. destruct NH as (N1 & N2).
  assert (A : z_missingAcceptable z1 = z_missingAcceptable z2) by (use_conf C; reflexivity).
  intros m. rewrite F1, F2. unfold fs_after_poll. rewrite A. destruct (S m) as (S1 & S2).
  destruct (bad_reason (Some (pe_now e1, v1))) as [r1|] eqn:B1, (bad_reason (Some (pe_now e2, v2))) as [r2|] eqn:B2.
  - destruct (smem n (z_missingAcceptable z2)); [split; assumption|]. rewrite !mget_mset.
    destruct (String.eqb m n); [split; intros; discriminate|split; assumption].
  - exfalso. apply N1; [discriminate|reflexivity].
  - destruct (smem n (z_missingAcceptable z2)).
    + rewrite mget_mdel. destruct (String.eqb m n); [split|split; assumption].
      * intros X. congruence.
      * intros Sm. exfalso. apply (N2 Sm); [discriminate|reflexivity].
    + rewrite mget_mdel, mget_mset. destruct (String.eqb m n); [split|split; assumption].
      * intros X. congruence.
      * intros Sm. exfalso. apply (N2 Sm); [discriminate|reflexivity].
  - rewrite !mget_mdel. destruct (String.eqb m n); [split; intros; congruence|split; assumption].
Qed.
Lemma polls_sub same f b e1 e2 names : forall z1 z2 y1 y2, conf z1 = conf z2 ->
  processSensorInputs f b e1 names z1 = Ok y1 -> processSensorInputs f b e2 names z2 = Ok y2 ->
  no_healthier same names e1 e2 -> fsub same z1 z2 -> fsub same y1 y2.
Proof.
  unfold processSensorInputs. induction names as [|n r IH]; intros z1 z2 y1 y2 C H1 H2 NH S; cbn [foldM] in H1, H2.
  - injection H1 as <-. injection H2 as <-. exact S.
  - apply bind_ok in H1, H2. destruct H1 as (x1 & H1 & H1'), H2 as (x2 & H2 & H2').
    destruct (poll_sub same f b e1 e2 n z1 z2 x1 x2 C H1 H2 (NH n (or_introl eq_refl)) S) as (S' & C').
    apply (IH x1 x2 y1 y2 C' H1' H2'); [|exact S']. intros m I. apply NH. right. exact I.
Qed.
Lemma fsub_frame same z1 z2 y1 y2 : fsub same z1 z2 -> z_failSafeSensors y1 = z_failSafeSensors z1 ->
  z_failSafeSensors y2 = z_failSafeSensors z2 -> fsub same y1 y2.
Proof. intros S E1 E2 n. rewrite E1, E2. apply S. Qed.

Lemma fans_sub same f e1 e2 z1 z2 y1 y2 : conf z1 = conf z2 ->
  updateFanTelemetry f e1 z1 = Ok y1 -> updateFanTelemetry f e2 z2 = Ok y2 ->
  no_healthier same (z_fanInputs z1) e1 e2 -> fsub same z1 z2 -> fsub same y1 y2.
Proof.
  unfold updateFanTelemetry. intros C H1 H2 NH S. apply bind_ok in H1, H2.
  destruct H1 as (x1 & H1 & H1'), H2 as (x2 & H2 & H2'). injection H1' as <-. injection H2' as <-.
  match type of H1 with processSensorInputs _ _ _ ?n (log_tokens ?f ?t ?z) = _ =>
    assert (Q1 := quiet_log f t z); set (w1 := log_tokens f t z) in * end.
  match type of H2 with processSensorInputs _ _ _ ?n (log_tokens ?f ?t ?z) = _ =>
    assert (Q2 := quiet_log f t z); set (w2 := log_tokens f t z) in * end.
  destruct Q1 as [A1 _ _ _ A5 _ _ _]. destruct Q2 as [B1 _ _ _ B5 _ _ _].
  assert (E1 : z_fanInputs w1 = z_fanInputs z1) by (use_conf A1; reflexivity).
  assert (E2 : z_fanInputs w2 = z_fanInputs z1) by (use_conf B1; use_conf C; reflexivity).
  rewrite E1 in H1. rewrite E2 in H2.
  match goal with |- fsub _ (log_tokens ?f ?t x1) (log_tokens ?g ?u x2) =>
    assert (Q1 := quiet_log f t x1); assert (Q2 := quiet_log g u x2) end.
  destruct Q1 as [_ _ _ _ A6 _ _ _]. destruct Q2 as [_ _ _ _ B6 _ _ _].
  apply (fsub_frame same x1 x2); [|exact A6|exact B6].
  apply (polls_sub same f true e1 e2 (z_fanInputs z1) w1 w2 x1 x2); auto; [congruence|].
  apply (fsub_frame same z1 z2); assumption.
Qed.
Lemma thermals_sub same f e1 e2 te1 te2 z1 z2 y1 y2 : conf z1 = conf z2 ->
  thermal_cycle f e1 te1 z1 = Ok y1 -> thermal_cycle f e2 te2 z2 = Ok y2 ->
  no_healthier same (z_thermalInputs z1) e1 e2 -> fsub same z1 z2 -> fsub same y1 y2.
Proof.
  intros C H1 H2 NH S. apply thermal_cycle_split in H1, H2.
  destruct H1 as (u1 & w1 & U1 & F1 & _ & _ & _ & D1), H2 as (u2 & w2 & U2 & F2 & _ & _ & _ & D2).
  apply determine_frame in D1, D2. destruct D1 as (_ & _ & _ & _ & Fs1 & _), D2 as (_ & _ & _ & _ & Fs2 & _).
  destruct F1 as [_ _ Ff1 _ _ _ _ _ _ _ _]. destruct F2 as [_ _ Ff2 _ _ _ _ _ _ _ _]. cbn in Ff1, Ff2.
  apply (fsub_frame same u1 u2); [|congruence|congruence].
  unfold updateSensors in U1, U2. change (z_thermalInputs (emit EvThermalCycle z1)) with (z_thermalInputs z1) in U1.
  change (z_thermalInputs (emit EvThermalCycle z2)) with (z_thermalInputs z2) in U2.
  assert (E : z_thermalInputs z2 = z_thermalInputs z1) by (use_conf C; reflexivity). rewrite E in U2.
  apply (polls_sub same f false e1 e2 (z_thermalInputs z1) (emit EvThermalCycle z1) (emit EvThermalCycle z2) u1 u2); auto.
Qed.

(** ** The failsafe percentage *)
Lemma percent_top z : fs_inv z -> (forall n, dle d0 (own_percent z n)) -> getFailSafeMode z = true ->
  (exists n, mget n (z_failSafeSensors z) <> None /\ deq (getFailSafePercent z) (own_percent z n)) /\
  (forall n, mget n (z_failSafeSensors z) <> None -> dle (own_percent z n) (getFailSafePercent z)).
Proof.
  intros (S & I) P M.
  assert (Ent : forall k r p, In (k, (r, p)) (z_failSafeSensors z) -> p = own_percent z k).
  { intros k r p In_. apply (sorted_In_mget _ _ _ S) in In_. rewrite I in In_.
    destruct (is_inputb z k); [|discriminate]. unfold expected_entry in In_.
    destruct (smem k (z_missingAcceptable z)); [discriminate|]. destruct (bad_reason _); [|discriminate]. congruence. }
  clear I. unfold getFailSafePercent, getFailSafeMode in *.
  destruct (z_failSafeSensors z) as [|[k [r p]] rest] eqn:Ef; [discriminate|]. clear M.
  assert (Hp : p = own_percent z k) by (apply (Ent k r); left; reflexivity).
  assert (Rest : forall k' r' p', In (k', (r', p')) rest -> dle d0 p').
  { intros k' r' p' In_. rewrite (Ent k' r' p') by (right; exact In_). apply P. }
  destruct (max_percent_spec rest p) as (A & B & D); [subst p; apply P|exact Rest|].
  set (m := max_percent p rest) in *.
  assert (Bd : forall n, mget n ((k, (r, p)) :: rest) <> None -> dle (own_percent z n) m).
  { intros n E. destruct (mget n ((k, (r, p)) :: rest)) as [[r' p']|] eqn:E'; [|congruence].
    apply mget_In in E'. rewrite <- (Ent n r' p' E').
    destruct E' as [E'|E']; [injection E' as <- <- <-; exact A|eapply B; exact E']. }
  assert (Ex : exists n, mget n ((k, (r, p)) :: rest) <> None /\ m = own_percent z n).
  { destruct D as [D|(k' & r' & D)].
    - exists k. split; [simpl; rewrite String.eqb_refl; discriminate|]. congruence.
    - exists k'. split; [rewrite (sorted_In_mget _ k' (r', m) S); [discriminate|right; exact D]|].
      apply (Ent k' r'). right. exact D. }
  destruct (deqb m d0) eqn:Em.
  - assert (K : deq (z_zoneFailSafePercent z) m).
    { destruct Ex as (n & En & Hm). apply deq_trans with d0; [|apply deq_sym; exact Em].
      rewrite Hm in Em. unfold own_percent in Em.
      destruct (mget n (z_sensorFailSafePercent z)) as [q|]; [|exact Em].
      destruct (deqb q d0) eqn:Eq; [exact Em|congruence]. }
    split.
    + destruct Ex as (n & En & Hm). exists n. split; [exact En|]. rewrite <- Hm. exact K.
    + intros n En. eapply dle_trans; [eapply Bd; exact En|]. apply deq_le, deq_sym, K.
  - split; [|exact Bd]. destruct Ex as (n & En & Hm). exists n. split; [exact En|].
    rewrite <- Hm. apply deq_refl. apply dle_notnan in A. tauto.
Qed.

Lemma mode_iff z : fs_inv z -> getFailSafeMode z = true <-> exists n, mget n (z_failSafeSensors z) <> None.
Proof.
  intros (S & _). unfold getFailSafeMode. destruct (z_failSafeSensors z) as [|[k e] r]; split.
  - discriminate.
  - intros (n & H). exfalso. apply H. reflexivity.
  - intros _. exists k. cbn [mget]. rewrite String.eqb_refl. discriminate.
  - reflexivity.
Qed.

Lemma percent_le f z1 z2 v1 v2 : tuningEnabled f = false -> fsub (STRICT_FAILSAFE_PWM f) z1 z2 -> conf z1 = conf z2 ->
  fs_inv z1 -> fs_inv z2 -> (forall n, dle d0 (own_percent z2 n)) -> notnan v1 -> notnan v2 -> dle v1 v2 ->
  dle (fan_percent f z1 v1) (fan_percent f z2 v2).
Proof.
  intros T S C F1 F2 P2 N1 N2 L.
  assert (P1 : forall n, dle d0 (own_percent z1 n)) by (intros n; rewrite (own_percent_conf _ _ n C); apply P2).
  assert (Le : getFailSafeMode z1 = true -> getFailSafeMode z2 = true /\ dle (getFailSafePercent z1) (getFailSafePercent z2)).
  { intros M1. assert (M2 : getFailSafeMode z2 = true).
    { apply (mode_iff z2 F2). apply (mode_iff z1 F1) in M1. destruct M1 as (n & M1). exists n. apply (S n). exact M1. }
    split; [exact M2|]. destruct (percent_top z1 F1 P1 M1) as ((n & I & E) & _).
    destruct (percent_top z2 F2 P2 M2) as (_ & B).
    eapply dle_trans; [apply deq_le; exact E|]. rewrite (own_percent_conf _ _ n C). apply B, (S n), I. }
  unfold fan_percent. rewrite T. cbv zeta.
  destruct (getFailSafeMode z1) eqn:M1.
  - destruct (Le eq_refl) as (M2 & LP). rewrite M2. destruct (STRICT_FAILSAFE_PWM f); [exact LP|].
    destruct (dle_notnan _ _ LP) as (NP1 & NP2).
    change (dle (dmax v1 (getFailSafePercent z1)) (dmax v2 (getFailSafePercent z2))).
    assert (Lub : forall x y v, dle x v -> dle y v -> dle (dmax x y) v)
      by (intros x y v X Y; unfold dmax; destruct (dltb x y); assumption).
    apply Lub.
    + eapply dle_trans; [exact L|]. now apply dmax_ge_l.
    + eapply dle_trans; [exact LP|]. now apply dmax_ge_r.
  - destruct (getFailSafeMode z2) eqn:M2; [|exact L].
    destruct (STRICT_FAILSAFE_PWM f) eqn:St.
    + exfalso. apply (mode_iff z2 F2) in M2. destruct M2 as (n & M2).
      assert (X : getFailSafeMode z1 = true) by (apply (mode_iff z1 F1); exists n; now apply (S n)). congruence.
    + eapply dle_trans; [exact L|]. change (dle v2 (dmax v2 (getFailSafePercent z2))). now apply dmax_ge_l.
Qed.

(** ** The fan controllers *)
Definition fan_rel (a b : option FanController) : Prop :=
  match a, b with
  | Some j, Some k => fan_inputs j = fan_inputs k /\ params (pc_info (fan_pid j)) = params (pc_info (fan_pid k)) /\
      feeds_forward (params (pc_info (fan_pid j)))
  | None, None => True
  | _, _ => False
  end.

Lemma fan_ok_limits names k : fan_ok names (Some k) -> limits_ordered (outLim (params (pc_info (fan_pid k)))).
Proof. intros ((p & S & (E & _)) & _). rewrite E. apply S. Qed.

Lemma output_le z1 z2 j k : rinv z1 -> rinv z2 -> bnd 200 (z_maximumSetPoint z1) -> bnd 200 (z_maximumSetPoint z2) ->
  dle (z_maximumSetPoint z1) (z_maximumSetPoint z2) ->
  In (Some j) (z_fans z1) -> In (Some k) (z_fans z2) -> fan_rel (Some j) (Some k) ->
  dle (fan_output z1 j) (fan_output z2 k) /\ notnan (fan_output z1 j) /\ notnan (fan_output z2 k).
Proof.
  intros R1 R2 M1 M2 L I1 I2 (_ & Ep & FF).
  assert (K1 := ri_fans _ R1). assert (K2 := ri_fans _ R2). rewrite Forall_forall in K1, K2.
  specialize (K1 _ I1). specialize (K2 _ I2).
  destruct (fan_step_ok z1 j (ri_cache _ R1) M1 K1) as ((_ & O1) & _).
  destruct (fan_step_ok z2 k (ri_cache _ R2) M2 K2) as ((_ & O2) & _).
  apply dle_notnan in O1, O2. destruct O1 as (O1 & _), O2 as (O2 & _).
  split; [|split; assumption]. assert (LO := fan_ok_limits _ _ K1).
  unfold fan_output in *. rewrite ff_form in O1 |- * by exact FF. rewrite Ep in FF.
  rewrite ff_form in O2 |- * by exact FF. rewrite Ep in *. now apply ff_le.
Qed.

Definition ready (z : zone) : Prop := fs_inv z /\ rinv z /\ bnd 200 (z_maximumSetPoint z).

Lemma writes_le f z1 z2 : tuningEnabled f = false -> ready z1 -> ready z2 ->
  dle (z_maximumSetPoint z1) (z_maximumSetPoint z2) -> fsub (STRICT_FAILSAFE_PWM f) z1 z2 -> conf z1 = conf z2 ->
  z_redundantWrite z1 = z_redundantWrite z2 -> Forall2 fan_rel (z_fans z1) (z_fans z2) ->
  Forall2 at_least (all_fan_writes f z1) (all_fan_writes f z2).
Proof.
  intros T (F1 & R1 & M1) (F2 & R2 & M2) L S C W H. rewrite <- !all_fan_writes_eq.
  assert (A1 : incl (z_fans z1) (z_fans z1)) by apply incl_refl.
  assert (A2 : incl (z_fans z2) (z_fans z2)) by apply incl_refl.
  revert H A1 A2. generalize (z_fans z1) at 1 2 4 as l1. generalize (z_fans z2) at 1 2 4 as l2.
  intros l2 l1 H. induction H as [|a b l1 l2 Hab H IH]; intros A1 A2; cbn [flat_map]; [constructor|].
  apply Forall2_app.
  - destruct a as [j|], b as [k|]; try contradiction; [|constructor].
    destruct (output_le z1 z2 j k R1 R2 M1 M2 L) as (Lo & N1 & N2); [apply A1; left; reflexivity|apply A2; left; reflexivity|exact Hab|].
    destruct Hab as (Ei & _). unfold fan_writes. rewrite Ei, W.
    assert (Lp : dle (fan_percent f z1 (fan_output z1 j)) (fan_percent f z2 (fan_output z2 k))).
    { apply percent_le; auto. intros n. apply (ri_own _ R2). }
    assert (U1 := fan_step_ok z1 j (ri_cache _ R1) M1). assert (U2 := fan_step_ok z2 k (ri_cache _ R2) M2).
    assert (K1 := ri_fans _ R1). assert (K2 := ri_fans _ R2). rewrite Forall_forall in K1, K2.
    destruct (U1 (K1 _ (A1 _ (or_introl eq_refl)))) as (P1 & _). destruct (U2 (K2 _ (A2 _ (or_introl eq_refl)))) as (P2 & _).
    assert (Q1 := proj2 (percent_fraction _ (fan_percent_ok f z1 _ F1 R1 P1))).
    assert (Q2 := proj2 (percent_fraction _ (fan_percent_ok f z2 _ F2 R2 P2))).
    apply dle_notnan in Q1, Q2. destruct Q1 as (Q1 & _), Q2 as (Q2 & _).
    assert (D := ddiv100_mono _ _ Lp Q1 Q2). clear - D.
    induction (fan_inputs k) as [|n r IHn]; cbn [map]; [apply Forall2_nil|apply Forall2_cons; [|exact IHn]].
    split; [reflexivity|]. split; [exact D|reflexivity].
  - apply IH; intros x I; [apply A1|apply A2]; right; exact I.
Qed.

Lemma fans_next_rel z1 z2 l1 l2 m1 m2 : Forall2 fan_rel l1 l2 ->
  Forall2 (fun o o' => match o, o' with Some c, Some c' => fan_next z1 c c' | _, _ => False end) l1 m1 ->
  Forall2 (fun o o' => match o, o' with Some c, Some c' => fan_next z2 c c' | _, _ => False end) l2 m2 ->
  Forall2 fan_rel m1 m2.
Proof.
  intros H. revert m1 m2. induction H as [|a b l1 l2 Hab H IH]; intros m1 m2 N1 N2; inversion N1; inversion N2; subst; constructor.
  - destruct a as [j|], b as [k|]; try contradiction.
    match goal with X : match ?y with Some _ => fan_next z1 j _ | None => False end |- _ => destruct y as [j'|]; [|contradiction] end.
    match goal with X : match ?y with Some _ => fan_next z2 k _ | None => False end |- _ => destruct y as [k'|]; [|contradiction] end.
    match goal with X : fan_next z1 j j' |- _ => destruct X as (_ & I1 & P1) end.
    match goal with X : fan_next z2 k k' |- _ => destruct X as (_ & I2 & P2) end.
    destruct Hab as (Ei & Ep & FF). cbn. rewrite P1, P2, !ff_params, I1, I2. auto.
  - apply IH; assumption.
Qed.

(** ** Two lives *)
Record crel (up : string -> bool) (same : bool) (z0 : zone) (l1 l2 : loop) : Prop := Crel {
  cr_heat : lrel up z0 l1 l2;
  cr_mode : mode (l_zone l1) = mode (l_zone l2);
  cr_sub : fsub same (l_zone l1) (l_zone l2);
  cr_fans : Forall2 fan_rel (z_fans (l_zone l1)) (z_fans (l_zone l2));
  cr_full1 : full (l_zone l1);
  cr_full2 : full (l_zone l2);
  cr_writes : Forall2 at_least (writes_in (z_trace (l_zone l1))) (writes_in (z_trace (l_zone l2)))
}.

Lemma crel_step up f z0 l1 l2 a b y1 y2 : crel up (STRICT_FAILSAFE_PWM f) z0 l1 l2 -> cooling_zone up z0 ->
  tuningEnabled f = false -> hotter_event up z0 a b -> no_healthier_event (STRICT_FAILSAFE_PWM f) z0 a b ->
  sensible_event (z_fanInputs z0) a -> sensible_event (z_fanInputs z0) b ->
  loop_step f l1 a = Ok y1 -> loop_step f l2 b = Ok y2 -> crel up (STRICT_FAILSAFE_PWM f) z0 y1 y2.
Proof.
  intros [R Mo S Fn U1 U2 W] CZ Tn H NH Se1 Se2 Y1 Y2.
  assert (R' := step_rel up f z0 l1 l2 a b y1 y2 R CZ Tn H Y1 Y2).
  assert (Cz1 := zr_conf1 _ _ _ _ (lr_zone _ _ _ _ R)). assert (Cz2 := zr_conf2 _ _ _ _ (lr_zone _ _ _ _ R)).
  assert (If1 : z_fanInputs (l_zone l1) = z_fanInputs z0) by (use_conf Cz1; reflexivity).
  assert (If2 : z_fanInputs (l_zone l2) = z_fanInputs z0) by (use_conf Cz2; reflexivity).
  assert (V1 : full (l_zone y1)) by (eapply full_step; [exact U1|rewrite If1; exact Se1|exact Y1]).
  assert (V2 : full (l_zone y2)) by (eapply full_step; [exact U2|rewrite If2; exact Se2|exact Y2]).
  destruct a as [e1|m1|p1 x1], b as [e2|m2|p2 x2]; try contradiction.
  - destruct NH as (NHf & NHt). cbn [loop_step] in Y1, Y2. apply loop_tick_cases in Y1, Y2.
    assert (Man : z_manualMode (l_zone l1) = z_manualMode (l_zone l2)) by (unfold mode in Mo; congruence).
    destruct Y1 as [(N1 & ->)|(u1 & v1 & A1)], Y2 as [(N2 & ->)|(u2 & v2 & A2)].
    + constructor; assumption.
    + destruct A2. congruence.
    + destruct A1. congruence.
    + assert (A1' := A1). assert (A2' := A2).
      destruct (auto_tick_facts _ _ _ _ _ _ A1) as (ev1 & T1). destruct (auto_tick_facts _ _ _ _ _ _ A2) as (ev2 & T2).
      destruct A1 as [_ F1 Th1 (w1 & W1 & Z1) _ _]. destruct A2 as [_ F2 Th2 (w2 & W2 & Z2) _ _].
      assert (Iv : z_updateThermalsTimeMS (l_zone l1) = z_updateThermalsTimeMS (l_zone l2)).
      { unfold conf in Cz1, Cz2. congruence. }
      rewrite Iv, (lr_cnt _ _ _ _ R) in Th1.
      assert (Cl : conf (l_zone l1) = conf (l_zone l2)) by congruence.
      assert (SU : fsub (STRICT_FAILSAFE_PWM f) u1 u2).
      { apply (fans_sub _ f (tk_fan e1) (tk_fan e2) (l_zone l1) (l_zone l2)); auto. rewrite If1. exact NHf. }
      assert (Q1 := F1). assert (Q2 := F2). apply updateFanTelemetry_spec in Q1, Q2.
      destruct Q1 as (Fc1 & Fm1 & _ & Fk1 & _). destruct Q2 as (Fc2 & Fm2 & _ & Fk2 & _).
      assert (It1 : z_thermalInputs u1 = z_thermalInputs z0).
      { assert (X : conf u1 = conf z0) by congruence. use_conf X. reflexivity. }
      assert (K : fsub (STRICT_FAILSAFE_PWM f) v1 v2 /\ conf v1 = conf u1 /\ conf v2 = conf u2 /\
        mode v1 = mode u1 /\ mode v2 = mode u2 /\ z_fans v1 = z_fans u1 /\ z_fans v2 = z_fans u2).
      { destruct (z_updateThermalsTimeMS (l_zone l2) <=? l_cycleCnt l2)%Z.
        - split.
          + apply (thermals_sub _ f (tk_therm e1) (tk_therm e2) (tk_tune e1) (tk_tune e2) u1 u2); auto; [congruence|].
            rewrite It1. exact NHt.
          + apply thermal_cycle_frame in Th1, Th2. destruct Th1 as (? & ? & ? & _), Th2 as (? & ? & ? & _). auto 10.
        - subst. auto 10. }
      destruct K as (SV & Cv1 & Cv2 & Mv1 & Mv2 & Fv1 & Fv2).
      assert (B1 : ready v1).
      { unfold ready. eapply before_fans; [exact U1|rewrite If1; exact Se1|exact F1|]. destruct (_ <=? _)%Z; auto. }
      assert (B2 : ready v2).
      { unfold ready. eapply before_fans; [exact U2|rewrite If2; exact Se2|exact F2|]. destruct (_ <=? _)%Z; auto. }
      apply processFans_spec in W1, W2.
      destruct W1 as (_ & Wm1 & Wr1 & Ws1 & _ & _ & Wf1 & _ & _ & Wn1 & _).
      destruct W2 as (_ & Wm2 & Wr2 & Ws2 & _ & _ & Wf2 & _ & _ & Wn2 & _).
      assert (Q1 := quiet_log f [LComma; LBool (getFailSafeMode w1); LEndl] w1).
      assert (Q2 := quiet_log f [LComma; LBool (getFailSafeMode w2); LEndl] w2).
      rewrite <- Z1 in Q1. rewrite <- Z2 in Q2.
      destruct Q1 as [_ Qm1 Qs1 Qk1 Qf1 _ _ _]. destruct Q2 as [_ Qm2 Qs2 Qk2 Qf2 _ _ _].
      assert (MV : dle (z_maximumSetPoint v1) (z_maximumSetPoint v2)).
      { assert (X := lr_max _ _ _ _ R'). unfold sps in Ws1, Ws2, Qs1, Qs2.
        replace (z_maximumSetPoint v1) with (z_maximumSetPoint (l_zone y1)) by congruence.
        replace (z_maximumSetPoint v2) with (z_maximumSetPoint (l_zone y2)) by congruence. exact X. }
      assert (FV : Forall2 fan_rel (z_fans v1) (z_fans v2)).
      { unfold ctls in Fk1, Fk2. replace (z_fans v1) with (z_fans (l_zone l1)) by congruence.
        replace (z_fans v2) with (z_fans (l_zone l2)) by congruence. exact Fn. }
      constructor.
      * exact R'.
      * unfold mode in *. congruence.
      * apply (fsub_frame _ v1 v2); [exact SV|congruence|congruence].
      * unfold ctls in Qk1, Qk2. replace (z_fans (l_zone y1)) with (z_fans w1) by congruence.
        replace (z_fans (l_zone y2)) with (z_fans w2) by congruence.
        eapply fans_next_rel; [exact FV|exact Wn1|exact Wn2].
      * exact V1.
      * exact V2.
      * rewrite (tf_trace _ _ _ _ _ _ T1), (tf_trace _ _ _ _ _ _ T2), !writes_app.
        apply Forall2_app; [exact W|]. rewrite (tf_writes _ _ _ _ _ _ T1), (tf_writes _ _ _ _ _ _ T2).
        apply writes_le; auto; [congruence|]. unfold mode in *. congruence.
  - cbn in H. subst m2. cbn in Y1, Y2. injection Y1 as <-. injection Y2 as <-.
    constructor; try assumption; cbn [l_zone with_zone] in *.
    + unfold mode in *. injection Mo as Mo1 Mo2. destruct m1; cbn; congruence.
    + destruct m1; exact S.
    + destruct m1; exact Fn.
    + destruct m1; exact W.
  - destruct H as (<- & <-). cbn in Y1, Y2. injection Y1 as <-. injection Y2 as <-.
    assert (E : forall z, mode (setProcessEnabled p1 x1 z) = mode z /\
      z_failSafeSensors (setProcessEnabled p1 x1 z) = z_failSafeSensors z /\
      z_fans (setProcessEnabled p1 x1 z) = z_fans z /\ z_trace (setProcessEnabled p1 x1 z) = z_trace z).
    { intros z. unfold setProcessEnabled. destruct (mget p1 _); auto. }
    destruct (E (l_zone l1)) as (E1 & E2 & E3 & E4). destruct (E (l_zone l2)) as (G1 & G2 & G3 & G4).
    constructor; try assumption; cbn [l_zone with_zone] in *.
    + congruence.
    + apply (fsub_frame _ (l_zone l1) (l_zone l2)); assumption.
    + rewrite E3, G3. exact Fn.
    + rewrite E4, G4. exact W.
Qed.

Lemma crel_run up f z0 : cooling_zone up z0 -> tuningEnabled f = false -> forall evs1 evs2,
  Forall2 (hotter_event up z0) evs1 evs2 -> Forall2 (no_healthier_event (STRICT_FAILSAFE_PWM f) z0) evs1 evs2 ->
  Forall (sensible_event (z_fanInputs z0)) evs1 -> Forall (sensible_event (z_fanInputs z0)) evs2 ->
  forall l1 l2 y1 y2, crel up (STRICT_FAILSAFE_PWM f) z0 l1 l2 ->
  loop_run f evs1 l1 = Ok y1 -> loop_run f evs2 l2 = Ok y2 -> crel up (STRICT_FAILSAFE_PWM f) z0 y1 y2.
Proof.
  intros CZ Tn evs1 evs2 H. induction H as [|a b evs1 evs2 Hab H IH]; intros N S1 S2 l1 l2 y1 y2 R Y1 Y2.
  - unfold loop_run in *. cbn in *. congruence.
  - unfold loop_run in Y1, Y2. cbn in Y1, Y2. apply bind_ok in Y1, Y2.
    destruct Y1 as (x1 & X1 & Y1), Y2 as (x2 & X2 & Y2).
    inversion N; inversion S1; inversion S2; subst. apply (IH ltac:(assumption) ltac:(assumption) ltac:(assumption) x1 x2); auto.
    eapply crel_step; eauto.
Qed.

Lemma crel_start up f z e1 e2 te1 te2 now1 now2 l1 l2 : cooling_zone up z -> forward_fans z -> tuningEnabled f = false ->
  start_ok z -> hotter_poll up z e1 e2 -> no_healthier (STRICT_FAILSAFE_PWM f) (z_thermalInputs z) e1 e2 ->
  modest_speeds (z_fanInputs z) e1 -> modest_speeds (z_fanInputs z) e2 -> int_files te1 -> int_files te2 ->
  loop_start f e1 te1 now1 z = Ok l1 -> loop_start f e2 te2 now2 z = Ok l2 -> crel up (STRICT_FAILSAFE_PWM f) z l1 l2.
Proof.
  intros CZ FF Tn So H NH M1 M2 I1 I2 Y1 Y2.
  assert (R := start_rel up f z e1 e2 te1 te2 now1 now2 l1 l2 CZ Tn H Y1 Y2).
  assert (U1 := full_start f e1 te1 now1 z l1 So M1 I1 Y1). assert (U2 := full_start f e2 te2 now2 z l2 So M2 I2 Y2).
  destruct (loop_start_frame _ _ _ _ _ _ Y1) as (_ & _ & _ & _ & _ & _ & _ & (ev1 & T1 & _ & W1 & _)).
  destruct (loop_start_frame _ _ _ _ _ _ Y2) as (_ & _ & _ & _ & _ & _ & _ & (ev2 & T2 & _ & W2 & _)).
  assert (Tz : z_trace z = []) by apply So.
  unfold loop_start in Y1, Y2. apply bind_ok in Y1, Y2.
  destruct Y1 as (z1 & X1 & Y1), Y2 as (z2 & X2 & Y2). injection Y1 as <-. injection Y2 as <-. cbn [l_zone] in *.
  set (w := initializeCache (initializeLog f z)) in *.
  assert (Cw : conf w = conf z).
  { assert (Q : quiet_step z (initializeLog f z) []) by apply quiet_log. destruct Q as [Qc _ _ _ Qf _ _ _].
    destruct (initializeCache_inv (initializeLog f z)) as (_ & Ic & _); [rewrite Qf; apply So|]. unfold w. congruence. }
  assert (Kw : z_fans w = z_fans z).
  { assert (Q : quiet_step z (initializeLog f z) []) by apply quiet_log. destruct Q as [_ _ _ Qk _ _ _ _].
    destruct (initializeCache_frame (initializeLog f z)) as (_ & Ik & _). fold w in Ik. unfold ctls in *. congruence. }
  assert (G1 := X1). assert (G2 := X2). apply thermal_cycle_frame in G1, G2.
  destruct G1 as (_ & Mo1 & Fn1 & _), G2 as (_ & Mo2 & Fn2 & _).
  constructor; cbn [l_zone].
  - exact R.
  - congruence.
  - eapply (thermals_sub _ f e1 e2 te1 te2 w w); [reflexivity|exact X1|exact X2| |].
    + assert (It : z_thermalInputs w = z_thermalInputs z) by (use_conf Cw; reflexivity). rewrite It. exact NH.
    + intros n. split; intros; assumption.
  - rewrite Fn1, Fn2, Kw. assert (G : forall l, incl l (z_fans z) -> Forall2 fan_rel l l).
    { induction l as [|o r IH]; intros I; constructor.
      - destruct o as [k|]; [|exact Logic.I]. destruct (FF k) as (c & E & F); [apply I; left; reflexivity|].
        cbn. rewrite E. split; [reflexivity|]. split; [reflexivity|].
        replace (params (pc_info (pid_ctrl_init c))) with c; [exact F|].
        symmetry. apply (init_num c).
      - apply IH. intros x J. apply I. right. exact J. }
    apply G, incl_refl.
  - exact U1.
  - exact U2.
  - rewrite T1, T2, Tz, !app_nil_r, W1, W2. constructor.
Qed.

Lemma C105_lemma bus_ok zp confs built id pids z c up f e1 e2 te1 te2 now1 now2 a0 b0 evs1 evs2 a b :
  buildZones bus_ok zp confs = Ok built -> NoDup (map fst zp) -> In (id, pids) zp -> In (id, z) built ->
  BuilderModel.zget id confs = Some c -> sensible_pids pids -> sensible_zone c ->
  tuningEnabled f = false -> cooling_zone up z -> forward_fans z ->
  modest_speeds (z_fanInputs z) e1 -> modest_speeds (z_fanInputs z) e2 -> int_files te1 -> int_files te2 ->
  Forall (sensible_event (z_fanInputs z)) evs1 -> Forall (sensible_event (z_fanInputs z)) evs2 ->
  hotter_poll up z e1 e2 -> Forall2 (hotter_event up z) evs1 evs2 ->
  no_healthier (STRICT_FAILSAFE_PWM f) (z_thermalInputs z) e1 e2 ->
  Forall2 (no_healthier_event (STRICT_FAILSAFE_PWM f) z) evs1 evs2 ->
  loop_start f e1 te1 now1 z = Ok a0 -> loop_run f evs1 a0 = Ok a ->
  loop_start f e2 te2 now2 z = Ok b0 -> loop_run f evs2 b0 = Ok b ->
  Forall2 at_least (writes_in (z_trace (l_zone a))) (writes_in (z_trace (l_zone b))).
Proof.
  intros B Nd J Jz Zc Sp Sz Tn CZ FF M1 M2 I1 I2 S1 S2 H HE NH NE A0 A B0 Bq.
  assert (So := built_start_ok _ _ _ _ _ _ _ _ B Nd J Jz Zc Sp Sz).
  assert (R := crel_start _ _ _ _ _ _ _ _ _ _ _ CZ FF Tn So H NH M1 M2 I1 I2 A0 B0).
  exact (cr_writes _ _ _ _ _ (crel_run up f z CZ Tn _ _ HE NE S1 S2 _ _ _ _ R A Bq)).
Qed.
