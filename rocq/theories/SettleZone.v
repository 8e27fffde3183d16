(** * Proofs for C107: a zone whose readings stay the same. *)
From Coq Require Import ZArith Bool List String Lia.
From Verif Require Import Base BaseFacts Dbl DblFacts DblOrder DblBound PidModel ZoneModel LoopModel SpecPid PidProofs SpecZone
  ZoneFrame ZoneThermal ZoneFan ZoneProofs LoopProofs SpecHeat HeatProofs HeatZone BuilderModel SpecBuilder SpecRange
  RangeProofs RangeSystem SpecCool CoolProofs RestProofs SettleProofs SpecSettle.
Import ListNotations.
Local Arguments pid : simpl never.
Local Arguments pid_process : simpl never.

(** ** Failing sensors *)
Definition poll_key (asked : bool) (bad need key : Prop) : Prop := if asked then bad /\ (need \/ key) else key.
Definition tick_key (due inF inT : bool) (bad need key : Prop) : Prop :=
  if due then poll_key inT bad need (poll_key inF bad need key) else poll_key inF bad need key.

Lemma keys_rest (due : nat -> bool) : exists N, forall (K : nat -> Prop) (inF inT : bool) (bad need : Prop),
  (forall n, K (S n) <-> tick_key (due n) inF inT bad need (K n)) -> forall n, (N <= n)%nat -> (K n <-> K N).
Proof.
  assert (P1 : forall (K : nat -> Prop) (inF inT : bool) (bad need : Prop),
    (forall n, K (S n) <-> tick_key (due n) inF inT bad need (K n)) ->
    forall n, (1 <= n)%nat -> poll_key inF bad need (K n) <-> K n).
  { intros K inF inT bad need H n Hn. destruct n as [|n]; [lia|]. specialize (H n).
    unfold tick_key, poll_key in *. destruct (due n), inF, inT; tauto. }
  assert (P2 : forall (K : nat -> Prop) (inF inT : bool) (bad need : Prop),
    (forall n, K (S n) <-> tick_key (due n) inF inT bad need (K n)) ->
    forall m, due m = true -> forall n, (S m <= n)%nat -> poll_key inT bad need (K n) <-> K n).
  { intros K inF inT bad need H m Dm n Hn. induction Hn as [|n Hn IH].
    - specialize (H m). rewrite Dm in H. unfold tick_key, poll_key in *. destruct inF, inT; tauto.
    - specialize (H n). unfold tick_key, poll_key in *. destruct (due n), inF, inT; tauto. }
  destruct (Classical_Prop.classic (exists m, due m = true)) as [(m & Dm)|Nd].
  - exists (S m). intros K inF inT bad need H n Hn. induction Hn as [|n Hn IH]; [reflexivity|]. rewrite <- IH.
    assert (A := P1 _ _ _ _ _ H n ltac:(lia)). assert (B := P2 _ _ _ _ _ H m Dm n Hn). rewrite (H n).
    unfold tick_key. destruct (due n); [|exact A]. clear - A B. unfold poll_key in *. destruct inF, inT; tauto.
  - exists 1%nat. intros K inF inT bad need H n Hn. induction Hn as [|n Hn IH]; [reflexivity|]. rewrite <- IH, (H n).
    unfold tick_key. destruct (due n) eqn:E; [exfalso; eauto|]. now apply (P1 _ _ _ _ _ H).
Qed.

Definition failing (z : zone) (n : string) : Prop := mget n (z_failSafeSensors z) <> None.
Definition strict_sensor (z : zone) (n : string) : Prop := smem n (z_missingAcceptable z) = false.
Lemma poll_failing f b e n z y : processSensorInput f b e z n = Ok y -> forall x,
  failing y x <-> poll_key (String.eqb x n) (found_bad e x) (strict_sensor z x) (failing z x).
Proof.
  intros H x. apply poll_one in H. destruct H as (v & E & P). destruct P as [_ _ _ _ _ _ F _].
  unfold failing. rewrite F. unfold fs_after_poll, poll_key, strict_sensor.
  destruct (String.eqb_spec x n) as [->|Ne].
  - rewrite (bad_iff _ _ _ E). destruct (bad_reason _) as [r|].
    + destruct (smem n _).
      * split; [intros K; split; [discriminate|right; exact K]|]. intros (_ & [X|X]); [discriminate|exact X].
      * rewrite mget_mset, String.eqb_refl. split; [intros _; split; [discriminate|left; reflexivity]|intros _; discriminate].
    + rewrite mget_mdel, String.eqb_refl. split; [congruence|]. intros (X & _). congruence.
  - assert (En : String.eqb x n = false) by now apply String.eqb_neq.
    destruct (bad_reason _); [destruct (smem n _)|]; rewrite ?mget_mset, ?mget_mdel, ?En; reflexivity.
Qed.
Lemma polls_failing f b e names : forall z y, processSensorInputs f b e names z = Ok y -> forall x,
  failing y x <-> poll_key (smem x names) (found_bad e x) (strict_sensor z x) (failing z x).
Proof.
  unfold processSensorInputs. induction names as [|n r IH]; intros z y H x; cbn [foldM] in H.
  - injection H as <-. reflexivity.
  - apply bind_ok in H. destruct H as (w & H1 & H). rewrite (IH w y H x).
    assert (A := poll_failing _ _ _ _ _ _ H1 x). apply poll_one in H1. destruct H1 as (v & _ & P). destruct P as [C _ _ _ _ _ _ _].
    assert (E : strict_sensor w x <-> strict_sensor z x) by (unfold strict_sensor; use_conf C; reflexivity).
    change (smem x (n :: r)) with (String.eqb x n || smem x r). clear - A E.
    unfold poll_key in *. destruct (String.eqb x n), (smem x r); cbn [orb]; tauto.
Qed.
Lemma fan_polls_failing f e z y : updateFanTelemetry f e z = Ok y -> forall x,
  failing y x <-> poll_key (smem x (z_fanInputs z)) (found_bad e x) (strict_sensor z x) (failing z x).
Proof.
  unfold updateFanTelemetry. intros H x. apply bind_ok in H. destruct H as (w & H & H'). injection H' as <-.
  match type of H with processSensorInputs _ _ _ ?n (log_tokens ?f ?t ?z) = _ =>
    assert (Q := quiet_log f t z); set (w0 := log_tokens f t z) in * end.
  destruct Q as [A1 _ _ _ A5 _ _ _].
  match goal with |- failing (log_tokens ?f ?t w) x <-> _ => assert (Q := quiet_log f t w) end.
  destruct Q as [_ _ _ _ A6 _ _ _].
  assert (P := polls_failing _ _ _ _ _ _ H x). unfold failing in *. rewrite A6. rewrite A5 in P.
  assert (E1 : z_fanInputs w0 = z_fanInputs z) by (use_conf A1; reflexivity).
  assert (E2 : strict_sensor w0 x <-> strict_sensor z x) by (unfold strict_sensor; use_conf A1; reflexivity).
  rewrite E1 in P. clear - P E2. unfold poll_key in *. destruct (smem x _); tauto.
Qed.
Lemma thermal_polls_failing f e te z y : thermal_cycle f e te z = Ok y -> forall x,
  failing y x <-> poll_key (smem x (z_thermalInputs z)) (found_bad e x) (strict_sensor z x) (failing z x).
Proof.
  intros H x. apply thermal_cycle_split in H. destruct H as (u & w & U & F & _ & _ & _ & Dt).
  apply determine_frame in Dt. destruct Dt as (_ & _ & _ & _ & Fs & _). destruct F as [_ _ Ff _ _ _ _ _ _ _ _]. cbn in Ff.
  unfold updateSensors in U. assert (P := polls_failing _ _ _ _ _ _ U x). unfold failing in *.
  replace (z_failSafeSensors y) with (z_failSafeSensors u) by congruence. rewrite P. reflexivity.
Qed.

(** ** Fan controllers *)
Definition fan_in (rd : readings_map) (names : list string) : dbl :=
  match fan_readings rd names with [] => d0 | v :: r => fold_left dmin r v end.
Definition fan_steps (rd : readings_map) (s : dbl) (o o' : option FanController) : Prop :=
  match o, o' with
  | Some c, Some c' => fan_inputs c' = fan_inputs c /\ fan_pid c' = fst (pid_process (fan_pid c) s (fan_in rd (fan_inputs c)))
  | _, _ => False
  end.
Definition fan_says (rd : readings_map) (s : dbl) (c : FanController) : dbl :=
  snd (pid_process (fan_pid c) s (fan_in rd (fan_inputs c))).
Definition same_fan (rd : readings_map) (s t : dbl) (o o' : option FanController) : Prop :=
  match o, o' with
  | Some c, Some c' => fan_inputs c = fan_inputs c' /\ sim (fan_says rd s c) (fan_says rd t c')
  | _, _ => False
  end.

Lemma percents_bnd x : in_limits percents x -> bnd 200 x.
Proof. intros (A & B). destruct bnd_percents as (P1 & P2). exact (bnd_between 200 _ _ _ P1 P2 A B). Qed.
Lemma num_cmoder p st : num_inv percents p st -> cmoder p st.
Proof. intros (A & B & C & E & F). split; [split; [exact A|split; [exact B|split; [exact C|now apply percents_bnd]]]|exact F]. Qed.

Lemma fans_rest rd names (s : nat -> dbl) m : bnd 200 m -> (forall n, sim (s n) m) ->
  (forall l, incl l names -> bnd 200 (fan_in rd l)) -> forall F : nat -> list (option FanController),
  Forall (fan_ok names) (F 0%nat) -> (forall n, Forall2 (fan_steps rd (s n)) (F n) (F (S n))) ->
  exists n0, forall n, (n0 <= n)%nat -> Forall2 (same_fan rd (s n) (s n0)) (F n) (F n0).
Proof.
  intros Bm Hs Bi F. remember (F 0%nat) as l eqn:El. revert F El. induction l as [|o l IH]; intros F El Ok St.
  - assert (E : forall n, F n = []).
    { induction n as [|n IHn]; [auto|]. specialize (St n). rewrite IHn in St. now inversion St. }
    exists 0%nat. intros n _. rewrite !E. constructor.
  - inversion Ok as [|? ? O1 O2]. subst.
    assert (Ex : forall n, exists c, F n = Some c :: tl (F n)).
    { assert (G : forall n, exists a, F n = a :: tl (F n)).
      { induction n as [|n (a & E)]; [exists o; now rewrite <- El|]. specialize (St n). rewrite E in St. inversion St; subst. eauto. }
      intros n. destruct (G n) as (a & E). specialize (St n). rewrite E in St. inversion St as [|? b ? ? X]; subst.
      destruct a as [c|]; [eauto|]. destruct b; contradiction. }
    destruct (Ex 0%nat) as (c0 & E0). rewrite E0 in El. injection El as Eo El. subst o.
    set (hd n := match F n with Some c :: _ => c | _ => c0 end).
    assert (Eh : forall n, F n = Some (hd n) :: tl (F n)).
    { intros n. destruct (Ex n) as (c & E). unfold hd. rewrite E. reflexivity. }
    assert (St' : forall n, fan_steps rd (s n) (Some (hd n)) (Some (hd (S n))) /\ Forall2 (fan_steps rd (s n)) (tl (F n)) (tl (F (S n)))).
    { intros n. specialize (St n). rewrite (Eh n), (Eh (S n)) in St. inversion St; subst. auto. }
    destruct (IH (fun n => tl (F n)) El) as (n1 & H1); [exact O2|intros n; apply St'|].
    assert (Ei : forall n, fan_inputs (hd n) = fan_inputs (hd 0%nat)).
    { induction n as [|n IHn]; [reflexivity|]. destruct (St' n) as ((X & _) & _). congruence. }
    assert (H0 : hd 0%nat = c0) by (unfold hd; now rewrite E0).
    destruct O1 as ((p & S & Nu) & Inc). rewrite <- H0 in Nu, Inc.
    destruct (pid_follows p (fun n => fan_pid (hd n)) s m (fan_in rd (fan_inputs (hd 0%nat)))) as (n2 & H2);
      [apply S|split; apply S|apply S|now apply Bi|exact Bm|now apply num_cmoder|exact Hs| |].
    { intros n. destruct (St' n) as ((_ & X) & _). rewrite X, Ei. reflexivity. }
    exists (Nat.max n1 n2). intros n Hn. rewrite (Eh n), (Eh (Nat.max n1 n2)). constructor.
    + cbn [same_fan]. unfold fan_says. rewrite (Ei n), (Ei (Nat.max n1 n2)). split; [reflexivity|].
      eapply sim_trans; [apply H2; lia|]. apply sim_sym, H2. lia.
    + assert (A := H1 n ltac:(lia)). assert (B := H1 (Nat.max n1 n2) ltac:(lia)). cbv beta in A, B. revert A B.
      generalize (s n) (s n1) (s (Nat.max n1 n2)) (tl (F n)) (tl (F n1)) (tl (F (Nat.max n1 n2))). clear.
      intros a b d x y w A. revert w. induction A as [|i j l l' X A IH]; intros w B; inversion B as [|k ? ? ? Y]; subst; constructor.
      * destruct i, j, k; try contradiction. destruct X as (X1 & X2), Y as (Y1 & Y2). split; [congruence|].
        eapply sim_trans; [exact X2|now apply sim_sym].
      * now apply IH.
Qed.

(** ** Commands *)
Lemma fan_says_output rd z c : (forall n, In n (fan_inputs c) -> cached_raw z n = rd n) ->
  fan_says rd (z_maximumSetPoint z) c = fan_output z c.
Proof.
  intros H. unfold fan_says, fan_output, fan_in.
  assert (E : fan_readings (cached_raw z) (fan_inputs c) = fan_readings rd (fan_inputs c)).
  { unfold fan_readings. induction (fan_inputs c) as [|n r IH]; [reflexivity|]. cbn [flat_map].
    rewrite IH by (intros x X; apply H; now right). f_equal. unfold fan_reading. now rewrite H by now left. }
  now rewrite E.
Qed.

Lemma writes_same f rd z1 z2 : tuningEnabled f = false -> ready z1 -> ready z2 -> conf z1 = conf z2 ->
  (forall x, failing z1 x <-> failing z2 x) -> z_redundantWrite z1 = z_redundantWrite z2 ->
  (forall n, In n (z_fanInputs z1) -> cached_raw z1 n = rd n) -> (forall n, In n (z_fanInputs z1) -> cached_raw z2 n = rd n) ->
  Forall2 (same_fan rd (z_maximumSetPoint z1) (z_maximumSetPoint z2)) (z_fans z1) (z_fans z2) ->
  Forall2 same_command (all_fan_writes f z1) (all_fan_writes f z2).
Proof.
  intros T (F1 & R1 & M1) (F2 & R2 & M2) C K W Rd1 Rd2 H. rewrite <- !all_fan_writes_eq.
  assert (If : z_fanInputs z2 = z_fanInputs z1) by (use_conf C; reflexivity).
  assert (S12 : fsub (STRICT_FAILSAFE_PWM f) z1 z2) by (intros n; split; intros; now apply K).
  assert (S21 : fsub (STRICT_FAILSAFE_PWM f) z2 z1) by (intros n; split; intros; now apply K).
  assert (A1 : incl (z_fans z1) (z_fans z1)) by apply incl_refl.
  assert (A2 : incl (z_fans z2) (z_fans z2)) by apply incl_refl.
  revert H A1 A2. generalize (z_fans z1) at 1 2 4 as l1. generalize (z_fans z2) at 1 2 4 as l2.
  intros l2 l1 H. induction H as [|a b l1 l2 Hab H IH]; intros A1 A2; cbn [flat_map]; [constructor|].
  apply Forall2_app.
  - destruct a as [j|], b as [k|]; try contradiction. destruct Hab as (Ei & So).
    assert (K1 := ri_fans _ R1). assert (K2 := ri_fans _ R2). rewrite Forall_forall in K1, K2.
    specialize (K1 _ (A1 _ (or_introl eq_refl))). specialize (K2 _ (A2 _ (or_introl eq_refl))).
    rewrite (fan_says_output rd z1 j) in So by (intros n I; apply Rd1, (proj2 K1), I).
    rewrite (fan_says_output rd z2 k) in So by (intros n I; apply Rd2; rewrite <- If; apply (proj2 K2), I).
    destruct (fan_step_ok z1 j (ri_cache _ R1) M1 K1) as (P1 & _). destruct (fan_step_ok z2 k (ri_cache _ R2) M2 K2) as (P2 & _).
    assert (Q1 := proj2 (percent_fraction _ (fan_percent_ok f z1 _ F1 R1 P1))).
    assert (Q2 := proj2 (percent_fraction _ (fan_percent_ok f z2 _ F2 R2 P2))).
    apply dle_notnan in Q1, Q2. destruct Q1 as (Q1 & _), Q2 as (Q2 & _).
    assert (N1 := proj2 (dle_notnan _ _ (proj1 P1))). assert (N2 := proj2 (dle_notnan _ _ (proj1 P2))).
    assert (De : deq (fan_output z1 j) (fan_output z2 k)) by now apply sim_deq.
    assert (L1 : dle (fan_percent f z1 (fan_output z1 j)) (fan_percent f z2 (fan_output z2 k))).
    { apply percent_le; auto; [intros n; apply (ri_own _ R2)|now apply deq_le]. }
    assert (L2 : dle (fan_percent f z2 (fan_output z2 k)) (fan_percent f z1 (fan_output z1 j))).
    { apply percent_le; auto; [intros n; apply (ri_own _ R1)|now apply deq_le, deq_sym]. }
    assert (D12 := ddiv100_mono _ _ L1 Q1 Q2). assert (D21 := ddiv100_mono _ _ L2 Q2 Q1).
    unfold fan_writes. rewrite Ei, W. assert (D := dle_antisym _ _ D12 D21). clear - D.
    induction (fan_inputs k) as [|n r IHn]; cbn [map]; [apply Forall2_nil|apply Forall2_cons; [|exact IHn]].
    split; [reflexivity|]. split; [exact D|reflexivity].
  - apply IH; intros x I; [apply A1|apply A2]; right; exact I.
Qed.

(** ** One wake-up *)
(** What the sensors of the zone show all the time. *)
Definition shown (e : tick_env) : readings_map := fun n => option_map sv_value (pe_sensor (tk_fan e) n).
Definition shown_raw (e : tick_env) : readings_map := fun n => option_map sv_unscaled (pe_sensor (tk_fan e) n).

Lemma ctl_readings rd rd' t : (forall n, In n (controller_inputs t) -> rd n = rd' n) ->
  ctl_next rd t = ctl_next rd' t /\ ctl_output rd t = ctl_output rd' t.
Proof.
  destruct t as [id inputs ty sp p|id inputs c]; cbn [controller_inputs ctl_next ctl_output]; intros H.
  - rewrite (thermal_input_in rd rd' ty inputs sp H). auto.
  - assert (E : stepwise_input rd inputs = stepwise_input rd' inputs).
    { unfold stepwise_input. generalize dlowest. induction inputs as [|n r IH]; intros a; [reflexivity|]. cbn [fold_left].
      rewrite (H n) by now left. apply IH. intros x X. apply H. now right. }
    rewrite E. auto.
Qed.
Lemma map_readings rd rd' ts : (forall t n, In t ts -> In n (controller_inputs t) -> rd n = rd' n) ->
  map (ctl_next rd) ts = map (ctl_next rd') ts /\ (forall en, reqs rd en ts = reqs rd' en ts) /\ ceils rd ts = ceils rd' ts.
Proof.
  induction ts as [|t ts IH]; intros H; [unfold reqs, ceils; cbn [map flat_map]; auto|]. destruct IH as (A & B & C); [intros t' n I1 I2; apply (H t' n); [now right|exact I2]|].
  destruct (ctl_readings rd rd' t) as (N & O); [intros n I; apply (H t); [now left|exact I]|].
  split; [cbn [map]; now rewrite N, A|]. split.
  - intros en. specialize (B en). unfold reqs in *. cbn [flat_map]. rewrite O, B. reflexivity.
  - unfold ceils in *. cbn [flat_map]. rewrite O, C. reflexivity.
Qed.

(** Invariant of the zone in any life with moderate readings. *)
Record calm_zone (z0 z : zone) : Prop := CalmZone {
  cz_conf : conf z = conf z0;
  cz_full : full z;
  cz_settling : Forall settling (z_thermals z);
  cz_shape : Forall2 shape (z_thermals z0) (z_thermals z)
}.
Lemma shapes_next rd ts0 ts : Forall2 shape ts0 ts -> Forall2 shape ts0 (map (ctl_next rd) ts).
Proof.
  intros H. induction H; cbn [map]; constructor; auto. eapply shape_trans; [eassumption|apply shape_next].
Qed.
Lemma shapes_inputs names ts0 ts : Forall2 shape ts0 ts -> Forall (fun t => incl (controller_inputs t) names) ts0 ->
  Forall (fun t => incl (controller_inputs t) names) ts.
Proof.
  intros H. induction H as [|t t' l l' S H IH]; intros C; inversion C; subst; constructor; auto.
  destruct (shape_same _ _ S) as (_ & _ & ->). assumption.
Qed.
Lemma moderate_ok e z0 ts : moderate e z0 -> Forall2 shape (z_thermals z0) ts ->
  Forall (input_ok (fun n => option_map sv_value (pe_sensor e n))) ts.
Proof.
  unfold moderate. intros M H. induction H as [|t t' l l' S H IH]; inversion M as [|? ? M1 M2]; subst; constructor; auto.
  apply (input_ok_shape _ t); [exact S|]. destruct t; [|exact Logic.I]. cbn. apply mag_le_bnd; [lia|exact M1].
Qed.
Lemma settling_map rd ts : Forall settling ts -> Forall (input_ok rd) ts -> Forall settling (map (ctl_next rd) ts).
Proof.
  intros S. induction S as [|t ts H S IH]; intros I; cbn [map]; [constructor|]. inversion I; subst.
  constructor; [now apply settling_next|auto].
Qed.
Lemma cycle_thermals f e te z0 z z' : tuningEnabled f = false -> conf z = conf z0 ->
  Forall (fun t => incl (controller_inputs t) (z_thermalInputs z0)) (z_thermals z0) ->
  Forall2 shape (z_thermals z0) (z_thermals z) -> thermal_cycle f e te z = Ok z' ->
  let rd n := option_map sv_value (pe_sensor e n) in
  z_maximumSetPoint z' = setpoint (z_minThermalOutputSetPt z0) (z_accumulateSetPoint z0)
    (reqs rd (enabled_in z) (z_thermals z)) (ceils rd (z_thermals z)) /\
  z_thermals z' = map (ctl_next rd) (z_thermals z).
Proof.
  intros Tn C Inc Sh H rd. destruct (cycle_setpoint f e te z z' Tn H) as (A & B).
  assert (Inc' := shapes_inputs _ _ _ Sh Inc). rewrite Forall_forall in Inc'.
  assert (E1 : z_minThermalOutputSetPt z = z_minThermalOutputSetPt z0) by (use_conf C; reflexivity).
  assert (E2 : z_accumulateSetPoint z = z_accumulateSetPoint z0) by (use_conf C; reflexivity).
  assert (E3 : z_thermalInputs z = z_thermalInputs z0) by (use_conf C; reflexivity).
  destruct (map_readings (cycle_readings e z) rd (z_thermals z)) as (M1 & M2 & M3).
  { intros t n It In_. unfold cycle_readings, rd. rewrite E3.
    assert (X := Inc' t It n In_). apply smem_In in X. now rewrite X. }
  rewrite B, M1. split; [|reflexivity]. rewrite A, E1, E2. change (requests (cycle_readings e z) z) with (reqs (cycle_readings e z) (enabled_in z) (z_thermals z)).
  change (ceilings (cycle_readings e z) z) with (ceils (cycle_readings e z) (z_thermals z)). rewrite M2, M3. reflexivity.
Qed.
Lemma calm_cycle f e te z0 z z' : tuningEnabled f = false -> conf z = conf z0 ->
  Forall (fun t => incl (controller_inputs t) (z_thermalInputs z0)) (z_thermals z0) ->
  Forall2 shape (z_thermals z0) (z_thermals z) -> Forall settling (z_thermals z) -> moderate e z0 ->
  thermal_cycle f e te z = Ok z' -> Forall settling (z_thermals z') /\ Forall2 shape (z_thermals z0) (z_thermals z').
Proof.
  intros Tn C Inc Sh Se M H. destruct (cycle_thermals f e te z0 z z' Tn C Inc Sh H) as (_ & E).
  rewrite E. split; [apply settling_map; [exact Se|now apply (moderate_ok e z0)]|now apply shapes_next].
Qed.

Lemma calm_step f z0 l ev l' : tuningEnabled f = false ->
  Forall (fun t => incl (controller_inputs t) (z_thermalInputs z0)) (z_thermals z0) ->
  calm_zone z0 (l_zone l) -> sensible_event (z_fanInputs z0) ev -> moderate_event z0 ev ->
  loop_step f l ev = Ok l' -> calm_zone z0 (l_zone l').
Proof.
  intros Tn Inc [C Fu Se Sh] Sv Mo H.
  assert (If : z_fanInputs (l_zone l) = z_fanInputs z0) by (use_conf C; reflexivity).
  assert (Fu' : full (l_zone l')) by (eapply full_step; [exact Fu|rewrite If; exact Sv|exact H]).
  assert (C' : conf (l_zone l') = conf z0).
  { destruct (loop_step_conf _ _ _ _ H) as (X & _). congruence. }
  assert (G : Forall settling (z_thermals (l_zone l')) /\ Forall2 shape (z_thermals z0) (z_thermals (l_zone l')));
    [|destruct G; constructor; assumption].
  destruct ev as [e|m|p x].
  - cbn [loop_step] in H. apply loop_tick_cases in H. destruct H as [(_ & ->)|(u & v & A)]; [split; assumption|].
    destruct A as [_ Ft Th (w & W & Z) _ _]. apply updateFanTelemetry_spec in Ft. destruct Ft as (Cu & _ & _ & Ku & _).
    apply processFans_spec in W. destruct W as (_ & _ & _ & _ & Wt & _).
    assert (Q := quiet_log f [LComma; LBool (getFailSafeMode w); LEndl] w). rewrite <- Z in Q. destruct Q as [_ _ _ Qk _ _ _ _].
    assert (Eu : z_thermals u = z_thermals (l_zone l)) by (unfold ctls in Ku; congruence).
    assert (Ev : z_thermals (l_zone l') = z_thermals v) by (unfold ctls in Qk; congruence). rewrite Ev.
    destruct (_ <=? _)%Z; [|subst v; rewrite Eu; split; assumption].
    apply (calm_cycle f (tk_therm e) (tk_tune e) z0 u v Tn); try assumption; [congruence| |]; rewrite Eu; assumption.
  - cbn in H. injection H as <-. destruct m; split; assumption.
  - cbn in H. injection H as <-. cbn [l_zone with_zone]. unfold setProcessEnabled. destruct (mget p _); split; assumption.
Qed.
Lemma calm_run f z0 evs : tuningEnabled f = false ->
  Forall (fun t => incl (controller_inputs t) (z_thermalInputs z0)) (z_thermals z0) ->
  Forall (sensible_event (z_fanInputs z0)) evs -> Forall (moderate_event z0) evs -> forall l l',
  calm_zone z0 (l_zone l) -> loop_run f evs l = Ok l' -> calm_zone z0 (l_zone l').
Proof.
  intros Tn Inc. unfold loop_run. induction evs as [|ev r IH]; intros S M l l' K H; cbn [foldM] in H.
  - injection H as <-. exact K.
  - apply bind_ok in H. destruct H as (x & X & H). inversion S; inversion M; subst.
    apply (IH ltac:(assumption) ltac:(assumption) x l'); [|exact H]. eapply calm_step; eauto.
Qed.

(** A wake-up of a zone in automatic mode, seen from outside. *)
Definition cycle_due (l : loop) : bool := (z_updateThermalsTimeMS (l_zone l) <=? l_cycleCnt l)%Z.
Record steady_tick (f : flags) (e0 : tick_env) (z0 : zone) (l l' : loop) (v : zone) (evs : list event) : Prop := SteadyTick {
  sk_trace : z_trace (l_zone l') = evs ++ z_trace (l_zone l);
  sk_writes : writes_in evs = all_fan_writes f v;
  sk_ready : ready v;
  sk_conf : conf v = conf z0;
  sk_mode : mode (l_zone l') = (false, false);
  sk_rw : z_redundantWrite v = z_redundantWrite (l_zone l);
  sk_max : z_maximumSetPoint v = z_maximumSetPoint (l_zone l');
  sk_fans : z_fans v = z_fans (l_zone l);
  sk_raw : forall n, In n (z_fanInputs z0) -> cached_raw v n = shown_raw e0 n;
  sk_steps : Forall2 (fan_steps (shown_raw e0) (z_maximumSetPoint v)) (z_fans (l_zone l)) (z_fans (l_zone l'));
  sk_fails : forall n, failing v n <-> failing (l_zone l') n;
  sk_keys : forall n, failing (l_zone l') n <->
    tick_key (cycle_due l) (smem n (z_fanInputs z0)) (smem n (z_thermalInputs z0)) (found_bad (tk_fan e0) n) (strict_sensor z0 n) (failing (l_zone l) n);
  sk_enabled : forall n, enabled_in (l_zone l') n = enabled_in (l_zone l) n;
  sk_thermals : z_thermals (l_zone l') = if cycle_due l then map (ctl_next (shown e0)) (z_thermals (l_zone l)) else z_thermals (l_zone l);
  sk_setpoint : z_maximumSetPoint (l_zone l') =
    if cycle_due l then setpoint (z_minThermalOutputSetPt z0) (z_accumulateSetPoint z0)
      (reqs (shown e0) (enabled_in (l_zone l)) (z_thermals (l_zone l))) (ceils (shown e0) (z_thermals (l_zone l)))
    else z_maximumSetPoint (l_zone l)
}.

Lemma same_view_bad names a b n : same_view names a b -> In n names -> found_bad a n <-> found_bad b n.
Proof. intros H I. apply (H n I). Qed.
Lemma key_same asked bad bad' need need' key key' : (asked = true -> bad <-> bad') -> (need <-> need') -> (key <-> key') ->
  poll_key asked bad need key <-> poll_key asked bad' need' key'.
Proof. intros B N K. unfold poll_key. destruct asked; [|exact K]. specialize (B eq_refl). tauto. Qed.

Lemma readings_in rd rd' names l : (forall n, In n names -> rd n = rd' n) -> incl l names -> fan_readings rd l = fan_readings rd' l.
Proof.
  intros R I. unfold fan_readings. induction l as [|n r IH]; [reflexivity|]. cbn [flat_map].
  rewrite (IH (fun x X => I x (or_intror X))). f_equal. unfold fan_reading. rewrite (R n (I n (or_introl eq_refl))). reflexivity.
Qed.
Lemma steady f z0 l l' e0 e : tuningEnabled f = false ->
  Forall (fun t => incl (controller_inputs t) (z_thermalInputs z0)) (z_thermals z0) ->
  calm_zone z0 (l_zone l) -> z_manualMode (l_zone l) = false -> sensible_event (z_fanInputs z0) (LTick e) ->
  same_view (z_fanInputs z0 ++ z_thermalInputs z0) (tk_fan e0) (tk_fan e) ->
  same_view (z_fanInputs z0 ++ z_thermalInputs z0) (tk_fan e0) (tk_therm e) ->
  loop_step f l (LTick e) = Ok l' -> exists v evs, steady_tick f e0 z0 l l' v evs.
Proof.
  intros Tn Inc [C Fu Se Sh] Au Sv Vf Vt H.
  assert (If : z_fanInputs (l_zone l) = z_fanInputs z0) by (use_conf C; reflexivity).
  cbn [loop_step] in H. apply loop_tick_cases in H. destruct H as [(N & _)|(u & v & A)]; [congruence|].
  destruct (auto_tick_facts _ _ _ _ _ _ A) as (evs & T). exists v, evs.
  destruct A as [_ Ft Th (w & W & Z) _ _]. fold (cycle_due l) in Th.
  assert (Rv : ready v).
  { unfold ready. eapply before_fans; [exact Fu|rewrite If; exact Sv|exact Ft|]. destruct (cycle_due l); auto. }
  assert (Kf := fan_polls_failing _ _ _ _ Ft).
  apply updateFanTelemetry_spec in Ft. destruct Ft as (Cu & Mu & Su & Ku & _ & _ & Vu & _).
  apply processFans_spec in W. destruct W as (Wc & _ & _ & Ws & Wt & Wp & Wf & _ & _ & Wn & _).
  assert (Q := quiet_log f [LComma; LBool (getFailSafeMode w); LEndl] w). rewrite <- Z in Q. destruct Q as [_ _ Qs Qk Qf _ _ _].
  assert (Cu0 : conf u = conf z0) by congruence.
  assert (Cv := tf_conf2 _ _ _ _ _ _ T). assert (Cv0 : conf v = conf z0) by congruence.
  assert (Eu : z_thermals u = z_thermals (l_zone l)) by (unfold ctls in Ku; congruence).
  assert (Pu : z_pidsControlProcess u = z_pidsControlProcess (l_zone l)) by (unfold ctls in Ku; congruence).
  assert (Ev : z_thermals (l_zone l') = z_thermals v) by (unfold ctls in Qk; congruence).
  assert (Pv : z_pidsControlProcess (l_zone l') = z_pidsControlProcess v) by (unfold ctls in Qk; congruence).
  assert (Fv : z_fans (l_zone l') = z_fans w) by (unfold ctls in Qk; congruence).
  assert (Mu' : z_maximumSetPoint u = z_maximumSetPoint (l_zone l)) by (unfold sps in Su; congruence).
  assert (Mv := tf_max _ _ _ _ _ _ T).
  assert (Itu : z_thermalInputs u = z_thermalInputs z0) by (use_conf Cu0; reflexivity).
  assert (Raw : forall n, In n (z_fanInputs z0) -> cached_raw v n = shown_raw e0 n).
  { intros n I. assert (Iall : In n (z_fanInputs z0 ++ z_thermalInputs z0)) by (apply in_or_app; now left).
    unfold cached_raw, shown_raw.
    assert (Eu' : option_map unscaled (mget n (z_cachedValuesByName u)) = option_map sv_unscaled (pe_sensor (tk_fan e0) n)).
    { rewrite Vu, If. apply smem_In in I. rewrite I. destruct (Vf n Iall) as (_ & X & _). rewrite X.
      now destruct (pe_sensor (tk_fan e) n). }
    destruct (cycle_due l); [|subst v; exact Eu'].
    apply thermal_cycle_split in Th. destruct Th as (y & y' & U & Fr & _ & _ & _ & Dt).
    apply determine_frame in Dt. destruct Fr as [_ _ _ Fv' _ _ _ _ _ _ _]. cbn in Fv'.
    assert (Ec : z_cachedValuesByName v = z_cachedValuesByName y) by intuition congruence.
    unfold updateSensors in U. apply polls_cache with (n := n) in U. rewrite Ec, U.
    change (z_thermalInputs (emit EvThermalCycle u)) with (z_thermalInputs u).
    change (z_cachedValuesByName (emit EvThermalCycle u)) with (z_cachedValuesByName u).
    destruct (smem n (z_thermalInputs u)); [|exact Eu']. destruct (Vt n Iall) as (_ & X & _). rewrite X.
    now destruct (pe_sensor (tk_therm e) n). }
  assert (Rd : forall n, In n (z_thermalInputs z0) -> option_map sv_value (pe_sensor (tk_therm e) n) = shown e0 n).
  { intros n I. assert (Iall : In n (z_fanInputs z0 ++ z_thermalInputs z0)) by (apply in_or_app; now right).
    destruct (Vt n Iall) as (X & _). unfold shown. now rewrite X. }
  assert (Inc' := shapes_inputs _ _ _ Sh Inc). rewrite Forall_forall in Inc'.
  assert (StF : forall n, strict_sensor (l_zone l) n <-> strict_sensor z0 n) by (intros n; unfold strict_sensor; use_conf C; reflexivity).
  assert (StU : forall n, strict_sensor u n <-> strict_sensor z0 n) by (intros n; unfold strict_sensor; use_conf Cu0; reflexivity).
  assert (KU : forall n, failing u n <-> poll_key (smem n (z_fanInputs z0)) (found_bad (tk_fan e0) n) (strict_sensor z0 n) (failing (l_zone l) n)).
  { intros n. rewrite (Kf n), If. apply key_same; [|apply StF|reflexivity]. intros Is. apply smem_In in Is. symmetry.
    apply (same_view_bad _ _ _ n Vf). apply in_or_app. now left. }
  assert (FS : forall n, failing v n <-> failing (l_zone l') n).
  { intros n. unfold failing. rewrite (tf_fs _ _ _ _ _ _ T). reflexivity. }
  assert (CY : (forall n, enabled_in v n = enabled_in (l_zone l) n) /\
    (forall n, failing v n <-> tick_key (cycle_due l) (smem n (z_fanInputs z0)) (smem n (z_thermalInputs z0))
       (found_bad (tk_fan e0) n) (strict_sensor z0 n) (failing (l_zone l) n)) /\
    z_thermals v = (if cycle_due l then map (ctl_next (shown e0)) (z_thermals (l_zone l)) else z_thermals (l_zone l)) /\
    z_maximumSetPoint v = (if cycle_due l then setpoint (z_minThermalOutputSetPt z0) (z_accumulateSetPoint z0)
      (reqs (shown e0) (enabled_in (l_zone l)) (z_thermals (l_zone l))) (ceils (shown e0) (z_thermals (l_zone l)))
      else z_maximumSetPoint (l_zone l))).
  { destruct (cycle_due l).
    - assert (Sh' : Forall2 shape (z_thermals z0) (z_thermals u)) by (rewrite Eu; exact Sh).
      destruct (cycle_thermals f _ _ z0 u v Tn Cu0 Inc Sh' Th) as (A1 & A2).
      assert (A3 := thermal_polls_failing _ _ _ _ _ Th). apply thermal_cycle_frame in Th. destruct Th as (_ & _ & _ & _ & En & _).
      destruct (map_readings (fun n => option_map sv_value (pe_sensor (tk_therm e) n)) (shown e0) (z_thermals u)) as (M1 & M2 & M3).
      { intros t n It I. apply Rd. rewrite Eu in It. exact (Inc' t It n I). }
      assert (EnU : enabled_in u = enabled_in (l_zone l)) by (unfold enabled_in; rewrite Pu; reflexivity).
      split; [|split; [|split]].
      + intros n. rewrite <- EnU. specialize (En n). unfold enabled_in.
        destruct (mget n (z_pidsControlProcess v)), (mget n (z_pidsControlProcess u)); simpl in En; congruence.
      + intros n. rewrite (A3 n), Itu. unfold tick_key. apply key_same; [|apply StU|apply KU]. intros Is. apply smem_In in Is. symmetry.
        apply (same_view_bad _ _ _ n Vt). apply in_or_app. now right.
      + rewrite A2, M1, Eu. reflexivity.
      + rewrite A1, M2, M3, Eu, EnU. reflexivity.
    - subst v. split; [|split; [|split]].
      + intros n. unfold enabled_in. rewrite Pu. reflexivity.
      + exact KU.
      + exact Eu.
      + exact Mu'. }
  destruct CY as (CE & CK & CT & CS).
  constructor.
  - exact (tf_trace _ _ _ _ _ _ T).
  - exact (tf_writes _ _ _ _ _ _ T).
  - exact Rv.
  - exact Cv0.
  - exact (tf_mode _ _ _ _ _ _ T).
  - exact (tf_rw _ _ _ _ _ _ T).
  - symmetry. exact Mv.
  - exact (tf_fans2 _ _ _ _ _ _ T).
  - exact Raw.
  - rewrite Fv, <- (tf_fans2 _ _ _ _ _ _ T).
    assert (Fok := ri_fans _ (proj1 (proj2 Rv))). assert (Ifv : z_fanInputs v = z_fanInputs z0) by (use_conf Cv0; reflexivity).
    rewrite Ifv in Fok. revert Fok Wn. generalize (z_fans v) (z_fans w). clear - Raw.
    intros l m Fok W. induction W as [|o o' l m X W IH]; constructor; inversion Fok as [|? ? F1 F2]; subst; [|now apply IH].
    destruct o as [c|], o' as [c'|]; try contradiction. destruct X as (_ & X1 & X2). destruct F1 as (_ & F1). split; [exact X1|].
    rewrite X2. unfold fan_in.
    assert (E : fan_readings (cached_raw v) (fan_inputs c) = fan_readings (shown_raw e0) (fan_inputs c)).
    { exact (readings_in _ _ (z_fanInputs z0) (fan_inputs c) Raw F1). }
    rewrite E. reflexivity.
  - exact FS.
  - intros n. rewrite <- (FS n). apply CK.
  - intros n. rewrite <- (CE n). unfold enabled_in. rewrite Pv. reflexivity.
  - rewrite Ev. exact CT.
  - rewrite Mv. exact CS.
Qed.

(** ** All wake-ups *)
Section Forever.
  Variables (f : flags) (z0 : zone) (es : nat -> tick_env) (L : nat -> loop).
  Hypothesis (Tn : tuningEnabled f = false).
  Hypothesis (Inc : Forall (fun t => incl (controller_inputs t) (z_thermalInputs z0)) (z_thermals z0)).
  Hypothesis (Calm : calm_zone z0 (l_zone (L 0%nat))).
  Hypothesis (Auto : z_manualMode (l_zone (L 0%nat)) = false).
  Hypothesis (Sens : forall i, sensible_event (z_fanInputs z0) (LTick (es i))).
  Hypothesis (Un : unchanging z0 es).
  Hypothesis (Mod : moderate (tk_therm (es 0%nat)) z0).
  Hypothesis (Step : forall n, loop_step f (L n) (LTick (es n)) = Ok (L (S n))).

  Lemma mod_all i : moderate (tk_therm (es i)) z0.
  Proof.
    unfold moderate in *. revert Mod. rewrite !Forall_forall. rewrite Forall_forall in Inc. intros M t It.
    specialize (M t It). specialize (Inc t It). destruct t as [id inputs ty sp p|]; [|exact Logic.I].
    rewrite (thermal_input_in _ (fun n => option_map sv_value (pe_sensor (tk_therm (es 0%nat)) n))); [exact M|].
    intros n I. assert (Iall : In n (z_fanInputs z0 ++ z_thermalInputs z0)) by (apply in_or_app; right; apply Inc; exact I).
    destruct (Un i) as (_ & V). destruct (Un 0%nat) as (_ & V0). destruct (V n Iall) as (E & _). destruct (V0 n Iall) as (E0 & _). congruence.
  Qed.
  Lemma calm_all n : calm_zone z0 (l_zone (L n)).
  Proof.
    induction n as [|n IH]; [exact Calm|]. apply (calm_step f z0 (L n) (LTick (es n))); auto. exact (mod_all n).
  Qed.
  Lemma facts_all n : z_manualMode (l_zone (L n)) = false /\ exists v evs, steady_tick f (es 0%nat) z0 (L n) (L (S n)) v evs.
  Proof.
    assert (K : forall n, z_manualMode (l_zone (L n)) = false -> exists v evs, steady_tick f (es 0%nat) z0 (L n) (L (S n)) v evs).
    { intros m Am. destruct (Un m) as (V1 & V2). apply (steady f z0 (L m) (L (S m)) (es 0%nat) (es m)); auto. apply calm_all. }
    assert (A : forall n, z_manualMode (l_zone (L n)) = false); [|auto].
    induction n0 as [|m IH]; [exact Auto|]. destruct (K m IH) as (v & evs & T).
    assert (X := sk_mode _ _ _ _ _ _ _ T). unfold mode in X. congruence.
  Qed.
  Lemma enabled_all n x : enabled_in (l_zone (L n)) x = enabled_in (l_zone (L 0%nat)) x.
  Proof.
    induction n as [|n IH]; [reflexivity|]. destruct (facts_all n) as (_ & v & evs & T). now rewrite (sk_enabled _ _ _ _ _ _ _ T).
  Qed.
  Lemma setpoint_all : exists N, forall n, (N <= n)%nat -> sim (z_maximumSetPoint (l_zone (L n))) (z_maximumSetPoint (l_zone (L N))).
  Proof.
    apply (clocked_rests (fun n => z_thermals (l_zone (L n))) (fun n => z_maximumSetPoint (l_zone (L n))) (fun n => cycle_due (L n))
      (shown (es 0%nat)) (enabled_in (l_zone (L 0%nat))) (z_minThermalOutputSetPt z0) (z_accumulateSetPoint z0)).
    - intros n. destruct (facts_all n) as (_ & v & evs & T). exact (sk_thermals _ _ _ _ _ _ _ T).
    - intros n. destruct (facts_all n) as (_ & v & evs & T). rewrite (sk_setpoint _ _ _ _ _ _ _ T).
      assert (E : forall ts, reqs (shown (es 0%nat)) (enabled_in (l_zone (L n))) ts = reqs (shown (es 0%nat)) (enabled_in (l_zone (L 0%nat))) ts).
      { intros ts. unfold reqs. induction ts as [|t ts IH]; [reflexivity|]. cbn [flat_map]. rewrite IH, (enabled_all n). reflexivity. }
      rewrite E. reflexivity.
    - exact (cz_settling _ _ Calm).
    - assert (A := moderate_ok _ _ _ Mod (cz_shape _ _ Calm)). assert (Ic := shapes_inputs _ _ _ (cz_shape _ _ Calm) Inc).
      rewrite Forall_forall in *. intros t It. specialize (A t It). specialize (Ic t It). destruct t as [id inputs ty sp p|]; [|exact Logic.I].
      cbn [input_ok] in *. rewrite (thermal_input_in (shown (es 0%nat)) (fun n => option_map sv_value (pe_sensor (tk_therm (es 0%nat)) n))); [exact A|].
      intros n I. destruct (Un 0%nat) as (_ & V). destruct (V n) as (E & _); [apply in_or_app; right; exact (Ic n I)|]. exact E.
  Qed.

  Lemma forever_rests : exists N W, forall n evs', (N <= n)%nat -> new_events (l_zone (L n)) (l_zone (L (S n))) evs' ->
    Forall2 same_command (writes_in evs') W.
  Proof.
    destruct setpoint_all as (N1 & H1). destruct (keys_rest (fun n => cycle_due (L n))) as (N2 & H2).
    set (N := S (Nat.max N1 N2)).
    assert (Fz : forall n, z_fanInputs (l_zone (L n)) = z_fanInputs z0).
    { intros n. assert (C := cz_conf _ _ (calm_all n)). use_conf C. reflexivity. }
    destruct (fans_rest (shown_raw (es 0%nat)) (z_fanInputs z0) (fun k => z_maximumSetPoint (l_zone (L (S (N + k)))))
       (z_maximumSetPoint (l_zone (L N1)))) with (F := fun k => z_fans (l_zone (L (N + k)))) as (n0 & H3).
    - apply (cz_full _ _ (calm_all N1)).
    - intros k. apply H1. unfold N. lia.
    - intros l Il. destruct (facts_all 0%nat) as (_ & v & evs & T). destruct (sk_ready _ _ _ _ _ _ _ T) as (_ & R & _).
      assert (Cv := sk_conf _ _ _ _ _ _ _ T). assert (Ifv : z_fanInputs v = z_fanInputs z0) by (use_conf Cv; reflexivity).
      assert (B := fan_in_bnd v l (ri_cache _ R)). rewrite Ifv in B. specialize (B Il).
      assert (Raw := sk_raw _ _ _ _ _ _ _ T). unfold fan_in.
      assert (E : fan_readings (cached_raw v) l = fan_readings (shown_raw (es 0%nat)) l).
      { exact (readings_in _ _ (z_fanInputs z0) l Raw Il). }
      rewrite <- E. exact B.
    - assert (A := ri_fans _ (proj1 (proj2 (cz_full _ _ (calm_all (N + 0)))))). rewrite (Fz (N + 0)%nat) in A. exact A.
    - intros k. destruct (facts_all (N + k)%nat) as (_ & v & evs & T). assert (X := sk_steps _ _ _ _ _ _ _ T).
      rewrite (sk_max _ _ _ _ _ _ _ T) in X. replace (N + S k)%nat with (S (N + k)) by lia. exact X.
    - destruct (facts_all (N + n0)%nat) as (_ & v0 & evs0 & T0).
      exists (N + n0)%nat, (writes_in evs0). intros n evs' Hn Hev. destruct (facts_all n) as (_ & v & evs & T).
      assert (Ee : evs' = evs).
      { unfold new_events in Hev. rewrite (sk_trace _ _ _ _ _ _ _ T) in Hev. symmetry. now apply app_inv_tail in Hev. }
      subst evs'. rewrite (sk_writes _ _ _ _ _ _ _ T), (sk_writes _ _ _ _ _ _ _ T0).
      assert (Rw : forall m, (1 <= m)%nat -> z_redundantWrite (l_zone (L m)) = false).
      { intros m Hm. destruct m as [|m]; [lia|]. destruct (facts_all m) as (_ & x & y & X). assert (Y := sk_mode _ _ _ _ _ _ _ X).
        unfold mode in Y. congruence. }
      assert (Cv := sk_conf _ _ _ _ _ _ _ T). assert (Cv0 := sk_conf _ _ _ _ _ _ _ T0).
      assert (Ifv : z_fanInputs v = z_fanInputs z0) by (use_conf Cv; reflexivity).
      apply (writes_same f (shown_raw (es 0%nat))).
      + exact Tn.
      + exact (sk_ready _ _ _ _ _ _ _ T).
      + exact (sk_ready _ _ _ _ _ _ _ T0).
      + congruence.
      + assert (Kx : forall x m, (N2 <= m)%nat -> failing (l_zone (L m)) x <-> failing (l_zone (L N2)) x).
        { intros x. apply (H2 (fun m => failing (l_zone (L m)) x) (smem x (z_fanInputs z0)) (smem x (z_thermalInputs z0))
            (found_bad (tk_fan (es 0%nat)) x) (strict_sensor z0 x)).
          intros m. destruct (facts_all m) as (_ & y & ev & X). exact (sk_keys _ _ _ _ _ _ _ X x). }
        intros x. rewrite (sk_fails _ _ _ _ _ _ _ T x), (sk_fails _ _ _ _ _ _ _ T0 x), (Kx x (S n)), (Kx x (S (N + n0)));
          unfold N in *; [reflexivity|lia|lia].
      + rewrite (sk_rw _ _ _ _ _ _ _ T), (sk_rw _ _ _ _ _ _ _ T0), !Rw; [reflexivity|unfold N; lia|unfold N in Hn; lia].
      + rewrite Ifv. exact (sk_raw _ _ _ _ _ _ _ T).
      + rewrite Ifv. exact (sk_raw _ _ _ _ _ _ _ T0).
      + rewrite (sk_max _ _ _ _ _ _ _ T), (sk_max _ _ _ _ _ _ _ T0), (sk_fans _ _ _ _ _ _ _ T), (sk_fans _ _ _ _ _ _ _ T0).
        assert (X := H3 (n - N)%nat ltac:(unfold N in *; lia)). cbv beta in X.
        replace (N + (n - N))%nat with n in X by (unfold N in *; lia). exact X.
  Qed.
End Forever.

(** ** The theorem *)
Lemma wake_ups_S es n : wake_ups es (S n) = wake_ups es n ++ [LTick (es n)].
Proof. unfold wake_ups. rewrite seq_S, map_app. reflexivity. Qed.

Lemma settling_start t : settling_controller t -> settling t.
Proof.
  destruct t as [id inputs ty sp p|]; cbn; [|auto]. intros (Hs & c & -> & B & OL & SL). split; [apply mag_le_bnd; [lia|exact Hs]|].
  exists c. split; [exact B|]. split; [exact OL|]. split; [exact SL|].
  exact (cmoder_state c [] (bounded_cfg_bounded c B) OL SL (Forall_nil _)).
Qed.

Lemma C107_lemma bus_ok zp confs built id pids z c f env te now l0 evs es :
  buildZones bus_ok zp confs = Ok built -> NoDup (map fst zp) -> In (id, pids) zp -> In (id, z) built ->
  BuilderModel.zget id confs = Some c -> sensible_pids pids -> sensible_zone c ->
  tuningEnabled f = false -> settling_zone z ->
  modest_speeds (z_fanInputs z) env -> int_files te -> moderate env z ->
  loop_start f env te now z = Ok l0 ->
  Forall (sensible_event (z_fanInputs z)) evs -> Forall (moderate_event z) evs ->
  unchanging z es -> (forall i, sensible_event (z_fanInputs z) (LTick (es i))) -> moderate (tk_therm (es 0%nat)) z ->
  exists N W, forall n l l' new, (N <= n)%nat ->
    loop_run f (evs ++ wake_ups es n) l0 = Ok l -> loop_run f (evs ++ wake_ups es (S n)) l0 = Ok l' ->
    new_events (l_zone l) (l_zone l') new -> Forall2 same_command (writes_in new) W.
Proof.
  intros B Nd J Jz Zc Sp Sz Tn (SC & Inc) Mf It Me St Se Mo Un Sens Mod.
  assert (So := built_start_ok _ _ _ _ _ _ _ _ B Nd J Jz Zc Sp Sz).
  assert (Fu := full_start f env te now z l0 So Mf It St).
  assert (Cs := proj1 (loop_start_frame _ _ _ _ _ _ St)).
  assert (Ca : calm_zone z (l_zone l0)).
  { assert (G : Forall settling (z_thermals (l_zone l0)) /\ Forall2 shape (z_thermals z) (z_thermals (l_zone l0)));
      [|destruct G; constructor; assumption].
    unfold loop_start in St. apply bind_ok in St. destruct St as (z1 & X & Y). injection Y as <-. cbn [l_zone] in *.
    set (w := initializeCache (initializeLog f z)) in *.
    assert (Q : quiet_step z (initializeLog f z) []) by apply quiet_log. destruct Q as [Qc _ _ Qk Qf _ _ _].
    assert (Cw : conf w = conf z).
    { destruct (initializeCache_inv (initializeLog f z)) as (_ & Ic & _); [rewrite Qf; apply So|]. unfold w. congruence. }
    assert (Kw : z_thermals w = z_thermals z).
    { destruct (initializeCache_frame (initializeLog f z)) as (_ & Ik & _). fold w in Ik. unfold ctls in *. congruence. }
    assert (Sh : Forall2 shape (z_thermals z) (z_thermals w)).
    { rewrite Kw. generalize (z_thermals z). clear. intros ts. induction ts; constructor; auto using shape_refl. }
    apply (calm_cycle f env te z w z1 Tn); try assumption. rewrite Kw. clear - SC. induction SC; constructor; auto using settling_start. }
  destruct (Classical_Prop.classic (forall n, is_ok (loop_run f (evs ++ wake_ups es n) l0) = true)) as [All|Some_].
  - set (L n := get_ok l0 (loop_run f (evs ++ wake_ups es n) l0)).
    assert (EL : forall n, loop_run f (evs ++ wake_ups es n) l0 = Ok (L n)) by (intros n; apply get_ok_eq, All).
    assert (Step : forall n, loop_step f (L n) (LTick (es n)) = Ok (L (S n))).
    { intros n. assert (X := EL (S n)). rewrite wake_ups_S, app_assoc, loop_run_app, (EL n) in X. cbn [bind] in X.
      unfold loop_run in X. cbn [foldM] in X. apply bind_ok in X. destruct X as (y & X & E). rewrite X. exact E. }
    assert (C0 : calm_zone z (l_zone (L 0%nat))).
    { assert (X := EL 0%nat). unfold wake_ups in X. cbn [seq map] in X. rewrite app_nil_r in X.
      exact (calm_run f z evs Tn Inc Se Mo l0 _ Ca X). }
    assert (G : exists N W, forall n evs', (N <= n)%nat -> new_events (l_zone (L n)) (l_zone (L (S n))) evs' ->
      Forall2 same_command (writes_in evs') W).
    { destruct (z_manualMode (l_zone (L 0%nat))) eqn:Ma; [|now apply (forever_rests f z es L)].
      exists 0%nat, []. intros n evs' _ Hev.
      assert (Mn : forall n, z_manualMode (l_zone (L n)) = true /\ z_trace (l_zone (L (S n))) = z_trace (l_zone (L n))).
      { assert (K : forall m, z_manualMode (l_zone (L m)) = true -> l_zone (L (S m)) = l_zone (L m)).
        { intros m Hm. assert (X := Step m). cbn [loop_step] in X. apply loop_tick_cases in X. destruct X as [(_ & E)|(u & v & A)].
          - rewrite E. reflexivity.
          - destruct A. congruence. }
        assert (A : forall m, z_manualMode (l_zone (L m)) = true).
        { induction m as [|m IH]; [exact Ma|]. rewrite (K m IH). exact IH. }
        intros m. rewrite (K m (A m)). auto. }
      unfold new_events in Hev. rewrite (proj2 (Mn n)) in Hev. destruct evs' as [|x r]; [constructor|].
      exfalso. apply (f_equal (@List.length event)) in Hev. cbn [app List.length] in Hev. rewrite app_length in Hev. lia. }
    destruct G as (N & W & G). exists N, W. intros n l l' new Hn E1 E2 Hev. rewrite EL in E1, E2. injection E1 as <-. injection E2 as <-.
    exact (G n new Hn Hev).
  - apply Classical_Pred_Type.not_all_ex_not in Some_. destruct Some_ as (N & HN). exists N, []. intros n l l' new Hn E1 _ _. exfalso. apply HN.
    assert (K : exists r, wake_ups es n = wake_ups es N ++ r).
    { clear - Hn. induction Hn as [|n Hn (r & IH)]; [exists []; now rewrite app_nil_r|]. exists (r ++ [LTick (es n)]).
      rewrite wake_ups_S, IH, app_assoc. reflexivity. }
    destruct K as (r & K). rewrite K, app_assoc, loop_run_app in E1. apply bind_ok in E1. destruct E1 as (y & E1 & _). rewrite E1. reflexivity.
Qed.
