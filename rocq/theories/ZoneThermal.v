(** * Thermal cycle of a zone (proofs only). *)
From Coq Require Import ZArith Bool List String Lia.
From Verif Require Import Base BaseFacts Dbl DblFacts PidModel ZoneModel LoopModel SpecZone ZoneFrame.
Import ListNotations.
Local Open Scope string_scope.
Local Open Scope list_scope.
Local Arguments pid_process : simpl never.
Local Arguments stepwise_process : simpl never.

(** What running thermal controllers leaves alone. *)
Record therm_frame (z z' : zone) : Prop := ThermFrame {
  tf_conf : conf z' = conf z;
  tf_mode : mode z' = mode z;
  tf_fs : z_failSafeSensors z' = z_failSafeSensors z;
  tf_cv : z_cachedValuesByName z' = z_cachedValuesByName z;
  tf_fo : z_cachedFanOutputs z' = z_cachedFanOutputs z;
  tf_tr : z_trace z' = z_trace z;
  tf_log : z_log z' = z_log z;
  tf_fans : z_fans z' = z_fans z;
  tf_therm : z_thermals z' = z_thermals z;
  tf_prev : z_maximumSetPointNamePrev z' = z_maximumSetPointNamePrev z;
  tf_en : forall n, option_map po_enabled (mget n (z_pidsControlProcess z'))
                  = option_map po_enabled (mget n (z_pidsControlProcess z))
}.
Lemma tf_refl z : therm_frame z z.
Proof. constructor; reflexivity. Qed.
Lemma tf_trans a b c : therm_frame a b -> therm_frame b c -> therm_frame a c.
Proof. intros [] []. constructor; congruence. Qed.

Definition sp3 (z : zone) := (z_setPoints z, z_maximumSetPoint z, z_maximumSetPointName z).

Definition add_req (acc : bool) (s : smap dbl * dbl * string) (r : string * dbl)
  : smap dbl * dbl * string :=
  let '(m, mx, nm) := s in
  let p := if acc then profile_of (fst r) else fst r in
  let old := match mget p m with Some v => v | None => d0 end in
  let new := if acc then dadd old (snd r) else if dltb old (snd r) then snd r else old in
  (mset p new m, if dltb mx new then new else mx, if dltb mx new then p else nm).

Lemma addSetPoint_spec v n z z' :
  addSetPoint v n z = Ok z' ->
  therm_frame z z' /\ z_rpmCeilings z' = z_rpmCeilings z /\
  (if enabled_in z n then sp3 z' = add_req (z_accumulateSetPoint z) (sp3 z) (n, v) else z' = z) /\
  exists p, mget n (z_pidsControlProcess z) = Some p.
Proof.
  unfold addSetPoint, isPidProcessEnabled, enabled_in.
  destruct (mget n (z_pidsControlProcess z)) as [p|] eqn:Ep; [|discriminate].
  cbn [bind]. destruct (po_enabled p) eqn:En; cbn [negb].
  - intros H. unfold sp3, add_req. cbn [fst snd].
    fold (setpoint_of z (if z_accumulateSetPoint z then profile_of n else n)).
    revert H. cbv zeta.
    generalize (setpoint_of z (if z_accumulateSetPoint z then profile_of n else n)). intros old.
    generalize (if z_accumulateSetPoint z then profile_of n else n). intros P.
    generalize (if z_accumulateSetPoint z then dadd old v else if dltb old v then v else old). intros N.
    change (z_maximumSetPoint (set_setPoints (mset P N (z_setPoints z)) z)) with (z_maximumSetPoint z).
    destruct (dltb (z_maximumSetPoint z) N); intros H; injection H as <-;
      (split; [constructor; try reflexivity|]; split; [reflexivity|]; split; [reflexivity|eauto]).
  - intros H. injection H as <-. split; [apply tf_refl|]. split; [reflexivity|]. split; [reflexivity|eauto].
Qed.

Lemma debug_spec n l i o z z' :
  updateThermalPowerDebugInterface n l i o z = Ok z' ->
  therm_frame z z' /\ z_rpmCeilings z' = z_rpmCeilings z /\ sp3 z' = sp3 z.
Proof.
  unfold updateThermalPowerDebugInterface.
  destruct (mget n (z_pidsControlProcess z)) as [p|] eqn:Ep; [|discriminate].
  intros H. injection H as <-. split; [|split; reflexivity].
  constructor; try reflexivity. intros m. simpl. rewrite mget_mset.
  destruct (String.eqb_spec m n) as [E|E]; [|reflexivity].
  subst m. rewrite Ep. destruct (l =? ""); reflexivity.
Qed.

(** ** Aggregation of a thermal controller's inputs *)

Definition agg (ty : ThermalType) : dbl -> dbl -> dbl :=
  match ty with margin => dmin | absolute => dmax | summation => dadd end.

Lemma getCachedValue_spec n z v : getCachedValue n z = Ok v -> cached z n = Some v.
Proof.
  unfold getCachedValue, getCachedValues, cached.
  destruct (mget n (z_cachedValuesByName z)); [|discriminate].
  intros H. injection H as <-. reflexivity.
Qed.

Lemma cached_frame z z' : z_cachedValuesByName z' = z_cachedValuesByName z -> cached z' = cached z.
Proof. unfold cached. intros ->. reflexivity. Qed.

Definition ok_conversion (rd : readings_map) (ty : ThermalType) (i : SensorInput) : Prop :=
  ty = margin -> si_convertTempToMargin i = true ->
  (exists v, rd (si_name i) = Some v /\ disfinite v = true) ->
  disfinite (si_convertMarginZero i) = true.

Lemma thermal_input1_spec id ty v a z i v' a' z' :
  thermal_input1 id ty (v, a, z) i = Ok (v', a', z') ->
  (match thermal_reading (cached z) ty i with
   | [] => v' = v /\ a' = a
   | r :: _ => thermal_reading (cached z) ty i = [r] /\ v' = agg ty v r /\ a' = true
   end) /\
  therm_frame z z' /\ z_rpmCeilings z' = z_rpmCeilings z /\ sp3 z' = sp3 z /\
  ok_conversion (cached z) ty i /\ exists x, cached z (si_name i) = Some x.
Proof.
  unfold thermal_input1. intros H.
  apply bind_ok in H. destruct H as (x & Hx & H).
  apply getCachedValue_spec in Hx. unfold thermal_reading, ok_conversion. rewrite Hx.
  destruct (disfinite x) eqn:Fx; cbn [negb] in H.
  2:{ injection H as <- <- <-.
      split; [auto|]. split; [apply tf_refl|]. split; [reflexivity|]. split; [reflexivity|].
      split; [|eauto]. intros _ _ (y & Ey & Fy). congruence. }
  apply bind_ok in H. destruct H as (y & Hy & H).
  apply bind_ok in H. destruct H as (z1 & Hz & H). injection H as <- <- <-.
  assert (Fr : therm_frame z z1 /\ z_rpmCeilings z1 = z_rpmCeilings z /\ sp3 z1 = sp3 z).
  { destruct (dneb v _).
    - eapply debug_spec. exact Hz.
    - injection Hz as <-. split; [apply tf_refl|split; reflexivity]. }
  destruct Fr as (F1 & F2 & F3).
  assert (E : (match ty with
               | margin => if si_convertTempToMargin i then [dsub (si_convertMarginZero i) x] else [x]
               | _ => [x] end = [y]) /\
              (ty = margin -> si_convertTempToMargin i = true -> disfinite (si_convertMarginZero i) = true)).
  { destruct ty; try (injection Hy as <-; split; [reflexivity|discriminate]).
    destruct (si_convertTempToMargin i).
    - destruct (disfinite (si_convertMarginZero i)); [|discriminate]. injection Hy as <-. auto.
    - injection Hy as <-. split; [reflexivity|discriminate]. }
  destruct E as [-> E2].
  split; [split; [reflexivity|split; [destruct ty; reflexivity|reflexivity]]|].
  split; [exact F1|]. split; [exact F2|]. split; [exact F3|]. split; [|eauto].
  intros A B _. auto.
Qed.

Lemma thermal_fold_spec id ty inputs : forall v a z v' a' z',
  foldM (thermal_input1 id ty) inputs (v, a, z) = Ok (v', a', z') ->
  v' = fold_left (agg ty) (thermal_readings (cached z) ty inputs) v /\
  a' = (a || negb (match thermal_readings (cached z) ty inputs with [] => true | _ => false end)) /\
  therm_frame z z' /\ z_rpmCeilings z' = z_rpmCeilings z /\ sp3 z' = sp3 z.
Proof.
  induction inputs as [|i r IH]; intros v a z v' a' z' H; simpl in H.
  - injection H as <- <- <-. simpl. rewrite orb_false_r. 
    split; [reflexivity|]. split; [reflexivity|]. split; [apply tf_refl|auto].
  - apply bind_ok in H. destruct H as ([[v1 a1] z1] & H1 & H2).
    apply thermal_input1_spec in H1. destruct H1 as (A & B & C & E & _).
    apply IH in H2. rewrite (cached_frame _ _ (tf_cv _ _ B)) in H2.
    destruct H2 as (A2 & A3 & B2 & C2 & E2).
    unfold thermal_readings in *. cbn [flat_map].
    assert (Fr : therm_frame z z') by (eapply tf_trans; eauto).
    destruct (thermal_reading (cached z) ty i) as [|x l].
    + destruct A as [-> ->]. simpl. repeat split; try congruence; apply Fr.
    + destruct A as (Ex & -> & ->). injection Ex as ->. simpl.
      rewrite orb_true_r. simpl in A3. repeat split; try congruence; apply Fr.
Qed.

Lemma thermal_inputProc_spec id inputs ty sp z v z' :
  thermal_inputProc id inputs ty sp z = Ok (v, z') ->
  v = thermal_input (cached z) ty inputs sp /\
  therm_frame z z' /\ z_rpmCeilings z' = z_rpmCeilings z /\ sp3 z' = sp3 z.
Proof.
  unfold thermal_inputProc. intros H. apply bind_ok in H.
  destruct H as ([[v1 a1] z1] & H1 & H2). injection H2 as <- <-.
  apply thermal_fold_spec in H1. destruct H1 as (-> & -> & F). split; [|exact F].
  unfold thermal_input. destruct (thermal_readings (cached z) ty inputs) as [|r l].
  - reflexivity.
  - destruct ty; reflexivity.
Qed.

Lemma stepwise_inputProc_spec inputs z v :
  stepwise_inputProc inputs z = Ok v -> v = stepwise_input (cached z) inputs.
Proof.
  unfold stepwise_inputProc, stepwise_input. generalize dlowest.
  induction inputs as [|n r IH]; intros d H; simpl in H.
  - injection H as <-. reflexivity.
  - apply bind_ok in H. destruct H as (d1 & H1 & H2).
    apply bind_ok in H1. destruct H1 as (c & Hc & H1). injection H1 as <-.
    apply getCachedValue_spec in Hc. simpl. rewrite Hc. apply IH. exact H2.
Qed.

(** ** One thermal controller *)

Definition ctl_next (rd : readings_map) (t : ThermalCtl) : ThermalCtl :=
  match t with
  | TPid id inputs ty sp p => TPid id inputs ty sp (fst (pid_process p sp (thermal_input rd ty inputs sp)))
  | TStep id inputs c => TStep id inputs (fst (stepwise_process c (stepwise_input rd inputs)))
  end.

Lemma stepwise_process_info c i : sc_info (fst (stepwise_process c i)) = sc_info c.
Proof.
  unfold stepwise_process. cbv zeta.
  repeat match goal with |- context [if ?b then _ else _] => destruct b end; reflexivity.
Qed.

Definition req_of (rd : readings_map) (en : string -> bool) (t : ThermalCtl) : list (string * dbl) :=
  if negb (is_ceiling t) && en (thermal_id t) then [(thermal_id t, ctl_output rd t)] else [].
Definition ceil_of (rd : readings_map) (t : ThermalCtl) : list dbl :=
  if is_ceiling t then [ctl_output rd t] else [].

Lemma thermal_process_spec t z t' z' :
  thermal_process t z = Ok (t', z') ->
  t' = ctl_next (cached z) t /\ therm_frame z z' /\
  sp3 z' = fold_left (add_req (z_accumulateSetPoint z)) (req_of (cached z) (enabled_in z) t) (sp3 z) /\
  z_rpmCeilings z' = z_rpmCeilings z ++ ceil_of (cached z) t.
Proof.
  destruct t as [id inputs ty sp p|id inputs c]; simpl; intros H.
  - apply bind_ok in H. destruct H as ([v z1] & H1 & H).
    apply thermal_inputProc_spec in H1. destruct H1 as (-> & F1 & C1 & S1).
    unfold req_of, ceil_of, ctl_output. simpl.
    destruct (pid_process p sp (thermal_input (cached z) ty inputs sp)) as [p' o] eqn:Ep.
    apply bind_ok in H. destruct H as (z2 & H2 & H). injection H as <- <-.
    unfold thermal_outputProc in H2. apply bind_ok in H2. destruct H2 as (z3 & H3 & H4).
    apply addSetPoint_spec in H3. destruct H3 as (F3 & C3 & S3 & _).
    apply debug_spec in H4. destruct H4 as (F4 & C4 & S4).
    split; [reflexivity|]. split; [eapply tf_trans; [exact F1|eapply tf_trans; eauto]|].
    assert (En : enabled_in z1 id = enabled_in z id).
    { assert (E := tf_en _ _ F1 id). unfold enabled_in.
      destruct (mget id (z_pidsControlProcess z1)), (mget id (z_pidsControlProcess z));
        simpl in E; congruence. }
    assert (Ac : z_accumulateSetPoint z1 = z_accumulateSetPoint z)
      by (use_conf (tf_conf _ _ F1); reflexivity).
    rewrite En, Ac in S3. split.
    + rewrite S4. destruct (enabled_in z id); simpl.
      * rewrite S3, S1. reflexivity.
      * rewrite S3. exact S1.
    + rewrite app_nil_r. congruence.
  - apply bind_ok in H. destruct H as (v & H1 & H).
    apply stepwise_inputProc_spec in H1. subst v.
    unfold req_of, ceil_of, ctl_output. simpl.
    destruct (stepwise_process c (stepwise_input (cached z) inputs)) as [c' o] eqn:Ec.
    assert (Ei : sc_info c' = sc_info c).
    { change c' with (fst (c', o)). rewrite <- Ec. apply stepwise_process_info. }
    apply bind_ok in H. destruct H as (z2 & H2 & H). injection H as <- <-.
    unfold stepwise_outputProc in H2. rewrite Ei in H2.
    destruct (sw_isCeiling (sc_info c)); simpl.
    + injection H2 as <-. split; [reflexivity|]. split; [constructor; reflexivity|]. split; reflexivity.
    + apply addSetPoint_spec in H2. destruct H2 as (F & C & S & _).
      split; [reflexivity|]. split; [exact F|]. split.
      * destruct (enabled_in z id); simpl; [exact S|]. rewrite S. reflexivity.
      * rewrite app_nil_r. exact C.
Qed.

Lemma enabled_frame z z' : therm_frame z z' -> forall n, enabled_in z' n = enabled_in z n.
Proof.
  intros F n. assert (E := tf_en _ _ F n). unfold enabled_in.
  destruct (mget n (z_pidsControlProcess z')), (mget n (z_pidsControlProcess z)); simpl in E; congruence.
Qed.

Lemma run_thermals_spec ts : forall z ts' z',
  run_all thermal_process ts z = Ok (ts', z') ->
  ts' = map (ctl_next (cached z)) ts /\ therm_frame z z' /\
  sp3 z' = fold_left (add_req (z_accumulateSetPoint z))
             (flat_map (req_of (cached z) (enabled_in z)) ts) (sp3 z) /\
  z_rpmCeilings z' = z_rpmCeilings z ++ flat_map (ceil_of (cached z)) ts.
Proof.
  induction ts as [|t r IH]; intros z ts' z' H; simpl in H.
  - injection H as <- <-. simpl. rewrite app_nil_r. split; [reflexivity|]. split; [apply tf_refl|auto].
  - apply bind_ok in H. destruct H as ([t1 z1] & H1 & H).
    apply bind_ok in H. destruct H as ([r1 z2] & H2 & H). injection H as <- <-.
    apply thermal_process_spec in H1. destruct H1 as (-> & F1 & S1 & C1).
    apply IH in H2. destruct H2 as (-> & F2 & S2 & C2).
    rewrite (cached_frame _ _ (tf_cv _ _ F1)) in *.
    assert (Ac : z_accumulateSetPoint z1 = z_accumulateSetPoint z)
      by (use_conf (tf_conf _ _ F1); reflexivity).
    rewrite Ac in S2.
    assert (Er : flat_map (req_of (cached z) (enabled_in z1)) r = flat_map (req_of (cached z) (enabled_in z)) r).
    { apply flat_map_ext. intros x. unfold req_of. rewrite (enabled_frame _ _ F1). reflexivity. }
    rewrite Er in S2. split; [reflexivity|]. split; [eapply tf_trans; eauto|]. split.
    + simpl. rewrite fold_left_app, <- S1. exact S2.
    + simpl. rewrite C2, C1. symmetry. apply app_assoc.
Qed.

(** ** The whole cycle *)

Lemma log_tokens_log f ts z : conf (log_tokens f ts z) = conf z.
Proof. apply (qs_conf _ _ _ (quiet_log f ts z)). Qed.

(** State after polling, clearing and running the controllers. *)
Lemma thermal_cycle_split f env te z z' :
  thermal_cycle f env te z = Ok z' ->
  exists z1 z2,
    updateSensors f env (emit EvThermalCycle z) = Ok z1 /\
    therm_frame z1 (set_thermals (z_thermals z1) z2) /\
    z_thermals z2 = map (ctl_next (cached z1)) (z_thermals z1) /\
    sp3 z2 = fold_left (add_req (z_accumulateSetPoint z)) (requests (cached z1) z1) ([], d0, "") /\
    z_rpmCeilings z2 = ceilings (cached z1) z1 /\
    determineMaxSetPointRequest f te z2 = Ok z'.
Proof.
  unfold thermal_cycle. intros H. apply bind_ok in H. destruct H as (z1 & H1 & H).
  apply bind_ok in H. destruct H as (z2 & H2 & H3).
  unfold processThermals in H2. apply bind_ok in H2. destruct H2 as ([ts z3] & H4 & H2).
  injection H2 as <-. apply run_thermals_spec in H4.
  destruct H4 as (Et & F & S & C).
  exists z1, (set_thermals ts z3). split; [exact H1|].
  assert (Cn : conf z1 = conf z).
  { unfold updateSensors in H1. apply polls_frame in H1. destruct H1 as (Hc & _). rewrite Hc. reflexivity. }
  destruct F as [Fc Fm Ff Fv Fo Ft Fl Ffan Fth Fp Fe].
  split; [constructor; auto|].
  split; [exact Et|]. split.
  - unfold requests. unfold sp3 in *. simpl in *. rewrite S.
    assert (Ac : z_accumulateSetPoint z1 = z_accumulateSetPoint z) by (use_conf Cn; reflexivity).
    rewrite Ac. reflexivity.
  - split; [|exact H3]. simpl in *. exact C.
Qed.

(** Readings used by the cycle. *)
Lemma updateSensors_cached f env z z1 :
  updateSensors f env z = Ok z1 -> forall n, cached z1 n = cycle_readings env z n.
Proof.
  unfold updateSensors, cycle_readings. intros H n.
  unfold cached. rewrite (polls_cache _ _ _ _ _ _ H n).
  destruct (smem n (z_thermalInputs z)); [|reflexivity].
  destruct (pe_sensor env n); reflexivity.
Qed.

Lemma thermal_input_ext rd rd' ty inputs sp : (forall n, rd n = rd' n) ->
  thermal_input rd ty inputs sp = thermal_input rd' ty inputs sp.
Proof.
  intros E. unfold thermal_input, thermal_readings.
  assert (flat_map (thermal_reading rd ty) inputs = flat_map (thermal_reading rd' ty) inputs) as ->; [|reflexivity].
  apply flat_map_ext. intros i. unfold thermal_reading. rewrite E. reflexivity.
Qed.
Lemma stepwise_input_ext rd rd' inputs : (forall n, rd n = rd' n) ->
  stepwise_input rd inputs = stepwise_input rd' inputs.
Proof.
  intros E. unfold stepwise_input. generalize dlowest.
  induction inputs as [|n r IH]; intros d; simpl; [reflexivity|]. rewrite E. apply IH.
Qed.
Lemma ctl_output_ext rd rd' t : (forall n, rd n = rd' n) -> ctl_output rd t = ctl_output rd' t.
Proof.
  intros E. destruct t; simpl.
  - rewrite (thermal_input_ext _ _ _ _ _ E). reflexivity.
  - rewrite (stepwise_input_ext _ _ _ E). reflexivity.
Qed.
Lemma requests_ext rd rd' z z' : (forall n, rd n = rd' n) -> z_thermals z = z_thermals z' ->
  (forall n, enabled_in z n = enabled_in z' n) -> requests rd z = requests rd' z'.
Proof.
  intros E T En. unfold requests. rewrite T. apply flat_map_ext. intros t.
  rewrite En, (ctl_output_ext _ _ _ E). reflexivity.
Qed.
Lemma ceilings_ext rd rd' z z' : (forall n, rd n = rd' n) -> z_thermals z = z_thermals z' ->
  ceilings rd z = ceilings rd' z'.
Proof.
  intros E T. unfold ceilings. rewrite T. apply flat_map_ext. intros t.
  rewrite (ctl_output_ext _ _ _ E). reflexivity.
Qed.

(** Effects of selecting the setpoint. *)
Lemma fileParse_quiet g c z z' : fileParseRpm g c z = Ok z' ->
  (exists evs, all_plain evs /\ z_trace z' = evs ++ z_trace z) /\ conf z' = conf z /\ mode z' = mode z /\
  ctls z' = ctls z /\ z_failSafeSensors z' = z_failSafeSensors z /\
  z_cachedValuesByName z' = z_cachedValuesByName z /\ z_cachedFanOutputs z' = z_cachedFanOutputs z /\
  z_log z' = z_log z /\ z_maximumSetPointName z' = z_maximumSetPointName z.
Proof.
  unfold fileParseRpm. destruct c as [|v|].
  - intros H; injection H as <-. split; [exists []; split; [apply plain_nil|reflexivity]|]. repeat split.
  - destruct (v <=? 0)%Z; [|destruct (v <=? 100)%Z]; intros H; injection H as <-.
    + split; [eexists [_]; split; [|reflexivity]; apply plain_one; reflexivity|]. repeat split.
    + split; [eexists [_]; split; [|reflexivity]; apply plain_one; reflexivity|]. repeat split.
    + split; [exists []; split; [apply plain_nil|reflexivity]|]. repeat split.
  - discriminate.
Qed.

Definition det_core (z : zone) : zone :=
  let z := apply_ceilings z in
  let z :=
    if z_accumulateSetPoint z
    then set_maximumSetPointName (join_leaders (z_maximumSetPointName z) (z_thermals z)) z
    else z in
  if dgeb (z_minThermalOutputSetPt z) (z_maximumSetPoint z)
    then set_maximumSetPointName "Minimum" (set_maximumSetPoint (z_minThermalOutputSetPt z) z)
    else if negb (String.eqb (z_maximumSetPointName z) (z_maximumSetPointNamePrev z))
    then set_maximumSetPointNamePrev (z_maximumSetPointName z)
           (emit (EvRequester (z_zoneId z) (z_maximumSetPoint z) (z_maximumSetPointName z)
                    (not_fan_sensors z)) z)
    else z.

Lemma determine_split f te z :
  determineMaxSetPointRequest f te z =
  if tuningEnabled f
  then bind (fileParseRpm true (te_global te) (det_core z)) (fileParseRpm false (te_zone te))
  else Ok (det_core z).
Proof.
  unfold determineMaxSetPointRequest, det_core.
  assert (E : z_minThermalOutputSetPt z = z_minThermalOutputSetPt
     (if z_accumulateSetPoint (apply_ceilings z)
      then set_maximumSetPointName (join_leaders (z_maximumSetPointName (apply_ceilings z))
              (z_thermals (apply_ceilings z))) (apply_ceilings z)
      else apply_ceilings z)).
  { unfold apply_ceilings. destruct (z_rpmCeilings z); [|destruct (dltb _ _)];
      destruct (z_accumulateSetPoint _); reflexivity. }
  rewrite <- E. reflexivity.
Qed.

Lemma det_core_frame z :
  (exists evs, all_plain evs /\ z_trace (det_core z) = evs ++ z_trace z) /\
  conf (det_core z) = conf z /\ mode (det_core z) = mode z /\
  ctls (det_core z) = ctls z /\ z_failSafeSensors (det_core z) = z_failSafeSensors z /\
  z_cachedValuesByName (det_core z) = z_cachedValuesByName z /\
  z_cachedFanOutputs (det_core z) = z_cachedFanOutputs z /\
  z_log (det_core z) = z_log z.
Proof.
  unfold det_core, apply_ceilings.
  destruct (z_rpmCeilings z) as [|c r]; [|destruct (dltb _ _)]; cbv zeta;
    destruct (z_accumulateSetPoint _);
    (destruct (dgeb _ _); [|destruct (String.eqb _ _)]);
    (split; [|repeat split]); cbn [negb z_trace set_maximumSetPointName set_maximumSetPoint set_maximumSetPointNamePrev emit set_trace];
    first [ exists []; split; [apply plain_nil|reflexivity]
          | eexists [_]; split; [|reflexivity]; apply plain_one; reflexivity ].
Qed.

Lemma determine_frame f te z z' :
  determineMaxSetPointRequest f te z = Ok z' ->
  (exists evs, all_plain evs /\ z_trace z' = evs ++ z_trace z) /\
  conf z' = conf z /\ mode z' = mode z /\
  ctls z' = ctls z /\ z_failSafeSensors z' = z_failSafeSensors z /\
  z_cachedValuesByName z' = z_cachedValuesByName z /\
  z_cachedFanOutputs z' = z_cachedFanOutputs z /\ z_log z' = z_log z.
Proof.
  rewrite determine_split. destruct (det_core_frame z) as ((e0 & P0 & T0) & A1 & A2 & A3 & A4 & A5 & A6 & A7).
  destruct (tuningEnabled f).
  - intros H. apply bind_ok in H. destruct H as (z1 & H1 & H2).
    apply fileParse_quiet in H1. apply fileParse_quiet in H2.
    destruct H1 as ((e1 & P1 & T1) & B1 & B2 & B3 & B4 & B5 & B6 & B7 & _).
    destruct H2 as ((e2 & P2 & T2) & C1 & C2 & C3 & C4 & C5 & C6 & C7 & _).
    split; [|repeat split; congruence].
    exists (e2 ++ e1 ++ e0). split; [auto using plain_app|].
    rewrite T2, T1, T0, <- !app_assoc. reflexivity.
  - intros H. injection H as <-. split; [eauto|]. repeat split; assumption.
Qed.

(** Frame of a whole thermal cycle. *)
Lemma thermal_cycle_frame f env te z z' :
  thermal_cycle f env te z = Ok z' ->
  conf z' = conf z /\ mode z' = mode z /\ z_fans z' = z_fans z /\
  z_cachedFanOutputs z' = z_cachedFanOutputs z /\
  (forall n, option_map po_enabled (mget n (z_pidsControlProcess z')) =
             option_map po_enabled (mget n (z_pidsControlProcess z))) /\
  (fs_inv z -> fs_inv z') /\
  (exists evs, z_trace z' = evs ++ z_trace z /\ reads_in evs = z_thermalInputs z /\
     writes_in evs = [] /\ thermal_cycles_in evs = 1%nat).
Proof.
  intros H. apply thermal_cycle_split in H.
  destruct H as (z1 & z2 & H1 & F & _ & _ & _ & H4).
  assert (H1' := H1). unfold updateSensors in H1.
  assert (Hf := polls_frame _ _ _ _ _ _ H1). destruct Hf as (C1 & M1 & S1 & K1 & O1).
  destruct (polls_trace _ _ _ _ _ _ H1) as (e1 & T1 & R1 & W1 & N1).
  apply determine_frame in H4. destruct H4 as ((e2 & P2 & T2) & C2 & M2 & K2 & F2 & V2 & O2 & L2).
  destruct F as [Fc Fm Ff Fv Fo Ft Fl Ffan Fth Fp Fe]. simpl in *.
  assert (Cz2 : conf z2 = conf z1) by (rewrite <- Fc; reflexivity).
  assert (Mz2 : mode z2 = mode z1) by (rewrite <- Fm; reflexivity).
  change (conf (emit EvThermalCycle z)) with (conf z) in C1.
  change (mode (emit EvThermalCycle z)) with (mode z) in M1.
  assert (Tr : z_trace z' = (e2 ++ e1 ++ [EvThermalCycle]) ++ z_trace z).
  { rewrite T2, Ft, T1. simpl. rewrite <- !app_assoc. reflexivity. }
  split; [congruence|]. split; [congruence|]. split.
  { unfold ctls in K2, K1. simpl in K1. congruence. }
  split; [congruence|]. split.
  { intros n. unfold ctls in K2, K1. simpl in K1.
    assert (Ep : z_pidsControlProcess z' = z_pidsControlProcess z2) by congruence.
    assert (Ep1 : z_pidsControlProcess z1 = z_pidsControlProcess z) by congruence.
    rewrite Ep, Fe, Ep1. reflexivity. }
  split.
  { intros I.
    assert (I1 : fs_inv z1).
    { eapply fs_inv_polls; [| |exact H1].
      - intros n Hn. unfold is_inputb. apply smem_In in Hn. simpl in *. rewrite Hn, orb_true_r. reflexivity.
      - eapply fs_inv_frame with (evs := [EvThermalCycle]); [exact I|reflexivity..]. }
    eapply fs_inv_frame with (evs := e2); [exact I1|congruence|congruence| |apply plain_reads; exact P2].
    rewrite T2, Ft. reflexivity. }
  exists (e2 ++ e1 ++ [EvThermalCycle]). split; [exact Tr|].
  rewrite !reads_app, !writes_app, !cycles_app, (plain_reads e2 P2), (plain_writes e2 P2), (plain_cycles e2 P2).
  rewrite R1, W1, N1. simpl. rewrite app_nil_r. auto.
Qed.
