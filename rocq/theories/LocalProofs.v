(** * Proofs for C108: what the commands of a fan depend on. *)
From Coq Require Import ZArith Bool List String Lia.
From Verif Require Import Base BaseFacts Dbl DblFacts PidModel ZoneModel LoopModel SpecPid SpecZone
  ZoneFrame ZoneThermal ZoneFan ZoneProofs LoopProofs SpecHeat HeatZone BuilderModel SpecBuilder BuilderProofs BuilderRun
  SpecCool CoolProofs SettleProofs SettleZone SpecLocal.
Import ListNotations.
Local Arguments pid : simpl never.
Local Arguments pid_process : simpl never.

(** ** Failing sensors and their percentages *)
Definition fsp (m : smap (string * dbl)) : smap dbl := map (fun s => (fst s, snd (snd s))) m.

Lemma fsp_mset n r p m : fsp (mset n (r, p) m) = mset n p (fsp m).
Proof.
  induction m as [|[k [r' p']] m IH]; [reflexivity|]. cbn [mset fsp map fst snd].
  destruct (String.eqb n k); [reflexivity|]. destruct (String.ltb n k); [reflexivity|].
  cbn [map fst snd]. f_equal. exact IH.
Qed.
Lemma fsp_mdel n m : fsp (mdel n m) = mdel n (fsp m).
Proof.
  induction m as [|[k [r' p']] m IH]; [reflexivity|]. cbn [mdel fsp map fst snd].
  destruct (String.eqb n k); [exact IH|]. cbn [map fst snd]. f_equal. exact IH.
Qed.
Lemma fsp_mget n m : mget n m = None <-> mget n (fsp m) = None.
Proof.
  induction m as [|[k [r' p']] m IH]; [tauto|]. cbn [mget fsp map fst snd].
  destruct (String.eqb n k); [split; discriminate|exact IH].
Qed.
Lemma mdel_absent {V : Type} n (m : smap V) : mget n m = None -> mdel n m = m.
Proof.
  induction m as [|[k v] m IH]; [reflexivity|]. cbn [mget mdel].
  destruct (String.eqb n k); [discriminate|]. intros H. f_equal. apply IH, H.
Qed.
Lemma fsp_max m1 : forall m2 b, fsp m1 = fsp m2 -> max_percent b m1 = max_percent b m2.
Proof.
  induction m1 as [|[k [r p]] m1 IH]; intros [|[k' [r' p']] m2] b E; try discriminate; [reflexivity|].
  cbn [fsp map fst snd] in E. injection E as _ -> E. cbn [max_percent]. apply IH, E.
Qed.
Lemma fsp_percent f z1 z2 v : conf z1 = conf z2 -> fsp (z_failSafeSensors z1) = fsp (z_failSafeSensors z2) ->
  fan_percent f z1 v = fan_percent f z2 v.
Proof.
  intros C E.
  assert (M : getFailSafeMode z1 = getFailSafeMode z2).
  { unfold getFailSafeMode. destruct (z_failSafeSensors z1), (z_failSafeSensors z2); try discriminate; reflexivity. }
  assert (P : getFailSafePercent z1 = getFailSafePercent z2).
  { assert (Z : z_zoneFailSafePercent z1 = z_zoneFailSafePercent z2) by (use_conf C; reflexivity).
    unfold getFailSafePercent. rewrite Z.
    destruct (z_failSafeSensors z1) as [|[k [r p]] m1], (z_failSafeSensors z2) as [|[k' [r' p']] m2]; try discriminate; [reflexivity|].
    cbn [fsp map fst snd] in E. injection E as _ -> E. rewrite (fsp_max m1 m2 p' E). reflexivity. }
  unfold fan_percent. rewrite M, P. reflexivity.
Qed.

(** ** Two states that agree on what the group depends on *)
Definition fan_like (group : list string) (a b : option FanController) : Prop :=
  match a, b with
  | Some j, Some k => fan_inputs j = fan_inputs k /\
      (((forall n, In n (fan_inputs j) -> In n group) /\ fan_pid j = fan_pid k) \/
       (forall n, In n (fan_inputs j) -> ~ In n group))
  | None, None => True
  | _, _ => False
  end.
Definition tolerant (z : zone) : Prop := forall n, acceptable z n -> mget n (z_failSafeSensors z) = None.
Record alike (group : list string) (z0 z1 z2 : zone) : Prop := Alike {
  al_conf1 : conf z1 = conf z0;
  al_conf2 : conf z2 = conf z0;
  al_mode : mode z1 = mode z2;
  al_fs : fsp (z_failSafeSensors z1) = fsp (z_failSafeSensors z2);
  al_tol : tolerant z1;
  al_therm : z_thermals z1 = z_thermals z2;
  al_inputs : forall t n, In t (z_thermals z1) -> In n (controller_inputs t) -> In n (z_thermalInputs z0);
  al_en : forall n, option_map po_enabled (mget n (z_pidsControlProcess z1)) =
                    option_map po_enabled (mget n (z_pidsControlProcess z2));
  al_max : z_maximumSetPoint z1 = z_maximumSetPoint z2;
  al_cache : forall n, In n (group ++ z_thermalInputs z0) -> mget n (z_cachedValuesByName z1) = mget n (z_cachedValuesByName z2);
  al_fans : Forall2 (fan_like group) (z_fans z1) (z_fans z2)
}.

Lemma alike_poll group z0 f b e1 e2 n z1 z2 y1 y2 : alike group z0 z1 z2 ->
  processSensorInput f b e1 z1 n = Ok y1 -> processSensorInput f b e2 z2 n = Ok y2 ->
  (In n (group ++ z_thermalInputs z0) ->
    option_map sv_value (pe_sensor e1 n) = option_map sv_value (pe_sensor e2 n) /\
    option_map sv_unscaled (pe_sensor e1 n) = option_map sv_unscaled (pe_sensor e2 n)) ->
  (~ acceptable z0 n -> (found_bad e1 n <-> found_bad e2 n)) ->
  alike group z0 y1 y2.
Proof.
  intros [C1 C2 Mo Fs To Th In_ En Mx Ca Fa] H1 H2 V NH. apply poll_one in H1, H2.
  destruct H1 as (v1 & E1 & [D1 D2 D3 D4 _ D6 D7 _]), H2 as (v2 & E2 & [G1 G2 G3 G4 _ G6 G7 _]).
  rewrite (bad_iff _ _ _ E1), (bad_iff _ _ _ E2) in NH. rewrite E1, E2 in V. cbn [option_map] in V.
  assert (A1 : z_missingAcceptable z1 = z_missingAcceptable z0) by (use_conf C1; reflexivity).
  assert (A2 : z_missingAcceptable z2 = z_missingAcceptable z0) by (use_conf C2; reflexivity).
  assert (A3 : z_missingAcceptable y1 = z_missingAcceptable z1) by (use_conf D1; reflexivity).
  assert (O1 : own_percent z1 n = own_percent z2 n) by (apply own_percent_conf; congruence).
  unfold ctls in D4, G4. injection D4 as K1 K2 K3. injection G4 as K4 K5 K6.
  constructor.
  - congruence.
  - congruence.
  - congruence.
  - rewrite D7, G7. unfold fs_after_poll. rewrite A1, A2.
    destruct (smem n (z_missingAcceptable z0)) eqn:Em.
    + assert (Ab : mget n (z_failSafeSensors z1) = None).
      { apply To. unfold acceptable. rewrite A1. apply smem_In. exact Em. }
      assert (Ab2 : mget n (z_failSafeSensors z2) = None) by (apply fsp_mget; rewrite <- Fs; apply fsp_mget; exact Ab).
      rewrite (mdel_absent n _ Ab), (mdel_absent n _ Ab2).
      destruct (bad_reason (Some (pe_now e1, v1))), (bad_reason (Some (pe_now e2, v2))); exact Fs.
    + assert (Na : ~ acceptable z0 n).
      { unfold acceptable. intros X. apply smem_In in X. congruence. }
      destruct (NH Na) as (N1 & N2).
      destruct (bad_reason (Some (pe_now e1, v1))) as [r1|], (bad_reason (Some (pe_now e2, v2))) as [r2|].
      * rewrite !fsp_mset, O1, Fs. reflexivity.
      * exfalso. apply N1; [discriminate|reflexivity].
      * exfalso. apply N2; [discriminate|reflexivity].
      * rewrite !fsp_mdel, Fs. reflexivity.
  - intros m. unfold acceptable. rewrite A3. intros Ac. rewrite D7. unfold fs_after_poll.
    destruct (bad_reason (Some (pe_now e1, v1))).
    + destruct (smem n (z_missingAcceptable z1)) eqn:Em; [apply To; exact Ac|].
      rewrite mget_mset. destruct (String.eqb m n) eqn:Emn; [|apply To; exact Ac].
      apply String.eqb_eq in Emn. subst m. apply smem_In in Ac. congruence.
    + rewrite mget_mdel. destruct (String.eqb m n); [reflexivity|apply To; exact Ac].
  - congruence.
  - intros t m It Im. rewrite K2 in It. apply (In_ t m It Im).
  - intros m. rewrite K3, K6. apply En.
  - unfold sps in D3, G3. congruence.
  - intros m I. rewrite D6, G6, !mget_mset. destruct (String.eqb m n) eqn:Emn; [|apply Ca, I].
    apply String.eqb_eq in Emn. subst m. destruct (V I) as (V1 & V2). congruence.
  - rewrite K1, K4. exact Fa.
Qed.

Lemma alike_polls group z0 f b e1 e2 names : forall z1 z2 y1 y2, alike group z0 z1 z2 ->
  processSensorInputs f b e1 names z1 = Ok y1 -> processSensorInputs f b e2 names z2 = Ok y2 ->
  (forall n, In n names -> In n (group ++ z_thermalInputs z0) ->
    option_map sv_value (pe_sensor e1 n) = option_map sv_value (pe_sensor e2 n) /\
    option_map sv_unscaled (pe_sensor e1 n) = option_map sv_unscaled (pe_sensor e2 n)) ->
  same_health z0 names e1 e2 -> alike group z0 y1 y2.
Proof.
  unfold processSensorInputs. induction names as [|n r IH]; intros z1 z2 y1 y2 A H1 H2 V NH; cbn [foldM] in H1, H2.
  - injection H1 as <-. injection H2 as <-. exact A.
  - apply bind_ok in H1, H2. destruct H1 as (x1 & H1 & H1'), H2 as (x2 & H2 & H2').
    apply (IH x1 x2 y1 y2); auto.
    + eapply alike_poll; eauto.
      * apply V. left. reflexivity.
      * apply NH. left. reflexivity.
    + intros m I. apply V. right. exact I.
    + intros m I. apply NH. right. exact I.
Qed.

Lemma alike_quiet group z0 z1 z2 y1 y2 a b : alike group z0 z1 z2 -> quiet_step z1 y1 a -> quiet_step z2 y2 b ->
  alike group z0 y1 y2.
Proof.
  intros [C1 C2 Mo Fs To Th In_ En Mx Ca Fa] [D1 D2 D3 D4 D5 D6 _ _] [G1 G2 G3 G4 G5 G6 _ _].
  unfold ctls in D4, G4. injection D4 as K1 K2 K3. injection G4 as K4 K5 K6.
  constructor.
  - congruence.
  - congruence.
  - congruence.
  - congruence.
  - intros n. unfold acceptable. assert (A : z_missingAcceptable y1 = z_missingAcceptable z1) by (use_conf D1; reflexivity).
    rewrite A, D5. apply To.
  - congruence.
  - intros t m It Im. rewrite K2 in It. apply (In_ t m It Im).
  - intros m. rewrite K3, K6. apply En.
  - unfold sps in D3, G3. congruence.
  - intros m I. rewrite D6, G6. apply Ca, I.
  - rewrite K1, K4. exact Fa.
Qed.

Lemma alike_fan_polls group z0 f e1 e2 z1 z2 y1 y2 : alike group z0 z1 z2 ->
  updateFanTelemetry f e1 z1 = Ok y1 -> updateFanTelemetry f e2 z2 = Ok y2 ->
  same_values (group ++ z_thermalInputs z0) e1 e2 -> same_health z0 (z_fanInputs z0) e1 e2 -> alike group z0 y1 y2.
Proof.
  unfold updateFanTelemetry. intros A H1 H2 V NH. apply bind_ok in H1, H2.
  destruct H1 as (x1 & H1 & H1'), H2 as (x2 & H2 & H2'). injection H1' as <-. injection H2' as <-.
  eapply alike_quiet; [|apply quiet_log|apply quiet_log].
  assert (A' := fun f1 t1 f2 t2 => alike_quiet _ _ _ _ _ _ _ _ A (quiet_log f1 t1 z1) (quiet_log f2 t2 z2)).
  match type of H1 with processSensorInputs _ _ _ ?n1 (log_tokens ?f1 ?t1 _) = _ =>
    match type of H2 with processSensorInputs _ _ _ ?n2 (log_tokens ?f2 ?t2 _) = _ =>
      specialize (A' f1 t1 f2 t2); set (w1 := log_tokens f1 t1 z1) in *; set (w2 := log_tokens f2 t2 z2) in * end end.
  assert (E1 : z_fanInputs w1 = z_fanInputs z0) by (assert (X := al_conf1 _ _ _ _ A'); use_conf X; reflexivity).
  assert (E2 : z_fanInputs w2 = z_fanInputs z0) by (assert (X := al_conf2 _ _ _ _ A'); use_conf X; reflexivity).
  rewrite E1 in H1. rewrite E2 in H2. eapply alike_polls; eauto.
Qed.

(** ** The thermal controllers *)
Lemma det_max_same f te z1 z2 y1 y2 : conf z1 = conf z2 -> z_maximumSetPoint z1 = z_maximumSetPoint z2 ->
  z_rpmCeilings z1 = z_rpmCeilings z2 ->
  determineMaxSetPointRequest f te z1 = Ok y1 -> determineMaxSetPointRequest f te z2 = Ok y2 ->
  z_maximumSetPoint y1 = z_maximumSetPoint y2.
Proof.
  intros C M Ce H1 H2. rewrite determine_split in H1, H2.
  assert (Core : z_maximumSetPoint (det_core z1) = z_maximumSetPoint (det_core z2)).
  { assert (Mn : z_minThermalOutputSetPt z1 = z_minThermalOutputSetPt z2) by (use_conf C; reflexivity).
    assert (X : forall z, z_maximumSetPoint (det_core z) =
      let t := z_maximumSetPoint (apply_ceilings z) in if dgeb (z_minThermalOutputSetPt z) t then z_minThermalOutputSetPt z else t).
    { intros z. unfold det_core, apply_ceilings. cbv zeta.
      destruct (z_rpmCeilings z) as [|c r]; [|destruct (dltb _ _)];
        destruct (z_accumulateSetPoint _);
        cbn [z_minThermalOutputSetPt z_maximumSetPoint set_maximumSetPointName set_maximumSetPoint];
        (match goal with |- context [dgeb ?a ?b] => destruct (dgeb a b) end; [reflexivity|]);
        (match goal with |- context [negb ?b] => destruct b end); reflexivity. }
    assert (Y : z_maximumSetPoint (apply_ceilings z1) = z_maximumSetPoint (apply_ceilings z2)).
    { unfold apply_ceilings. rewrite Ce, M. destruct (z_rpmCeilings z2); [exact M|].
      destruct (dltb _ _); [reflexivity|exact M]. }
    rewrite !X, Y, Mn. reflexivity. }
  destruct (tuningEnabled f); [|congruence].
  assert (P : forall g c u1 u2 v1 v2, z_maximumSetPoint u1 = z_maximumSetPoint u2 ->
    fileParseRpm g c u1 = Ok v1 -> fileParseRpm g c u2 = Ok v2 -> z_maximumSetPoint v1 = z_maximumSetPoint v2).
  { intros g c u1 u2 v1 v2 E. unfold fileParseRpm. destruct c as [|v|]; [congruence| |discriminate].
    destruct (v <=? 0)%Z; [|destruct (v <=? 100)%Z]; intros A B; injection A as <-; injection B as <-; try exact E; reflexivity. }
  apply bind_ok in H1, H2. destruct H1 as (a1 & A1 & B1), H2 as (a2 & A2 & B2).
  eapply P; [|exact B1|exact B2]. eapply P; [|exact A1|exact A2]. exact Core.
Qed.

Lemma alike_cycle group z0 f e1 e2 te z1 z2 y1 y2 : alike group z0 z1 z2 ->
  thermal_cycle f e1 te z1 = Ok y1 -> thermal_cycle f e2 te z2 = Ok y2 ->
  same_values (z_thermalInputs z0) e1 e2 -> same_health z0 (z_thermalInputs z0) e1 e2 ->
  alike group z0 y1 y2.
Proof.
  intros A H1 H2 V NH. apply thermal_cycle_split in H1, H2.
  destruct H1 as (u1 & w1 & U1 & F1 & T1 & S1 & L1 & D1), H2 as (u2 & w2 & U2 & F2 & T2 & S2 & L2 & D2).
  assert (Au : alike group z0 u1 u2).
  { unfold updateSensors in U1, U2.
    assert (A' : alike group z0 (emit EvThermalCycle z1) (emit EvThermalCycle z2))
      by (eapply alike_quiet; [exact A|apply quiet_emit|apply quiet_emit]).
    change (z_thermalInputs (emit EvThermalCycle z1)) with (z_thermalInputs z1) in U1.
    change (z_thermalInputs (emit EvThermalCycle z2)) with (z_thermalInputs z2) in U2.
    assert (E1 : z_thermalInputs z1 = z_thermalInputs z0) by (assert (X := al_conf1 _ _ _ _ A); use_conf X; reflexivity).
    assert (E2 : z_thermalInputs z2 = z_thermalInputs z0) by (assert (X := al_conf2 _ _ _ _ A); use_conf X; reflexivity).
    rewrite E1 in U1. rewrite E2 in U2. eapply alike_polls; eauto. }
  assert (Z1 : z_accumulateSetPoint z1 = z_accumulateSetPoint z2).
  { assert (X : conf z1 = conf z2) by (destruct A; congruence). use_conf X. reflexivity. }
  destruct Au as [C1 C2 Mo Fs To Th In_ En Mx Ca Fa].
  destruct F1 as [P1 P2 P3 P4 _ _ _ P8 _ _ P11]. destruct F2 as [Q1 Q2 Q3 Q4 _ _ _ Q8 _ _ Q11].
  change (conf w1 = conf u1) in P1. change (conf w2 = conf u2) in Q1.
  change (mode w1 = mode u1) in P2. change (mode w2 = mode u2) in Q2.
  cbn [z_failSafeSensors set_thermals z_cachedValuesByName z_fans z_pidsControlProcess] in P3, P4, P8, P11, Q3, Q4, Q8, Q11.
  assert (Rd : forall t n, In t (z_thermals u1) -> In n (controller_inputs t) -> cached u1 n = cached u2 n).
  { intros t n It I. unfold cached. rewrite (Ca n); [reflexivity|]. apply in_or_app. right. apply (In_ t n It I). }
  destruct (map_readings (cached u1) (cached u2) (z_thermals u1) Rd) as (M1 & M2 & M3).
  assert (Rq : requests (cached u1) u1 = requests (cached u2) u2).
  { change (reqs (cached u1) (enabled_in u1) (z_thermals u1) = reqs (cached u2) (enabled_in u2) (z_thermals u2)).
    rewrite M2, Th. unfold reqs. apply flat_map_ext. intros t.
    assert (Ee : enabled_in u1 (thermal_id t) = enabled_in u2 (thermal_id t)).
    { unfold enabled_in. specialize (En (thermal_id t)).
      destruct (mget (thermal_id t) (z_pidsControlProcess u1)), (mget (thermal_id t) (z_pidsControlProcess u2));
        cbn [option_map] in En; congruence. }
    rewrite Ee. reflexivity. }
  assert (Cl : ceilings (cached u1) u1 = ceilings (cached u2) u2).
  { change (ceils (cached u1) (z_thermals u1) = ceils (cached u2) (z_thermals u2)). rewrite M3, Th. reflexivity. }
  assert (Mw : z_maximumSetPoint w1 = z_maximumSetPoint w2).
  { assert (X : sp3 w1 = sp3 w2) by (rewrite S1, S2, Rq, Z1; reflexivity). unfold sp3 in X. congruence. }
  assert (My : z_maximumSetPoint y1 = z_maximumSetPoint y2)
    by (eapply det_max_same; [| |  |exact D1|exact D2]; congruence).
  apply determine_frame in D1, D2.
  destruct D1 as (_ & R1 & R2 & R3 & R4 & R5 & _). destruct D2 as (_ & X1 & X2 & X3 & X4 & X5 & _).
  unfold ctls in R3, X3. injection R3 as R31 R32 R33. injection X3 as X31 X32 X33.
  constructor.
  - congruence.
  - congruence.
  - congruence.
  - rewrite R4, X4, P3, Q3. exact Fs.
  - intros n. unfold acceptable. assert (Am : z_missingAcceptable y1 = z_missingAcceptable u1).
    { assert (X : conf y1 = conf u1) by congruence. use_conf X. reflexivity. }
    rewrite Am, R4, P3. apply To.
  - rewrite R32, X32, T1, T2, M1, Th. reflexivity.
  - intros t n It I. rewrite R32, T1 in It. apply in_map_iff in It. destruct It as (t' & <- & It).
    apply (In_ t' n It). destruct t'; exact I.
  - intros n. rewrite R33, X33, P11, Q11. apply En.
  - exact My.
  - intros n I. rewrite R5, X5, P4, Q4. apply Ca, I.
  - rewrite R31, X31, P8, Q8. exact Fa.
Qed.

(** ** The fan controllers *)
Lemma raw_in rd rd' (l : list string) : (forall n, In n l -> rd n = rd' n) -> fan_readings rd l = fan_readings rd' l.
Proof. intros H. apply (readings_in rd rd' l l H). apply incl_refl. Qed.

Lemma alike_input group z0 z1 z2 j k : alike group z0 z1 z2 -> fan_inputs j = fan_inputs k ->
  (forall n, In n (fan_inputs j) -> In n group) ->
  fan_readings (cached_raw z1) (fan_inputs j) = fan_readings (cached_raw z2) (fan_inputs k).
Proof.
  intros A E I. rewrite <- E. apply raw_in. intros n Jn. unfold cached_raw. rewrite (al_cache _ _ _ _ A n); [reflexivity|].
  apply in_or_app. left. apply I, Jn.
Qed.

Lemma commands_app group l m : filter (fun c : string * dbl * bool => smem (fst (fst c)) group) (l ++ m) =
  filter (fun c => smem (fst (fst c)) group) l ++ filter (fun c => smem (fst (fst c)) group) m.
Proof. apply filter_app. Qed.

Lemma alike_writes group z0 f z1 z2 : alike group z0 z1 z2 ->
  filter (fun c => smem (fst (fst c)) group) (all_fan_writes f z1) =
  filter (fun c => smem (fst (fst c)) group) (all_fan_writes f z2).
Proof.
  intros A. rewrite <- !all_fan_writes_eq. assert (H := al_fans _ _ _ _ A).
  induction H as [|a b l1 l2 Hab H IH]; cbn [flat_map]; [reflexivity|].
  rewrite !commands_app, IH. f_equal. clear IH H.
  destruct a as [j|], b as [k|]; try contradiction; [|reflexivity].
  destruct Hab as (Ei & [(Ig & Ep)|No]).
  - assert (Eo : fan_output z1 j = fan_output z2 k).
    { unfold fan_output. rewrite (alike_input group z0 z1 z2 j k A Ei Ig), Ep, (al_max _ _ _ _ A). reflexivity. }
    unfold fan_writes. rewrite Eo, Ei.
    rewrite (fsp_percent f z1 z2) by (destruct A; congruence).
    assert (W : z_redundantWrite z1 = z_redundantWrite z2) by (assert (X := al_mode _ _ _ _ A); unfold mode in X; congruence).
    rewrite W. reflexivity.
  - assert (N : forall z c, fan_inputs c = fan_inputs j -> filter (fun c => smem (fst (fst c)) group) (fan_writes f z c) = []).
    { intros z c Ec. unfold fan_writes. rewrite Ec. generalize (ddiv (fan_percent f z (fan_output z c)) (D 100)) as v. intros v.
      clear - No. induction (fan_inputs j) as [|n r IH]; [reflexivity|]. cbn [map filter fst].
      destruct (smem n group) eqn:En; [apply smem_In in En; exfalso; apply (No n); [now left|exact En]|].
      apply IH. intros m Im. apply No. now right. }
    rewrite (N z1 j eq_refl), (N z2 k (eq_sym Ei)). reflexivity.
Qed.

Lemma alike_next group z0 z1 z2 : alike group z0 z1 z2 -> forall l1 l2 m1 m2, Forall2 (fan_like group) l1 l2 ->
  Forall2 (fun o o' => match o, o' with Some c, Some c' => fan_next z1 c c' | _, _ => False end) l1 m1 ->
  Forall2 (fun o o' => match o, o' with Some c, Some c' => fan_next z2 c c' | _, _ => False end) l2 m2 ->
  Forall2 (fan_like group) m1 m2.
Proof.
  intros A l1 l2 m1 m2 H. revert m1 m2.
  induction H as [|a b l1 l2 Hab H IH]; intros m1 m2 N1 N2; inversion N1; inversion N2; subst; constructor.
  - destruct a as [j|], b as [k|]; try contradiction.
    match goal with X : match ?y with Some _ => fan_next z1 j _ | None => False end |- _ => destruct y as [j'|]; [|contradiction] end.
    match goal with X : match ?y with Some _ => fan_next z2 k _ | None => False end |- _ => destruct y as [k'|]; [|contradiction] end.
    match goal with X : fan_next z1 j j' |- _ => destruct X as (_ & I1 & P1) end.
    match goal with X : fan_next z2 k k' |- _ => destruct X as (_ & I2 & P2) end.
    destruct Hab as (Ei & Hab). unfold fan_like. rewrite I1, I2. split; [exact Ei|].
    destruct Hab as [(Ig & Ep)|No]; [left|right; exact No]. split; [exact Ig|].
    rewrite P1, P2, (alike_input group z0 z1 z2 j k A Ei Ig), Ep, (al_max _ _ _ _ A). reflexivity.
  - apply IH; assumption.
Qed.

(** ** Two lives *)
Record both (group : list string) (z0 : zone) (l1 l2 : loop) : Prop := Both {
  bo_zone : alike group z0 (l_zone l1) (l_zone l2);
  bo_cnt : l_cycleCnt l1 = l_cycleCnt l2;
  bo_cmds : commands_to group (z_trace (l_zone l1)) = commands_to group (z_trace (l_zone l2))
}.

Lemma both_step group f z0 l1 l2 a b y1 y2 : both group z0 l1 l2 -> same_but_other_fans group z0 a b ->
  loop_step f l1 a = Ok y1 -> loop_step f l2 b = Ok y2 -> both group z0 y1 y2.
Proof.
  intros [A Cn W] H Y1 Y2.
  destruct a as [e1|m1|p1 x1], b as [e2|m2|p2 x2]; try contradiction.
  - destruct H as (V1 & V2 & N1 & N2 & Te). cbn [loop_step] in Y1, Y2. apply loop_tick_cases in Y1, Y2.
    assert (Mo := al_mode _ _ _ _ A).
    assert (Man : z_manualMode (l_zone l1) = z_manualMode (l_zone l2)) by (unfold mode in Mo; congruence).
    assert (Cl : conf (l_zone l1) = conf (l_zone l2)) by (destruct A; congruence).
    destruct Y1 as [(M1 & ->)|(u1 & v1 & A1)], Y2 as [(M2 & ->)|(u2 & v2 & A2)].
    + constructor; assumption.
    + destruct A2. congruence.
    + destruct A1. congruence.
    + destruct (auto_tick_facts _ _ _ _ _ _ A1) as (ev1 & T1). destruct (auto_tick_facts _ _ _ _ _ _ A2) as (ev2 & T2).
      destruct A1 as [_ F1 Th1 (w1 & W1 & Z1) Ct1 _]. destruct A2 as [_ F2 Th2 (w2 & W2 & Z2) Ct2 _].
      assert (Iv : z_updateThermalsTimeMS (l_zone l1) = z_updateThermalsTimeMS (l_zone l2)) by (use_conf Cl; reflexivity).
      assert (Ic : z_cycleIntervalTimeMS (l_zone l1) = z_cycleIntervalTimeMS (l_zone l2)) by (use_conf Cl; reflexivity).
      rewrite Iv, Cn in Th1. rewrite Iv, Cn, Ic in Ct1.
      assert (Au : alike group z0 u1 u2) by (eapply alike_fan_polls; [exact A|exact F1|exact F2|exact V1|exact N1]).
      assert (Av : alike group z0 v1 v2).
      { destruct (z_updateThermalsTimeMS (l_zone l2) <=? l_cycleCnt l2)%Z; [|subst; exact Au].
        rewrite Te in Th1. eapply alike_cycle; [exact Au|exact Th1|exact Th2|exact V2|exact N2]. }
      apply processFans_spec in W1, W2.
      destruct W1 as (Wc1 & Wm1 & Wr1 & Ws1 & Wt1 & Wp1 & Wf1 & Wv1 & _ & Wn1 & _).
      destruct W2 as (Wc2 & Wm2 & Wr2 & Ws2 & Wt2 & Wp2 & Wf2 & Wv2 & _ & Wn2 & _).
      assert (Aw : alike group z0 w1 w2).
      { assert (Av' := Av). destruct Av' as [C1 C2 Mv Fs To Tv In_ En Mx Ca Fa]. constructor.
        - congruence.
        - congruence.
        - unfold mode in *. congruence.
        - rewrite Wf1, Wf2. exact Fs.
        - intros n. unfold acceptable. assert (Am : z_missingAcceptable w1 = z_missingAcceptable v1) by (use_conf Wc1; reflexivity).
          rewrite Am, Wf1. apply To.
        - congruence.
        - intros t n It I. rewrite Wt1 in It. apply (In_ t n It I).
        - intros n. rewrite Wp1, Wp2. apply En.
        - unfold sps in Ws1, Ws2. congruence.
        - intros n I. rewrite Wv1, Wv2. apply Ca, I.
        - eapply alike_next; [exact Av|exact Fa|exact Wn1|exact Wn2]. }
      constructor.
      * rewrite Z1, Z2. eapply alike_quiet; [exact Aw|apply quiet_log|apply quiet_log].
      * rewrite Ct1, Ct2. reflexivity.
      * unfold commands_to in *. rewrite (tf_trace _ _ _ _ _ _ T1), (tf_trace _ _ _ _ _ _ T2), !writes_app, !commands_app, W.
        rewrite (tf_writes _ _ _ _ _ _ T1), (tf_writes _ _ _ _ _ _ T2). f_equal. eapply alike_writes. exact Av.
  - cbn in H. subst m2. cbn in Y1, Y2. injection Y1 as <-. injection Y2 as <-.
    constructor; cbn [l_zone with_zone l_cycleCnt]; [|exact Cn|destruct m1; exact W].
    destruct A as [C1 C2 Mo Fs To Th In_ En Mx Ca Fa]. unfold mode in Mo. injection Mo as Mo1 Mo2.
    destruct m1; constructor; try assumption; unfold mode; cbn; congruence.
  - destruct H as (<- & <-). cbn in Y1, Y2. injection Y1 as <-. injection Y2 as <-.
    destruct A as [C1 C2 Mo Fs To Th In_ En Mx Ca Fa].
    assert (E : forall z, conf (setProcessEnabled p1 x1 z) = conf z /\ mode (setProcessEnabled p1 x1 z) = mode z /\
      z_failSafeSensors (setProcessEnabled p1 x1 z) = z_failSafeSensors z /\
      z_fans (setProcessEnabled p1 x1 z) = z_fans z /\ z_trace (setProcessEnabled p1 x1 z) = z_trace z /\
      z_thermals (setProcessEnabled p1 x1 z) = z_thermals z /\
      z_maximumSetPoint (setProcessEnabled p1 x1 z) = z_maximumSetPoint z /\
      z_cachedValuesByName (setProcessEnabled p1 x1 z) = z_cachedValuesByName z /\
      forall n, option_map po_enabled (mget n (z_pidsControlProcess (setProcessEnabled p1 x1 z))) =
        match mget n (z_pidsControlProcess z) with
        | Some p => Some (if String.eqb n p1 then x1 else po_enabled p)
        | None => None
        end).
    { intros z. unfold setProcessEnabled. destruct (mget p1 (z_pidsControlProcess z)) as [p|] eqn:Ep.
      - repeat (split; [reflexivity|]). intros n.
        cbn [z_pidsControlProcess set_pidsControlProcess]. rewrite mget_mset.
        destruct (String.eqb n p1) eqn:En'.
        + apply String.eqb_eq in En'. subst n. rewrite Ep. destruct p; reflexivity.
        + destruct (mget n (z_pidsControlProcess z)); reflexivity.
      - repeat (split; [reflexivity|]). intros n. destruct (mget n (z_pidsControlProcess z)) as [q|] eqn:Eq; [|reflexivity].
        destruct (String.eqb n p1) eqn:En'; [|reflexivity]. apply String.eqb_eq in En'. congruence. }
    destruct (E (l_zone l1)) as (E1 & E2 & E3 & E4 & E5 & E6 & E7 & E8 & E9).
    destruct (E (l_zone l2)) as (G1 & G2 & G3 & G4 & G5 & G6 & G7 & G8 & G9).
    constructor; cbn [l_zone with_zone l_cycleCnt]; [|exact Cn|unfold commands_to in *; rewrite E5, G5; exact W].
    constructor.
    + congruence.
    + congruence.
    + congruence.
    + rewrite E3, G3. exact Fs.
    + intros n. unfold acceptable. match goal with |- In n (z_missingAcceptable ?y) -> _ =>
        assert (Am : z_missingAcceptable y = z_missingAcceptable (l_zone l1)) by (use_conf E1; reflexivity) end.
      rewrite Am, E3. apply To.
    + congruence.
    + intros t n It I. rewrite E6 in It. apply (In_ t n It I).
    + intros n. rewrite E9, G9. specialize (En n).
      destruct (mget n (z_pidsControlProcess (l_zone l1))), (mget n (z_pidsControlProcess (l_zone l2))); cbn [option_map] in En;
        [injection En as ->; reflexivity|discriminate En|discriminate En|reflexivity].
    + congruence.
    + intros n I. rewrite E8, G8. apply Ca, I.
    + rewrite E4, G4. exact Fa.
Qed.

Lemma both_run group f z0 evs1 evs2 : Forall2 (same_but_other_fans group z0) evs1 evs2 ->
  forall l1 l2 y1 y2, both group z0 l1 l2 ->
  loop_run f evs1 l1 = Ok y1 -> loop_run f evs2 l2 = Ok y2 -> both group z0 y1 y2.
Proof.
  intros H. induction H as [|a b evs1 evs2 Hab H IH]; intros l1 l2 y1 y2 R Y1 Y2.
  - unfold loop_run in *. cbn in *. injection Y1 as <-. injection Y2 as <-. exact R.
  - unfold loop_run in Y1, Y2. cbn in Y1, Y2. apply bind_ok in Y1, Y2.
    destruct Y1 as (x1 & X1 & Y1), Y2 as (x2 & X2 & Y2). apply (IH x1 x2); auto.
    eapply both_step; eauto.
Qed.

Lemma built_inputs id pids c z : zone_of id pids c z ->
  forall t n, In t (z_thermals z) -> In n (controller_inputs t) -> In n (z_thermalInputs z).
Proof.
  intros [_ _ _ _ _ _ _ _ Th _ _ Ti _ _] t n J K.
  destruct (Forall2_In_r _ _ _ _ Th J) as ([nm info] & I & (_ & L)).
  apply filter_In in I. destruct I as (I & B). apply Ti. exists (nm, info). split; [exact I|]. split; [exact B|].
  unfold names_of. cbn [snd]. destruct t as [id0 i0 ty0 sp0 p0|id0 i0 c0]; cbn in K.
  - destruct L as (_ & _ & -> & _). exact K.
  - destruct L as (_ & _ & -> & _). exact K.
Qed.

Lemma C108_lemma bus_ok zp confs built id pids z group f e1 e2 te now1 now2 a0 b0 evs1 evs2 a b :
  buildZones bus_ok zp confs = Ok built -> NoDup (map fst zp) -> In (id, pids) zp -> In (id, z) built ->
  fan_group group z ->
  same_values (z_thermalInputs z) e1 e2 -> same_health z (z_thermalInputs z) e1 e2 ->
  Forall2 (same_but_other_fans group z) evs1 evs2 ->
  loop_start f e1 te now1 z = Ok a0 -> loop_run f evs1 a0 = Ok a ->
  loop_start f e2 te now2 z = Ok b0 -> loop_run f evs2 b0 = Ok b ->
  commands_to group (z_trace (l_zone a)) = commands_to group (z_trace (l_zone b)).
Proof.
  intros B Nd J Jz G V NH H A0 A B0 Bq.
  destruct (proj2 (C49_structure _ _ _ _ B) Nd _ _ _ J Jz) as (c & _ & Z).
  assert (Inp := built_inputs _ _ _ _ Z). assert (Fr := zo_fresh _ _ _ _ Z). destruct Fr as (Ff & Ft & _).
  refine (bo_cmds _ _ _ _ (both_run group f z evs1 evs2 H a0 b0 a b _ A Bq)).
  destruct (loop_start_frame _ _ _ _ _ _ A0) as (_ & _ & _ & _ & _ & Cn1 & _ & (ev1 & T1 & _ & W1 & _)).
  destruct (loop_start_frame _ _ _ _ _ _ B0) as (_ & _ & _ & _ & _ & Cn2 & _ & (ev2 & T2 & _ & W2 & _)).
  unfold loop_start in A0, B0. apply bind_ok in A0, B0.
  destruct A0 as (z1 & X1 & A0), B0 as (z2 & X2 & B0). injection A0 as <-. injection B0 as <-. cbn [l_zone] in *.
  set (w := initializeCache (initializeLog f z)) in *.
  assert (Q : quiet_step z (initializeLog f z) []) by apply quiet_log. destruct Q as [Qc Qm Qs Qk Qf _ _ _].
  assert (Fi : z_failSafeSensors (initializeLog f z) = []) by congruence.
  destruct (initializeCache_inv (initializeLog f z) Fi) as ((_ & Ii) & Ic & _).
  destruct (initializeCache_frame (initializeLog f z)) as (Im & Ik & Is). fold w in Ii, Ic, Im, Ik, Is.
  unfold ctls in Qk, Ik. injection Qk as Qk1 Qk2 Qk3. injection Ik as Ik1 Ik2 Ik3.
  constructor; cbn [l_zone l_cycleCnt] in *.
  - eapply (alike_cycle group z f e1 e2 te w w); [|exact X1|exact X2|exact V|exact NH].
    constructor; try reflexivity; try congruence.
    + intros n Ac. rewrite Ii. destruct (smem n _); [|reflexivity]. unfold expected_entry.
      apply smem_In in Ac. rewrite Ac. reflexivity.
    + intros t n It I. apply (Inp t n); [congruence|exact I].
    + assert (Ek : z_fans w = z_fans z) by congruence. rewrite Ek.
      assert (Gl : forall l, incl l (z_fans z) -> Forall2 (fan_like group) l l).
      { induction l as [|o r IH]; intros I; constructor.
        - destruct o as [k|]; [|exact Logic.I]. split; [reflexivity|].
          destruct (G k) as [Y|Y]; [apply I; left; reflexivity|left; split; [exact Y|reflexivity]|right; exact Y].
        - apply IH. intros x Jx. apply I. right. exact Jx. }
      apply Gl, incl_refl.
  - congruence.
  - unfold commands_to. rewrite T1, T2, Ft, !app_nil_r, W1, W2. reflexivity.
Qed.
