(** * Proofs for C110: only differences of times matter. *)
From Coq Require Import ZArith Bool List String Lia.
From Verif Require Import Base BaseFacts Dbl PidModel ZoneModel LoopModel SpecZone ZoneFrame ZoneFan ZoneProofs LoopProofs
  ReactionProofs SensorModel SpecSensor SensorProofs WriteModel SpecWrite WriteProofs BuilderModel SpecBuilder BuilderProofs
  BuilderRun ConfigModel SystemModel SpecSystem SystemProofs SystemProofs2 SystemProofs3 SpecDaemon SpecLife LifeProofs SpecCool SpecLocal
  LocalProofs SpecApart ApartProofs SpecClock.
Import ListNotations.
Local Open Scope string_scope.
Local Open Scope Z_scope.
Local Open Scope outcome_scope.

(** ** Sensors *)
Definition map_ok {A B : Type} (g : A -> B) (o : outcome A) : outcome B := do x <- o; Ok (g x).

Lemma later_core k x : core (later_sensor k x) = later_sensor k (core x).
Proof. destruct x as [t r w i|t i h]; reflexivity. Qed.

Lemma later_update k pow10 now v force p :
  updateValue pow10 (now + k) v force (later_passive k p) = later_passive k (updateValue pow10 now v force p).
Proof.
  unfold updateValue, later_passive. destruct p as [i1 i2 i3 tm i5 i6 i7 i8 i9 j1 j2 j3 j4 j5 j6 j7 j8 j9]. cbn [pset_badReading pset_updated p_scale p_min p_max p_typeMargin p_updated].
  destruct (disfinite v); cbn [negb andb].
  - destruct tm; reflexivity.
  - destruct force; cbn [negb]; [|reflexivity]. destruct tm; reflexivity.
Qed.

Lemma later_handle k sf pow10 p m :
  handleSensorValue sf pow10 (later_passive k p) (later_msg k m) = map_ok (later_passive k) (handleSensorValue sf pow10 p m).
Proof.
  unfold handleSensorValue, map_ok. cbn [m_intf m_props m_now later_msg].
  destruct (String.eqb (m_intf m) value_intf).
  { destruct (mget "Value" (m_props m)) as [v|]; [|reflexivity]. destruct (to_double v); cbn [bind]; try reflexivity.
    rewrite later_update. reflexivity. }
  destruct (String.eqb (m_intf m) critical_intf).
  { destruct (mget "CriticalAlarmLow" (m_props m)) as [a|], (mget "CriticalAlarmHigh" (m_props m)) as [b|]; cbn [bind];
      try (destruct (get_bool a) as [[|]| |]); cbn [bind]; try (destruct (get_bool b) as [[|]| |]); cbn [bind];
      unfold setFailed; destruct p; reflexivity. }
  destruct (UNC_FAILSAFE sf && String.eqb (m_intf m) warning_intf)%bool.
  { destruct (mget "WarningAlarmHigh" (m_props m)) as [v|]; [|reflexivity]. destruct (get_bool v) as [[|]| |]; cbn [bind];
      unfold setFailed; destruct p; reflexivity. }
  destruct (String.eqb (m_intf m) available_intf).
  { destruct (mget "Available" (m_props m)) as [v|]; [|reflexivity]. destruct (get_bool v) as [[|]| |]; cbn [bind]; try reflexivity.
    assert (E : setAvailable false (later_passive k p) = later_passive k (setAvailable false p)) by (destruct p; reflexivity).
    rewrite E, later_update. reflexivity. }
  destruct (String.eqb (m_intf m) functional_intf); [|reflexivity].
  destruct (mget "Functional" (m_props m)) as [v|]; [|reflexivity]. destruct (get_bool v) as [[|]| |]; cbn [bind];
    destruct p; reflexivity.
Qed.

Lemma later_core_after k sf pow10 n x e :
  core_after sf pow10 n (later_sensor k x) (later_event k e) = map_ok (later_sensor k) (core_after sf pow10 n x e).
Proof.
  destruct e as [path m|n' v t|m|c|j w|j b|j p b]; cbn [core_after later_event]; try reflexivity.
  - unfold sensor_signal. destruct x as [t [p red|q| |] w i|t i h]; cbn [later_sensor later_reader]; try reflexivity.
    assert (E : p_path (later_passive k p) = p_path p) by (destruct p; reflexivity). rewrite E.
    destruct (String.eqb (p_path p) path); [|reflexivity]. rewrite later_handle. unfold map_ok.
    destruct (handleSensorValue sf pow10 p m); reflexivity.
  - destruct (String.eqb n n'); [|reflexivity]. destruct x; reflexivity.
Qed.

(** ** The daemon *)
Record ahead (k : Z) (s1 s2 : system) : Prop := Ahead {
  ah_cores : forall n, cores s2 n = option_map (later_sensor k) (cores s1 n);
  ah_failures : sy_failures s2 = sy_failures s1;
  ah_power : sy_power s2 = sy_power s1
}.

Lemma ahead_step k f sf pow10 s1 s2 e y1 y2 : ahead k s1 s2 -> sys_step f sf pow10 s1 e = Ok y1 ->
  sys_step f sf pow10 s2 (later_event k e) = Ok y2 -> ahead k y1 y2.
Proof.
  intros [A B C] Y1 Y2. assert (F1 := step_failures _ _ _ _ _ _ Y1). assert (F2 := step_failures _ _ _ _ _ _ Y2).
  rewrite B, C in F2.
  assert (E1 : redundancy_news [later_event k e] = redundancy_news [e]) by (destruct e; reflexivity).
  assert (E2 : host_changes [later_event k e] = host_changes [e]) by (destruct e; reflexivity).
  rewrite E1, E2 in F2. destruct F1 as (F1 & G1), F2 as (F2 & G2). constructor; [|congruence|congruence].
  intros n. apply (step_cores _ _ _ _ _ _ n) in Y1, Y2. rewrite A in Y2. destruct (cores s1 n) as [x|]; cbn [option_map] in Y2.
  - destruct Y1 as (x1 & -> & C1), Y2 as (x2 & -> & C2). rewrite later_core_after, C1 in C2. cbn in C2. injection C2 as <-. reflexivity.
  - rewrite Y1, Y2. reflexivity.
Qed.

Lemma later_poll k failures power files now x :
  sensor_poll failures power files (now + k) (later_sensor k x) = map_ok (later_view k) (sensor_poll failures power files now x).
Proof.
  destruct x as [t [p red|q| |] w i|t i h]; cbn [later_sensor later_reader sensor_poll reader_read]; try reflexivity.
  unfold sysfs_read. destruct (files q); reflexivity.
Qed.

Lemma ahead_view k s1 s2 files now n : ahead k s1 s2 ->
  pe_sensor (view_env s2 files (now + k)) n = option_map (later_view k) (pe_sensor (view_env s1 files now) n).
Proof.
  intros [A B C]. cbn [view_env pe_sensor]. specialize (A n). unfold cores in A.
  destruct (mget n (sy_sensors s1)) as [x|], (mget n (sy_sensors s2)) as [y|]; cbn [option_map] in A;
    [|discriminate A|discriminate A|reflexivity].
  injection A as A. rewrite <- (poll_core _ _ _ _ x), <- (poll_core _ _ _ _ y), A, B, C, later_poll.
  destruct (sensor_poll _ _ _ _ (core x)); reflexivity.
Qed.

Lemma ahead_views k z s1 s2 files now names : ahead k s1 s2 ->
  same_values names (view_env s1 files now) (view_env s2 files (now + k)) /\
  same_health z names (view_env s1 files now) (view_env s2 files (now + k)).
Proof.
  intros A. split.
  - intros n _. rewrite (ahead_view _ _ _ _ _ n A). destruct (pe_sensor (view_env s1 files now) n); split; reflexivity.
  - intros n _ _. unfold found_bad. rewrite (ahead_view _ _ _ _ _ n A).
    destruct (pe_sensor (view_env s1 files now) n) as [v|]; cbn [option_map].
    2: { split; intros (v & E & _); discriminate E. }
    assert (T : timed_out (pe_now (view_env s2 files (now + k))) (later_view k v) = timed_out (pe_now (view_env s1 files now)) v).
    { unfold timed_out. cbn [pe_now view_env later_view sv_timeout sv_updated].
      replace (now + k - (sv_updated v + k)) with (now - sv_updated v) by lia. reflexivity. }
    split; intros (u & E & H); injection E as <-; eexists; (split; [reflexivity|]); rewrite T in *; exact H.
Qed.

Lemma ahead_proj k f sf pow10 i z evs : forall s1 s2 y1 y2, ahead k s1 s2 ->
  sys_run f sf pow10 evs s1 = Ok y1 -> sys_run f sf pow10 (map (later_event k) evs) s2 = Ok y2 ->
  Forall2 (same_but_other_fans (z_fanInputs z) z) (proj f sf pow10 i evs s1) (proj f sf pow10 i (map (later_event k) evs) s2).
Proof.
  induction evs as [|e r IH]; intros s1 s2 y1 y2 A Y1 Y2; [constructor|].
  unfold sys_run in Y1, Y2. cbn [foldM map] in Y1, Y2. apply bind_ok in Y1, Y2.
  destruct Y1 as (x1 & X1 & Y1), Y2 as (x2 & X2 & Y2). cbn [map].
  rewrite (proj_cons _ _ _ _ _ _ _ _ X1), (proj_cons _ _ _ _ _ _ _ _ X2). apply Forall2_app.
  - cbn [proj]. rewrite X1, X2, !app_nil_r.
    destruct e as [path m|n' v t|m|c|j w|j b|j p b]; cbn [later_event]; try constructor.
    + destruct (Nat.eqb j i); [|constructor]. constructor; [|constructor]. unfold tick_of.
      cbn [same_but_other_fans tk_fan tk_therm tk_tune later_wake wk_fan_now wk_fan_files wk_therm_now wk_therm_files wk_tune].
      split; [exact (proj1 (ahead_views k z _ _ _ _ _ A))|]. split; [exact (proj1 (ahead_views k z _ _ _ _ _ A))|].
      split; [exact (proj2 (ahead_views k z _ _ _ _ _ A))|]. split; [exact (proj2 (ahead_views k z _ _ _ _ _ A))|reflexivity].
    + destruct (Nat.eqb j i); constructor; [reflexivity|constructor].
    + destruct (Nat.eqb j i); constructor; [split; reflexivity|constructor].
  - apply (IH x1 x2 y1 y2); auto. eapply ahead_step; eassumption.
Qed.

(** ** Building *)
Definition later_all (k : Z) (m : smap sensor) : smap sensor := map (fun e => (fst e, later_sensor k (snd e))) m.

Lemma later_mset k n x m : later_all k (mset n x m) = mset n (later_sensor k x) (later_all k m).
Proof.
  induction m as [|[a y] m IH]; [reflexivity|]. cbn [mset later_all map fst snd].
  destruct (String.eqb n a); [reflexivity|]. destruct (String.ltb n a); [reflexivity|].
  cbn [map fst snd]. f_equal. exact IH.
Qed.
Lemma later_mget k n m : mget n (later_all k m) = option_map (later_sensor k) (mget n m).
Proof.
  induction m as [|[a y] m IH]; [reflexivity|]. cbn [mget later_all map fst snd].
  destruct (String.eqb n a); [reflexivity|exact IH].
Qed.

Lemma later_init k pow10 now s b p : initFromSettings pow10 (now + k) s b p = later_passive k (initFromSettings pow10 now s b p).
Proof.
  unfold initFromSettings.
  match goal with |- updateValue _ _ ?v true ?q = _ => generalize v, q end. intros v q.
  unfold updateValue, later_passive. destruct q as [i1 i2 i3 tm i5 i6 i7 i8 i9 j1 j2 j3 j4 j5 j6 j7 j8 j9]. cbn [pset_badReading p_scale p_min p_max p_typeMargin].
  destruct (disfinite v); cbn [negb andb]; destruct tm; reflexivity.
Qed.

Lemma later_create k sf pow10 now type id b info :
  createDbusPassive sf pow10 (now + k) type id b info = option_map (later_passive k) (createDbusPassive sf pow10 now type id b info).
Proof.
  unfold createDbusPassive. destruct (negb (validType type)); [reflexivity|].
  destruct (getService b).
  - destruct (getProperties b) as [settings| |]; try reflexivity. destruct (thresholdsAsserted sf b); try reflexivity.
    destruct (sc_ignoreDbusMinMax info); cbn [option_map]; rewrite later_init; reflexivity.
  - destruct (negb (HANDLE_MISSING_OBJECT_PATHS sf)); [reflexivity|]. cbn [option_map]. rewrite later_init. reflexivity.
  - destruct (negb (HANDLE_MISSING_OBJECT_PATHS sf)); [reflexivity|]. cbn [option_map]. rewrite later_init. reflexivity.
Qed.

Lemma later_make k sf pow10 sb n info :
  make_reader sf pow10 (later_bus k sb) n info = map_ok (later_reader k) (make_reader sf pow10 sb n info).
Proof.
  unfold make_reader. destruct (getReadInterfaceType (sc_readPath info)); try reflexivity.
  - cbn [sb_now sb_replies later_bus]. rewrite later_create. destruct (createDbusPassive _ _ _ _ _ _ _); reflexivity.
  - cbn [sb_dir later_bus]. destruct (FixupPath _ _); reflexivity.
Qed.

Lemma later_build k sf pow10 sb m e :
  build_sensor sf pow10 (later_bus k sb) (later_all k m) e = map_ok (later_all k) (build_sensor sf pow10 sb m e).
Proof.
  destruct e as [n info]. unfold build_sensor. rewrite later_make.
  destruct (make_reader sf pow10 sb n info) as [r| |]; cbn [bind map_ok]; try reflexivity.
  destruct (String.eqb (sc_type info) "fan").
  - change (make_writer (later_bus k sb) info) with (make_writer sb info).
    destruct (make_writer sb info) as [w| |]; cbn [bind map_ok]; try reflexivity. rewrite later_mset. reflexivity.
  - destruct (smem (sc_type info) _); [|reflexivity].
    destruct (getReadInterfaceType (sc_readPath info)); cbn [bind map_ok]; rewrite later_mset; reflexivity.
Qed.

Lemma later_builds k sf pow10 sb config m : buildSensors sf pow10 sb config = Ok m ->
  buildSensors sf pow10 (later_bus k sb) config = Ok (later_all k m).
Proof.
  unfold buildSensors. cbn [sb_free later_bus]. destruct (can_register (sb_free sb) (exports config)); [|discriminate].
  assert (G : forall l a b, foldM (build_sensor sf pow10 sb) l a = Ok b ->
    foldM (build_sensor sf pow10 (later_bus k sb)) l (later_all k a) = Ok (later_all k b)).
  { induction l as [|e r IH]; intros a b H; cbn [foldM] in *; [injection H as <-; reflexivity|].
    apply bind_ok in H. destruct H as (a1 & H1 & H2). rewrite later_build, H1. cbn [map_ok bind]. apply IH, H2. }
  apply (G config [] m).
Qed.

Lemma C110_lemma bus_ok zp confs built id pids z f sf pow10 sb config failures first devices1 devices2 zs evs i st k
    s1 s2 l1 l2 :
  buildZones bus_ok zp confs = Ok built -> NoDup (map fst zp) -> In (id, pids) zp -> In (id, z) built ->
  runs f sf pow10 sb config failures first devices1 zs evs s1 ->
  runs f sf pow10 (later_bus k sb) config failures first devices2 (map (later_start k) zs) (map (later_event k) evs) s2 ->
  nth_error zs i = Some (st, z) ->
  nth_error (sy_loops s1) i = Some l1 -> nth_error (sy_loops s2) i = Some l2 ->
  writes_in (z_trace (l_zone l1)) = writes_in (z_trace (l_zone l2)) /\ l_expiry l2 = l_expiry l1 + k.
Proof.
  intros B Nd J Jz [Nc Fr (m & a0 & Bm & A0 & A)] [_ _ (m' & b0 & Bm' & B0 & B')] I1 L1 L2.
  apply (later_builds k) in Bm. assert (m' = later_all k m) by congruence. subst m'.
  destruct (proj2 (C49_structure _ _ _ _ B) Nd _ _ _ J Jz) as (c & _ & Z).
  assert (I2 : nth_error (map (later_start k) zs) i = Some (later_start k (st, z))) by (rewrite nth_error_map, I1; reflexivity).
  unfold sys_start in A0, B0. cbn [later_start fst snd] in I2.
  destruct (start_views _ _ _ _ _ _ _ A0 I1) as (x1 & X1 & Y1). destruct (start_views _ _ _ _ _ _ _ B0 I2) as (x2 & X2 & Y2).
  cbn [sy_loops List.length Nat.add st_now st_files st_tune st_timer] in X1, X2, Y2.
  assert (Sa : ahead k (Sys m failures (host_initial first) [] devices1) (Sys (later_all k m) failures (host_initial first) [] devices2)).
  { constructor; [|reflexivity|reflexivity]. intros n. unfold cores. cbn [sy_sensors]. rewrite later_mget.
    destruct (mget n m); cbn [option_map]; [rewrite later_core|]; reflexivity. }
  destruct (ahead_views k z _ _ (st_files st) (st_now st) (z_thermalInputs z) Sa) as (V & Hh).
  apply start_rest in A0, B0. destruct A0 as (Ea1 & Ea2 & Ea3 & _), B0 as (Eb1 & Eb2 & Eb3 & _).
  cbn [sy_sensors sy_failures sy_power] in *.
  assert (Qa : ahead k a0 b0).
  { destruct Sa as [S1 _ _]. constructor; [|congruence|congruence]. intros n. specialize (S1 n). unfold cores in *.
    rewrite Ea1, Eb1. exact S1. }
  assert (F := ahead_proj k f sf pow10 i z evs _ _ _ _ Qa A B').
  destruct (run_loops _ _ _ _ _ _ _ _ A X1) as (u1 & U1 & R1). destruct (run_loops _ _ _ _ _ _ _ _ B' X2) as (u2 & U2 & R2).
  assert (u1 = l1) by congruence. assert (u2 = l2) by congruence. subst u1 u2.
  assert (G : fan_group (z_fanInputs z) z) by (intros q Ik; left; intros n In_; exact (built_fans _ _ _ _ Z q n Ik In_)).
  split.
  - assert (E := C108_lemma _ _ _ _ _ _ _ _ _ _ _ _ _ _ _ _ _ _ _ _ B Nd J Jz G V Hh F Y1 R1 Y2 R2).
    destruct (start_listed _ _ _ _ _ _ _ _ _ Z Y1) as (Li1 & W1). destruct (start_listed _ _ _ _ _ _ _ _ _ Z Y2) as (Li2 & W2).
    rewrite (commands_all (z_fanInputs z) (z_trace (l_zone l1))) in E.
    + rewrite (commands_all (z_fanInputs z) (z_trace (l_zone l2))) in E; [exact E|].
      apply (run_writes_listed _ _ _ _ _ R2 Li2). rewrite W2. intros w [].
    + apply (run_writes_listed _ _ _ _ _ R1 Li1). rewrite W1. intros w [].
  - assert (T1 := proj_ticks f sf pow10 i _ _ _ A). assert (T2 := proj_ticks f sf pow10 i _ _ _ B').
    rewrite (C28_lemma _ _ _ _ _ _ _ _ Y1 R1), (C28_lemma _ _ _ _ _ _ _ _ Y2 R2), T1, T2.
    assert (W : wakes i (map (later_event k) evs) = wakes i evs).
    { clear. unfold wakes. induction evs as [|e r IH]; [reflexivity|]. cbn [map filter].
      destruct e; cbn [later_event]; try exact IH. destruct (Nat.eqb _ _); cbn [List.length]; [f_equal|]; exact IH. }
    rewrite W. cbn [fst snd]. ring.
Qed.
