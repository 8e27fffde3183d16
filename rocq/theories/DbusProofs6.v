(** * Reading a configuration from D-Bus has no undefined behaviour. *)
From Coq Require Import ZArith Bool List String Ascii Lia.
From Verif Require Import Base BaseFacts Dbl PidModel ZoneModel BuilderModel SensorModel WriteModel SpecWrite SystemModel SpecSystem
  SpecConfig JsonModel SpecJson JsonProofs ConfigModel ConfigProofs DbusConfigModel SpecDbus DbusProofs DbusProofs2
  DbusProofs3 DbusProofs4 DbusProofs5.
Import ListNotations.
Local Open Scope string_scope.
Local Open Scope outcome_scope.

Definition safe {A} (o : outcome A) : Prop := forall m, o <> UB m.
Lemma safe_bind {A B} (o : outcome A) (f : A -> outcome B) : safe o -> (forall a, o = Ok a -> safe (f a)) -> safe (bind o f).
Proof. intros S F. destruct o as [a|e|u]; cbn; [apply F; reflexivity|discriminate|destruct (S u eq_refl)]. Qed.
Lemma safe_ok {A} (a : A) : safe (Ok a). Proof. discriminate. Qed.
Lemma safe_throw {A} e : safe (@Throw A e). Proof. discriminate. Qed.
#[local] Hint Resolve safe_ok safe_throw : core.
Lemma safe_foldM {A S} (f : S -> A -> outcome S) l : (forall s a, In a l -> safe (f s a)) -> forall s, safe (foldM f l s).
Proof.
  induction l as [|a r IH]; intros F s; cbn [foldM]; [auto|]. apply safe_bind; [apply F; left; reflexivity|].
  intros s' _. apply IH. intros. apply F. right. assumption.
Qed.
Lemma safe_mapM {A B} (f : A -> outcome B) l : (forall a, safe (f a)) -> safe (mapM f l).
Proof.
  intros F. induction l as [|a r IH]; cbn [mapM]; [auto|]. apply safe_bind; [apply F|intros ? _].
  apply safe_bind; [exact IH|auto].
Qed.

Lemma safe_at_key k m : safe (at_key k m).
Proof. unfold at_key. destruct (mget k m); auto. Qed.
Lemma safe_str v : safe (get_str v). Proof. destruct v; cbn; auto. Qed.
Lemma safe_strs v : safe (get_strs v). Proof. destruct v; cbn; auto. Qed.
Lemma safe_dbls v : safe (get_dbls v). Proof. destruct v; cbn; auto. Qed.
Lemma safe_flag v : safe (get_flag v). Proof. destruct v; cbn; auto. Qed.
Lemma safe_double v : safe (variant_to_double v). Proof. destruct v; cbn; auto. Qed.
Lemma safe_attr k m : safe (getPIDAttribute k m).
Proof. unfold getPIDAttribute. destruct (mget k m); auto. Qed.
Lemma safe_number k m : safe (pid_number k m).
Proof. unfold pid_number. apply safe_bind; [apply safe_attr|intros; apply safe_double]. Qed.
Lemma safe_opt {A} (f : variant -> outcome A) d k m : (forall v, safe (f v)) -> safe (opt_attr f d k m).
Proof. unfold opt_attr. intros F. destruct (mget k m); auto. Qed.
#[local] Hint Resolve safe_at_key safe_str safe_strs safe_dbls safe_flag safe_double safe_attr safe_number safe_opt : core.
Ltac safe_step := apply safe_bind; [auto|intros].

Lemma safe_percent props : percent_fits props -> safe (fail_safe_percent props).
Proof.
  intros P. unfold fail_safe_percent. unfold percent_fits in P. destruct (mget "FailSafePercent" props) as [v|]; [|auto].
  apply safe_bind; [auto|]. intros d E. destruct (P v d eq_refl (to_double_ok _ _ E)) as (n & ->). auto.
Qed.
Lemma safe_cycle props key d : time_fits props key -> safe (getCycleTimeSetting_dbus props key d).
Proof.
  intros P. unfold getCycleTimeSetting_dbus, time_fits in *. destruct (mget key props) as [v|]; [|auto].
  apply safe_bind; [auto|]. intros x E. destruct (dgeb x (D 1)) eqn:G; [|auto].
  destruct (P v x eq_refl (to_double_ok _ _ E) G) as (n & ->). auto.
Qed.

Lemma safe_populate tb props info th sc : percent_fits props -> (th <> None -> ci_inputs info <> []) ->
  safe (populatePidInfo tb props info th sc).
Proof.
  intros P N. unfold populatePidInfo. safe_step. safe_step.
  apply safe_bind; [destruct (String.eqb _ "fan"); auto|intros]. apply safe_bind; [apply safe_percent, P|intros].
  apply safe_bind.
  { destruct th as [p|]; [|auto]. apply safe_bind; [|auto]. unfold threshold_reading.
    destruct (ci_inputs info) as [|i l]; [destruct N; [discriminate|reflexivity]|].
    destruct (mget (si_name i) sc); [|auto]. destruct (tb_owned _ _ _); cbn [negb]; auto. }
  intros. do 14 safe_step. auto.
Qed.
Lemma safe_add_pid tb props name ot sc inputs conf : percent_fits props -> safe (add_pid_info tb props name ot sc inputs conf).
Proof.
  intros P. unfold add_pid_info. destruct (String.eqb ot "").
  - apply safe_bind; [apply safe_populate; [exact P|congruence]|auto].
  - apply safe_foldM. intros s i _. apply safe_bind; [|auto]. apply safe_populate; [exact P|]. intros _. cbn [set_inputs ci_inputs].
    destruct (ci_inputs (info_of (si_name i) s)); discriminate.
Qed.
Lemma safe_get n f : (Z.of_nat (List.length f) <= int64_max)%Z -> safe (getZoneIndex n f).
Proof. intros L. destruct (get_total n f L) as (i & f' & ->). auto. Qed.

Section World.
  Variable w : setting.
  Hypothesis bus_ok : s_bus w = bus_of (s_resp w).
  Hypothesis re_safe : forall s, safe (s_regex w s).

  Lemma safe_find n : safe (findSensors (s_regex w) (sensors_of (s_resp w)) n).
  Proof. unfold findSensors. apply safe_bind; [apply re_safe|auto]. Qed.
  Hint Resolve safe_find : core.
  Lemma safe_find_all l : safe (find_all (s_regex w) (sensors_of (s_resp w)) l).
  Proof. induction l as [|n r IH]; cbn [find_all]; [auto|]. safe_step. safe_step. auto. Qed.
  Lemma safe_pair i o st : safe (pair_fans i o st).
  Proof.
    assert (F : forall l s, safe (foldM add_fan l s)).
    { intros l. apply safe_foldM. intros s [[f fi] [p pi]] _. unfold add_fan.
      destruct (negb _); auto. }
    unfold pair_fans. destruct o as [|a [|b r]]; try apply F; destruct (Nat.eqb _ _); auto.
  Qed.
  Lemma safe_step_inputs acc af ho names : forall st,
    safe (step_inputs (s_flags w) (s_regex w) (sensors_of (s_resp w)) acc af ho names st).
  Proof.
    induction names as [|n r IH]; intros st; cbn [step_inputs]; [auto|]. safe_step.
    destruct a; [|apply IH]. destruct (negb _); [auto|]. destruct (smem n acc); apply IH.
  Qed.
  Lemma safe_step_acc names : safe (step_acceptable (s_flags w) (s_regex w) (sensors_of (s_resp w)) names).
  Proof.
    induction names as [|n r IH]; cbn [step_acceptable]; [auto|]. safe_step.
    destruct a; [destruct (negb _); auto|]. safe_step. auto.
  Qed.
  Lemma safe_table props old : safe (read_table props old).
  Proof.
    unfold read_table. safe_step. safe_step. safe_step. safe_step. safe_step. safe_step.
    destruct (_ <? _)%nat; [auto|]. destruct (Nat.eqb _ 0); [auto|]. safe_step. safe_step.
    destruct (negb _); auto.
  Qed.
  Definition fits (p : part) : Prop :=
    match p with
    | PZone props => percent_fits props /\ time_fits props "CycleIntervalTimeMS" /\ time_fits props "UpdateThermalsTimeMS"
    | PPid props _ => percent_fits props
    | PStep _ _ => True
    end.

  Lemma safe_zone props st : fits (PZone props) -> few st -> safe (read_zone_details st props).
  Proof.
    intros (P & T1 & T2) Fw. unfold read_zone_details. safe_step. safe_step.
    apply safe_bind; [apply safe_get, Fw|intros [i f] _]. safe_step. safe_step.
    apply safe_bind; [apply safe_percent, P|intros]. apply safe_bind; [apply safe_cycle, T1|intros].
    apply safe_bind; [apply safe_cycle, T2|intros]. safe_step. auto.
  Qed.
  Lemma safe_pid props name class st zone : percent_fits props -> few st -> safe (pid_in_zone (ce_of w) props name class st zone).
  Proof.
    intros P Fw. unfold pid_in_zone. apply safe_bind; [apply safe_get, Fw|intros [index f] _].
    safe_step. safe_step. safe_step.
    apply safe_bind; [destruct (String.eqb class "fan"); [apply safe_bind; auto|auto]|intros]. safe_step. safe_step.
    cbn [ce_of ce_flags ce_regex ce_sensors ce_thresholds].
    apply safe_bind.
    { apply safe_foldM. intros s n _. unfold find_input. apply safe_bind; [auto|intros l _].
      destruct l; [|auto]. destruct (_ && _ && _)%bool; auto. }
    intros. apply safe_bind; [apply safe_find_all|intros]. apply safe_bind; [apply safe_find_all|intros].
    apply safe_bind.
    { apply safe_foldM. intros s [p i] _. unfold add_input. destruct (String.eqb i value_intf); auto. }
    intros. apply safe_bind.
    { apply safe_mapM. intros [p i]. unfold acceptable_name. destruct (String.eqb _ value_intf); auto. }
    intros. apply safe_bind; [destruct (String.eqb class "fan"); [apply safe_pair|auto]|intros [sensors archived] _].
    destruct archived; [auto|].
    apply safe_bind.
    { unfold offset_type. destruct (mget "SetPointOffset" props); [|auto]. safe_step. destruct (smem _ _); auto. }
    intros. safe_step. apply safe_bind; [apply safe_add_pid, P|auto].
  Qed.
  Lemma safe_step_zone props name st zone : few st -> safe (step_in_zone (ce_of w) props name st zone).
  Proof.
    intros Fw. unfold step_in_zone. apply safe_bind; [apply safe_get, Fw|intros [index f] _].
    do 5 safe_step. cbn [ce_of ce_flags ce_regex ce_sensors ce_thresholds].
    apply safe_bind; [apply safe_step_inputs|intros [sensors names] _]. destruct names; [auto|].
    apply safe_bind; [apply safe_step_acc|intros]. safe_step. apply safe_bind; [apply safe_table|auto].
  Qed.

  Lemma safe_act st p : fits p -> few st -> safe (act (ce_of w) st p).
  Proof.
    intros F Fw. destruct p as [props|props zone|props zone]; cbn [act].
    - apply safe_zone; assumption.
    - do 4 safe_step. apply safe_pid; assumption.
    - do 2 safe_step. apply safe_step_zone, Fw.
  Qed.
  Lemma safe_acts ps : Forall fits ps -> forall st,
    (Z.of_nat (List.length (r_found st) + List.length ps) <= int64_max)%Z -> safe (foldM (act (ce_of w)) ps st).
  Proof.
    induction 1 as [|p r F _ IH]; intros st L; cbn [foldM]; [auto|]. cbn [List.length] in L.
    apply safe_bind; [apply safe_act; [exact F|unfold few; lia]|]. intros st' E. apply IH.
    pose proof (act_length w bus_ok _ _ _ E). lia.
  Qed.
  (** Reading an object has undefined behaviour only if its parts have. *)
  Lemma safe_object st e : safe (foldM (act (ce_of w)) (parts_of (snd e)) st) -> safe (read_object (ce_of w) st e).
  Proof.
    unfold parts_of, read_object. rewrite !foldM_app. intros S.
    assert (S1 : safe (foldM (act (ce_of w)) (match mget zone_intf (snd e) with Some props => [PZone props] | None => [] end) st)).
    { intros m E. apply (S m). rewrite E. reflexivity. }
    assert (E1 : on_interface zone_intf (snd e) read_zone_details st =
       foldM (act (ce_of w)) (match mget zone_intf (snd e) with Some props => [PZone props] | None => [] end) st).
    { unfold on_interface. destruct (mget zone_intf (snd e)); [|reflexivity]. cbn [foldM act].
      destruct (read_zone_details st p); reflexivity. }
    rewrite E1. apply safe_bind; [exact S1|]. intros s1 Es1. rewrite Es1 in S. cbn [bind] in S. rewrite foldM_app in S.
    assert (S2 : safe (foldM (act (ce_of w)) (match mget pid_intf (snd e) with
       | Some props => map (PPid props) (zones_listed props) | None => [] end) s1)).
    { intros m E. apply (S m). rewrite E. reflexivity. }
    apply safe_bind.
    { unfold on_interface. destruct (mget pid_intf (snd e)) as [props|]; [|auto]. unfold read_pid_object.
      apply safe_bind; [auto|intros v Ev]. apply safe_bind; [auto|intros name En]. apply safe_bind; [auto|intros v2 Ev2].
      apply safe_bind; [auto|intros class Ec]. apply safe_bind; [auto|intros v3 Ev3]. apply safe_bind; [auto|intros zs Ez].
      apply get_strs_ok in Ez. apply at_key_ok in Ev3. subst v3. unfold zones_listed in S2. rewrite Ev3, foldM_map in S2.
      erewrite foldM_ext; [exact S2|]. intros s a. cbn [act].
      rewrite Ev. cbn [bind]. rewrite En. cbn [bind]. rewrite Ev2. cbn [bind]. rewrite Ec. reflexivity. }
    intros s2 Es2.
    assert (E2 : foldM (act (ce_of w)) (match mget pid_intf (snd e) with
       | Some props => map (PPid props) (zones_listed props) | None => [] end) s1 = Ok s2).
    { clear -Es2. unfold on_interface in Es2. destruct (mget pid_intf (snd e)) as [props|]; [|exact Es2].
      unfold read_pid_object in Es2. rename Es2 into E2.
      apply bind_ok in E2. destruct E2 as (v & Ev & E2). apply bind_ok in E2. destruct E2 as (name & En & E2).
      apply bind_ok in E2. destruct E2 as (v2 & Ev2 & E2). apply bind_ok in E2. destruct E2 as (class & Ec & E2).
      apply bind_ok in E2. destruct E2 as (v3 & Ev3 & E2). apply bind_ok in E2. destruct E2 as (zs & Ez & E2).
      apply get_strs_ok in Ez. apply at_key_ok in Ev3. subst v3.
      unfold zones_listed. rewrite Ev3, foldM_map, <- E2. apply foldM_ext. intros s a. cbn [act].
      rewrite Ev. cbn [bind]. rewrite En. cbn [bind]. rewrite Ev2. cbn [bind]. rewrite Ec. reflexivity. }
    rewrite E2 in S. cbn [bind] in S.
    unfold on_interface. destruct (mget stepwise_intf (snd e)) as [props|]; [|auto]. unfold read_stepwise_object.
    apply safe_bind; [auto|intros v Ev]. apply safe_bind; [auto|intros name En].
    apply safe_bind; [auto|intros v3 Ev3]. apply safe_bind; [auto|intros zs Ez].
    apply get_strs_ok in Ez. apply at_key_ok in Ev3. subst v3. unfold zones_listed in S. rewrite Ev3, foldM_map in S.
    erewrite foldM_ext; [exact S|]. intros s a. cbn [act]. rewrite Ev. cbn [bind]. rewrite En. reflexivity.
  Qed.
  Lemma safe_objects objs : forall st, safe (foldM (act (ce_of w)) (parts objs) st) -> safe (foldM (read_object (ce_of w)) objs st).
  Proof.
    induction objs as [|e r IH]; intros st S; cbn [foldM]; [auto|]. unfold parts in S. cbn [flat_map] in S. rewrite foldM_app in S.
    apply safe_bind.
    - apply safe_object. intros m E. apply (S m). rewrite E. reflexivity.
    - intros s1 E1. rewrite (flatten_object _ _ _ _ E1) in S. apply IH, S.
  Qed.
End World.

Lemma safe_reserve (l : list (string * object)) :
  (forall (e : string * object) (props : properties), In e l -> mget zone_intf (snd e) = Some props -> index_ok props) ->
  forall f, (Z.of_nat (List.length f + List.length l) <= 2 ^ 62)%Z ->
  safe (foldM reserve_index l f) /\
  forall f', foldM reserve_index l f = Ok f' -> (List.length f' <= List.length f + List.length l)%nat.
Proof.
  induction l as [|e r IH]; intros C f L; [split; [cbn; auto|intros f' E; injection E as <-; cbn; lia]|].
  cbn [List.length] in L. cbn [foldM].
  assert (X : safe (reserve_index f e) /\ forall f1, reserve_index f e = Ok f1 -> (List.length f1 <= S (List.length f))%nat).
  { unfold reserve_index. destruct (mget zone_intf (snd e)) as [props|] eqn:E; [|split; [auto|intros f1 Q; injection Q as <-; lia]].
    pose proof (C e props (or_introl eq_refl) E) as Ix. unfold index_ok in Ix.
    assert (Y : forall name : string, safe (match mget "ZoneIndex" props with
        | Some (VDbl d) => match to_int64 d with None => UB "floating-integral conversion"
            | Some desired => do r <- setZoneIndex name f desired; Ok (snd r) end
        | _ => Ok f end) /\ forall f1, match mget "ZoneIndex" props with
        | Some (VDbl d) => match to_int64 d with None => UB "floating-integral conversion"
            | Some desired => do r <- setZoneIndex name f desired; Ok (snd r) end
        | _ => Ok f end = Ok f1 -> (List.length f1 <= S (List.length f))%nat).
    { intros name. destruct (mget "ZoneIndex" props) as [v|]; [|split; [auto|intros f1 Q; injection Q as <-; lia]].
      destruct v as [| |d| | | |]; try (split; [auto|intros f1 Q; injection Q as <-; lia]).
      destruct (Ix d eq_refl) as (i & -> & Li).
      destruct (set_total name f i) as (i' & f' & S). { unfold int64_max. lia. }
      rewrite S. cbn [bind snd]. split; [auto|]. intros f1 Q. injection Q as <-. eapply set_length, S. }
    split.
    - safe_step. safe_step. apply Y.
    - intros f1 Q. apply bind_ok in Q. destruct Q as (v & _ & Q). apply bind_ok in Q. destruct Q as (name & _ & Q).
      eapply Y, Q. }
  destruct X as (Sf & Ln). split.
  - apply safe_bind; [exact Sf|]. intros f1 E1. specialize (Ln _ E1). apply IH; [|lia].
    intros e' props I. apply C. right. exact I.
  - intros f' E. apply bind_ok in E. destruct E as (f1 & E1 & E). specialize (Ln _ E1).
    destruct (IH (fun e' props I => C e' props (or_intror I)) f1) as (_ & K); [lia|]. specialize (K _ E). cbn [List.length]. lia.
Qed.
Lemma safe_gather managed owners : safe (gather managed owners).
Proof.
  apply safe_foldM. intros s o _. destruct (negb _); [auto|]. destruct (managed _ _); auto.
Qed.
Lemma safe_profiles selected confs : safe (apply_profiles selected confs).
Proof.
  assert (I : forall o, safe (select_interfaces selected o)).
  { induction o as [|[i props] r IH]; cbn [select_interfaces]; [auto|]. apply safe_bind.
    - unfold profile_selected. destruct (mget _ _); [|auto]. safe_step. destruct a; auto.
    - intros. safe_step. auto. }
  unfold apply_profiles. destruct selected as [|s0 sel]; [auto|].
  induction confs as [|[p o] r IH]; cbn [select_objects]; [auto|]. apply safe_bind; [apply I|intros]. safe_step. auto.
Qed.

Lemma C71_lemma sf re cb : (forall s m, re s <> UB m) -> in_range cb -> forall m, dbus_init sf re cb <> UB m.
Proof.
  intros Re Rg. change (safe (dbus_init sf re cb)). unfold dbus_init. destruct (cb_subtree cb) as [resp|] eqn:Sb; [|auto].
  destruct resp as [|x r]; [auto|]. destruct (scan (x :: r)) as [owners sensors] eqn:Sc.
  apply safe_bind; [apply safe_gather|intros confs Eg]. destruct (cb_profiles cb) as [selected|] eqn:Pr; [|cbn; auto].
  cbn [bind]. apply safe_bind; [apply safe_profiles|intros objs Ea].
  assert (Rd : reads cb (x :: r) objs) by (eapply reads_ok; [rewrite Sc; exact Eg|exact Pr|exact Ea]).
  destruct (Rg _ _ Sb Rd) as (Lim & Ob).
  apply safe_bind; [|auto]. unfold read_objects.
  destruct (safe_reserve objs) with (f := @nil (string * Z)) as (Sr & Lr).
  { intros [p o] props I G. destruct (Ob p o props I) as (Z & _). apply Z, G. }
  { cbn [List.length]. lia. }
  apply safe_bind; [exact Sr|intros f0 Ef]. specialize (Lr _ Ef). cbn [List.length] in Lr.
  set (w := Setting sf re (x :: r) (bus_of (x :: r)) (cb_thresholds cb)).
  assert (Ce : ConfigEnv sf re (cb_thresholds cb) sensors = ce_of w).
  { unfold ce_of, sensors_of. cbn [w s_flags s_regex s_thresholds s_resp]. rewrite Sc. reflexivity. }
  rewrite Ce. apply safe_objects. apply safe_acts.
  - reflexivity.
  - intros s m. apply Re.
  - apply Forall_forall. intros p I. unfold parts in I. apply in_flat_map in I. destruct I as ([path o] & Ie & I).
    cbn [snd] in I. unfold parts_of in I. rewrite !in_app_iff in I. destruct I as [I|[I|I]].
    + destruct (mget zone_intf o) as [props|] eqn:G; [|destruct I]. destruct I as [<-|[]].
      destruct (Ob path o props Ie) as (Z & _). destruct (Z G) as (A & B & C & _). split; [exact A|]. split; assumption.
    + destruct (mget pid_intf o) as [props|] eqn:G; [|destruct I]. apply in_map_iff in I. destruct I as (z & <- & _).
      destruct (Ob path o props Ie) as (_ & Z). apply Z, G.
    + destruct (mget stepwise_intf o); [|destruct I]. apply in_map_iff in I. destruct I as (z & <- & _). exact Logic.I.
  - cbn [r_found]. unfold int64_max. lia.
Qed.
