(** * A configuration on D-Bus is loaded as it is written. *)
From Coq Require Import ZArith Bool List String Ascii Lia.
From Verif Require Import Base BaseFacts Dbl PidModel ZoneModel BuilderModel SensorModel WriteModel SpecWrite SystemModel SpecSystem
  SpecConfig JsonModel SpecJson JsonProofs ConfigModel ConfigProofs DbusConfigModel SpecDbus DbusProofs DbusProofs2
  DbusProofs3.
From Verif Require SensorProofs.
Import ListNotations.
Local Open Scope string_scope.
Local Open Scope outcome_scope.

(** ** Reading part by part *)
Definition act (ce : config_env) (st : reading) (p : part) : outcome reading :=
  match p with
  | PZone props => read_zone_details st props
  | PPid props zone =>
      do v <- at_key "Name" props;
      do name <- get_str v;
      do v <- at_key "Class" props;
      do pidClass <- get_str v;
      pid_in_zone ce props (sensorNameToDbusName name) pidClass st zone
  | PStep props zone =>
      do v <- at_key "Name" props;
      do name <- get_str v;
      step_in_zone ce props (sensorNameToDbusName name) st zone
  end.

Lemma foldM_map {A B S} (f : S -> B -> outcome S) (g : A -> B) l : forall s,
  foldM f (map g l) s = foldM (fun s a => f s (g a)) l s.
Proof. induction l as [|a r IH]; intros s; cbn; [reflexivity|]. destruct (f s (g a)); cbn; auto. Qed.
Lemma foldM_ext {A S} (f g : S -> A -> outcome S) l : (forall s a, f s a = g s a) -> forall s, foldM f l s = foldM g l s.
Proof. intros E. induction l as [|a r IH]; intros s; cbn; [reflexivity|]. rewrite E. destruct (g s a); cbn; auto. Qed.

Lemma flatten_object ce st e st' : read_object ce st e = Ok st' -> foldM (act ce) (parts_of (snd e)) st = Ok st'.
Proof.
  unfold read_object, parts_of. intros E.
  apply bind_ok in E. destruct E as (s1 & E1 & E). apply bind_ok in E. destruct E as (s2 & E2 & E).
  rewrite foldM_app.
  assert (Z : foldM (act ce) (match mget zone_intf (snd e) with Some props => [PZone props] | None => [] end) st = Ok s1).
  { unfold on_interface in E1. destruct (mget zone_intf (snd e)) as [props|]; [|exact E1].
    cbn [foldM act]. rewrite E1. reflexivity. }
  rewrite Z. cbn [bind]. rewrite foldM_app.
  assert (P : foldM (act ce) (match mget pid_intf (snd e) with
     | Some props => map (PPid props) (zones_listed props) | None => [] end) s1 = Ok s2).
  { unfold on_interface in E2. destruct (mget pid_intf (snd e)) as [props|]; [|exact E2].
    unfold read_pid_object in E2.
    apply bind_ok in E2. destruct E2 as (v & Ev & E2). apply bind_ok in E2. destruct E2 as (name & En & E2).
    apply bind_ok in E2. destruct E2 as (v2 & Ev2 & E2). apply bind_ok in E2. destruct E2 as (class & Ec & E2).
    apply bind_ok in E2. destruct E2 as (v3 & Ev3 & E2). apply bind_ok in E2. destruct E2 as (zs & Ez & E2).
    apply get_strs_ok in Ez. apply at_key_ok in Ev3. subst v3.
    unfold zones_listed. rewrite Ev3, foldM_map, <- E2. apply foldM_ext. intros s a. cbn [act].
    rewrite Ev. cbn [bind]. rewrite En. cbn [bind]. rewrite Ev2. cbn [bind]. rewrite Ec. reflexivity. }
  rewrite P. cbn [bind].
  unfold on_interface in E. destruct (mget stepwise_intf (snd e)) as [props|]; [|exact E].
  unfold read_stepwise_object in E.
  apply bind_ok in E. destruct E as (v & Ev & E). apply bind_ok in E. destruct E as (name & En & E).
  apply bind_ok in E. destruct E as (v3 & Ev3 & E). apply bind_ok in E. destruct E as (zs & Ez & E).
  apply get_strs_ok in Ez. apply at_key_ok in Ev3. subst v3.
  unfold zones_listed. rewrite Ev3, foldM_map, <- E. apply foldM_ext. intros s a. cbn [act].
  rewrite Ev. cbn [bind]. rewrite En. reflexivity.
Qed.
Lemma flatten_objects ce objs : forall st st',
  foldM (read_object ce) objs st = Ok st' -> foldM (act ce) (parts objs) st = Ok st'.
Proof.
  induction objs as [|e r IH]; intros st st' E; [exact E|]. cbn [foldM] in E. apply bind_ok in E.
  destruct E as (s1 & E1 & E). unfold parts. cbn [flat_map]. rewrite foldM_app, (flatten_object _ _ _ _ E1).
  apply IH, E.
Qed.

(** ** Zone numbers *)
Definition within (m : smap Z) (number : string -> option Z) : Prop :=
  forall n i, mget n m = Some i -> number n = Some i.

Lemma getZoneIndex_ok zone f i f' : good_zones f -> getZoneIndex zone f = Ok (i, f') ->
  good_zones f' /\ mget zone f' = Some i /\ (forall n j, mget n f = Some j -> mget n f' = Some j).
Proof.
  intros G E. pose proof (zone_op_spec (ZGet zone) f G) as S. cbn [zone_op_step zone_op_name] in S.
  rewrite E in S. destruct S as (A & B & C & D). split; [exact A|]. split; [exact B|].
  intros n j M. destruct (string_dec n zone) as [->|N]; [rewrite B; f_equal; apply D, M|rewrite C by exact N; exact M].
Qed.

Section Steps.
  Variable w : setting.
  Hypothesis bus_ok : s_bus w = bus_of (s_resp w).

  Lemma act_found st p st' : good_zones (r_found st) -> act (ce_of w) st p = Ok st' ->
    good_zones (r_found st') /\ (forall n j, mget n (r_found st) = Some j -> mget n (r_found st') = Some j).
  Proof.
    intros G E. destruct p as [props|props zone|props zone]; cbn [act] in E.
    - unfold read_zone_details in E.
      apply bind_ok in E. destruct E as (v & Ev & E). apply bind_ok in E. destruct E as (name & En & E).
      apply bind_ok in E. destruct E as ([i f] & Ei & E). cbv zeta beta iota in E.
      apply bind_ok in E. destruct E as (? & ? & E). apply bind_ok in E. destruct E as (? & ? & E).
      apply bind_ok in E. destruct E as (? & ? & E). apply bind_ok in E. destruct E as (? & ? & E).
      apply bind_ok in E. destruct E as (? & ? & E). apply bind_ok in E. destruct E as (? & ? & E).
      injection E as <-. cbn [r_found]. destruct (getZoneIndex_ok _ _ _ _ G Ei) as (A & _ & B). auto.
    - apply bind_ok in E. destruct E as (v & Ev & E). apply bind_ok in E. destruct E as (name & En & E).
      apply bind_ok in E. destruct E as (v2 & Ev2 & E). apply bind_ok in E. destruct E as (class & Ec & E).
      apply (pid_in_zone_ok w bus_ok) in E; [|eapply text_ok; eassumption].
      destruct E as (index & us & names & conf' & Ei & _).
      destruct (getZoneIndex_ok _ _ _ _ G Ei) as (A & _ & B). auto.
    - apply bind_ok in E. destruct E as (v & Ev & E). apply bind_ok in E. destruct E as (name & En & E).
      apply (step_in_zone_ok w bus_ok) in E. destruct E as (index & us & names & conf' & Ei & _).
      destruct (getZoneIndex_ok _ _ _ _ G Ei) as (A & _ & B). auto.
  Qed.

  (** ** Sensors *)
  Lemma thermal_entry_mono ps ps' n c : incl ps ps' -> thermal_entry w ps n c -> thermal_entry w ps' n c.
  Proof.
    intros I (props & zone & missing & path & H & R). exists props, zone, missing, path. split; [|exact R].
    destruct H as [[X Y]|[X Y]]; [left|right]; (split; [apply I, X|exact Y]).
  Qed.
  Lemma sensor_entry_mono ps ps' n c : incl ps ps' -> sensor_entry w ps n c -> sensor_entry w ps' n c.
  Proof.
    intros I [H|H]; [left; eapply thermal_entry_mono; eassumption|right].
    destruct H as (props & zone & missing & sources & H1 & H2 & H3 & H4 & H5 & H6 & H7 & H8 & H9 & H10).
    exists props, zone, missing, sources. repeat match goal with |- _ /\ _ => split end; try assumption; [apply I, H1|].
    destruct H10 as [X|(c' & X)]; [left; exact X|right]. exists c'. eapply thermal_entry_mono; eassumption.
  Qed.
  Lemma entry_from_mono ps ps' number i n info before p :
    incl ps ps' -> entry_from w ps number i n info before p -> entry_from w ps' number i n info before p.
  Proof.
    intros I. destruct p as [props|props zone|props zone]; cbn [entry_from]; auto.
    intros (A & B & name & names & margins & acc & l & C0 & C1 & C2 & C3 & C4 & C5 & H). split; [exact A|]. split; [exact B|].
    exists name, names, margins, acc, l. repeat (split; [assumption|]). destruct (mget "SetPointOffset" props); [|exact H].
    destruct H as (type & s & r & first & c & input & earlier & H1 & H2 & H3 & H4 & H5 & H6 & H7 & H8 & H9).
    exists type, s, r, first, c, input, earlier. repeat (split; [assumption|]).
    split; [eapply sensor_entry_mono; eassumption|exact H9].
  Qed.

  Definition u_ok (ps : list part) (u : string * (SensorConfig -> SensorConfig)) : Prop :=
    forall c, c = sensor_zero \/ sensor_entry w ps (fst u) c -> sensor_entry w ps (fst u) (snd u c).
  Lemma updates_ok ps us : Forall (u_ok ps) us -> forall m,
    (forall n c, mget n m = Some c -> sensor_entry w ps n c) ->
    forall n c, mget n (apply_updates us m) = Some c -> sensor_entry w ps n c.
  Proof.
    induction 1 as [|u r U _ IH]; intros m H; [exact H|]. cbn. apply IH. intros n c G.
    unfold update_sensor in G. rewrite mget_mset in G. destruct (String.eqb_spec n (fst u)) as [->|N]; [|apply H, G].
    injection G as <-. apply U. destruct (mget (fst u) m) as [c0|] eqn:E; [right; apply H, E|left; reflexivity].
  Qed.
  Lemma pid_update_ok ps props zone class u :
    In (PPid props zone) ps -> says_text props "Class" class -> pid_update w props class u -> u_ok ps u.
  Proof.
    intros I C (missing & sources & S & H) c Hc.
    destruct H as [(N & path & af & ho & E & A & B & H)|(-> & e & E & Ie & F)]; rewrite E.
    - left. exists props, zone, missing, path. cbn [as_thermal sc_type sc_readPath sc_timeout sc_ignoreDbusMinMax
        sc_unavailableAsFailed sc_ignoreFailIfHostOff]. split; [|auto].
      left. split; [exact I|]. split; [exact C|]. split; [exact N|]. exists sources. split; [exact S|].
      rewrite <- SensorProofs.getSensorPath_eq. exact H.
    - right. exists props, zone, missing, sources. cbn [as_fan sc_type sc_readPath sc_writePath sc_min sc_max sc_timeout
        sc_ignoreDbusMinMax sc_unavailableAsFailed sc_ignoreFailIfHostOff].
      destruct e as [f p]. cbn [fst snd] in *.
      repeat (split; [first [assumption|reflexivity]|]).
      destruct Hc as [->|[T|F']].
      + split; [reflexivity|]. left. repeat split.
      + split; [|right; exists c; exact T]. destruct T as (? & ? & ? & ? & _ & _ & T & _). exact T.
      + destruct F' as (? & ? & ? & ? & _ & _ & _ & _ & _ & _ & _ & _ & T & X). split; [exact T|exact X].
  Qed.
  Lemma step_update_ok ps props zone u :
    In (PStep props zone) ps -> step_updated w props u -> u_ok ps u.
  Proof.
    intros I (missing & sources & path & af & ho & S & E & A & B & H) c _. rewrite E.
    left. exists props, zone, missing, path. cbn [as_thermal sc_type sc_readPath sc_timeout sc_ignoreDbusMinMax
      sc_unavailableAsFailed sc_ignoreFailIfHostOff]. split; [|auto].
    right. split; [exact I|]. split; [reflexivity|]. exists sources. split; [exact S|].
    rewrite <- SensorProofs.getSensorPath_eq. exact H.
  Qed.

  (** ** The invariant *)
  Definition loaded_of (st : reading) : loaded := MkLoaded (r_sensors st) (r_pids st) (r_zones st).

  Lemma Exists_snoc {A} (P : A -> Prop) l x : Exists P (l ++ [x])%list <-> Exists P l \/ P x.
  Proof.
    rewrite Exists_app. split; intros [H|H]; auto.
    inversion H as [? ? X|? ? X]; subst; [auto|inversion X].
  Qed.
  Lemma in_snoc {A} (l : list A) x y : In y (l ++ [x])%list <-> In y l \/ y = x.
  Proof. rewrite in_app_iff. cbn. intuition. Qed.

  Definition controller (p : part) (zone : string) : Prop :=
    exists props, p = PPid props zone \/ p = PStep props zone.
  Lemma touches_zone number i n p zone : controller p zone -> touches w number i n p -> number zone = Some i.
  Proof. intros (props & [->| ->]) T; cbn [touches] in T; tauto. Qed.

  Lemma controller_step number before p zone st st' index conf' us :
    as_configured w before number (loaded_of st) ->
    controller p zone -> number zone = Some index ->
    r_sensors st' = apply_updates us (r_sensors st) -> Forall (u_ok (before ++ [p])%list) us ->
    r_zones st' = r_zones st -> r_pids st' = zset index conf' (r_pids st) ->
    conf_effect w number index p (conf_at index (r_pids st)) conf' (r_sensors st') ->
    as_configured w (before ++ [p])%list number (loaded_of st').
  Proof.
    intros [(O1 & O2 & O3 & O4) Hs Hi Hk Hz Hnum Hpz Har Hp] Ct Nz Es Us Ez Ep [E1 E2 E3 E4].
    unfold loaded_of in *. cbn [l_sensors l_pids l_zones] in *.
    assert (Inc : incl before (before ++ [p])%list) by (intros x X; apply in_app_iff; auto).
    assert (Sens : forall n c, mget n (r_sensors st') = Some c -> sensor_entry w (before ++ [p])%list n c).
    { rewrite Es. apply updates_ok; [exact Us|]. intros n c G. eapply sensor_entry_mono; [exact Inc|apply Hs, G]. }
    assert (Old : forall n c, mget n (r_sensors st) = Some c -> exists c', mget n (r_sensors st') = Some c').
    { intros n c G. rewrite Es. apply apply_updates_keys. left. exists c. exact G. }
    assert (NoZ : forall i, ~ zone_part number i p).
    { intros i Z. destruct Ct as (props & [->| ->]); exact Z. }
    assert (At : forall i pids, zget i (r_pids st') = Some pids ->
      (i = index /\ pids = conf') \/ (i <> index /\ zget i (r_pids st) = Some pids)).
    { intros i pids G. rewrite Ep, zget_zset in G. destruct (Z.eqb_spec i index); [left|right]; auto.
      split; [assumption|congruence]. }
    assert (NotTouch : forall i n, i <> index -> ~ touches w number i n p).
    { intros i n N T. apply (touches_zone _ _ _ _ _ Ct) in T. congruence. }
    constructor; cbn [l_sensors l_pids l_zones].
    - split; [|split; [|split]].
      + rewrite Es. apply apply_updates_in_order. exact O1.
      + rewrite Ep. apply in_order_zset. exact O2.
      + rewrite Ez. exact O3.
      + intros i pids G. destruct (At _ _ G) as [[-> ->]|[_ G']]; [|eapply O4, G'].
        apply E1. unfold conf_at. destruct (zget index (r_pids st)) eqn:X; [eapply O4, X|apply sorted_nil].
    - exact Sens.
    - intros i pids n info x G M I. destruct (At _ _ G) as [[-> ->]|[_ G']].
      + destruct (E4 _ _ _ M I) as [X|(info0 & M0 & I0)]; [exact X|]. unfold conf_at in M0.
        destruct (zget index (r_pids st)) as [c0|] eqn:X; [|discriminate].
        destruct (Hi _ _ _ _ _ X M0 I0) as (s & S). eapply Old, S.
      + destruct (Hi _ _ _ _ _ G' M I) as (s & S). eapply Old, S.
    - intros props name I N. apply in_snoc in I. destruct I as [I|I].
      + rewrite Ez. apply (Hk _ _ I N).
      + exfalso. destruct Ct as (pr & [->| ->]); discriminate.
    - intros i zc G. rewrite Ez in G. destruct (Hz _ _ G) as (b & props & a & old & -> & Z & Na & S & Ol).
      exists b, props, (a ++ [p])%list, old. split; [rewrite <- app_assoc; reflexivity|]. split; [exact Z|].
      split; [|auto]. rewrite Exists_snoc. intros [X|X]; [exact (Na X)|exact (NoZ _ X)].
    - intros props z H. rewrite !in_snoc in H. destruct H as [[H|H]|[H|H]].
      + apply (Hnum props z). auto.
      + destruct Ct as (pr & [->| ->]); [|discriminate]. injection H as -> ->. congruence.
      + apply (Hnum props z). auto.
      + destruct Ct as (pr & [->| ->]); [discriminate|]. injection H as -> ->. congruence.
    - intros i. split.
      + intros (pids & G). destruct (At _ _ G) as [[-> ->]|[_ G']].
        * destruct Ct as (props & [->| ->]); exists props, zone; (split; [|exact Nz]); [left|right]; apply in_snoc; auto.
        * destruct (proj1 (Hpz i) (ex_intro _ _ G')) as (props & z & [X|X] & Y); exists props, z; (split; [|exact Y]);
            [left|right]; apply in_snoc; auto.
      + intros (props & z & H & Y). rewrite Ep. setoid_rewrite zget_zset.
        destruct (Z.eqb_spec i index) as [->|N]; [eexists; reflexivity|]. apply Hpz. exists props, z. split; [|exact Y].
        rewrite !in_snoc in H. destruct H as [[H|H]|[H|H]]; auto; exfalso; apply N; destruct Ct as (pr & [->| ->]);
          try discriminate; injection H as -> ->; congruence.
    - intros i n q I T. apply in_snoc in I. destruct I as [I|I].
      + destruct (Har _ _ _ I T) as (pids & info & G & M). rewrite Ep. setoid_rewrite zget_zset.
        destruct (Z.eqb_spec i index) as [->|N]; [|exists pids, info; auto].
        assert (X : exists info, mget n conf' = Some info).
        { destruct (mget n conf') as [y|] eqn:Q; [exists y; reflexivity|exfalso].
          assert (NT : ~ touches w number index n p).
          { intros T'. destruct (E3 _ T') as (y & Y & _). congruence. }
          rewrite (E2 _ NT) in Q. unfold conf_at in Q. rewrite G in Q. congruence. }
        destruct X as (y & Y). exists conf', y. auto.
      + subst q. assert (i = index) by (apply (touches_zone _ _ _ _ _ Ct) in T; congruence). subst i.
        destruct (E3 _ T) as (y & Y & _). exists conf', y. rewrite Ep, zget_zset, Z.eqb_refl. auto.
    - intros i pids n info G M.
      assert (Keep : zget i (r_pids st) = Some pids \/ (exists c0, zget i (r_pids st) = Some c0 /\ mget n c0 = Some info) ->
        mget n pids = Some info -> ~ touches w number i n p ->
        exists b q a, (before ++ [p])%list = (b ++ q :: a)%list /\
          entry_from w (before ++ [p])%list number i n info b q /\ ~ Exists (touches w number i n) a).
      { intros H M' NT. assert (X : exists c0, zget i (r_pids st) = Some c0 /\ mget n c0 = Some info)
          by (destruct H as [H|H]; [exists pids; auto|exact H]).
        destruct X as (c0 & X1 & X2). destruct (Hp _ _ _ _ X1 X2) as (b & q & a & -> & F & Na).
        exists b, q, (a ++ [p])%list. split; [rewrite <- app_assoc; reflexivity|].
        split; [eapply entry_from_mono; [exact Inc|exact F]|]. rewrite Exists_snoc. tauto. }
      destruct (At _ _ G) as [[-> ->]|[N G']].
      + assert (Dec : touches w number index n p \/ ~ touches w number index n p).
        { destruct (Classical_Prop.classic (touches w number index n p)); auto. }
        destruct Dec as [T|T].
        * destruct (E3 _ T) as (y & Y & F). rewrite M in Y. injection Y as <-.
          exists before, p, []. split; [reflexivity|]. split; [|intros X; inversion X].
          apply F; [|exact Sens]. intros Q. unfold conf_at in Q.
          destruct (zget index (r_pids st)) as [c0|] eqn:X; [|cbn in Q; congruence].
          destruct (mget n c0) as [i0|] eqn:Y0; [|congruence].
          destruct (Hp _ _ _ _ X Y0) as (b & q & a & Eb & F' & _). rewrite Eb. apply Exists_app. right. left.
          revert F'. clear. destruct q as [props|props zone|props zone]; cbn [entry_from touches].
          -- tauto.
          -- intros (A & _ & name & names & margins & acc & l & N1 & P & Ne & _ & _ & [Ml _] & H). split; [exact A|].
             exists name, names. split; [exact N1|]. split; [exact P|]. split; [exact Ne|].
             unfold plain. destruct (mget "SetPointOffset" props) as [v|].
             ++ destruct H as (ty & s & r & first & c & input & earlier & _ & _ & I & <- & _).
                right. split; [discriminate|]. rewrite <- Ml. apply in_map, I.
             ++ destruct H as (-> & _). left. auto.
          -- intros (A & _ & (name & N1 & ->) & _ & names & margins & acc & P & Ne & _). split; [exact A|].
             exists name, names. auto.
        * apply Keep; [|exact M|exact T]. right. rewrite (E2 _ T) in M. unfold conf_at in M.
          destruct (zget index (r_pids st)) as [c0|]; [|discriminate]. exists c0. auto.
      + apply Keep; [left; exact G'|exact M|apply NotTouch, N].
  Qed.

  Lemma zone_step number before props st st' :
    as_configured w before number (loaded_of st) -> good_zones (r_found st) ->
    read_zone_details st props = Ok st' -> within (r_found st') number ->
    as_configured w (before ++ [PZone props])%list number (loaded_of st').
  Proof.
    intros [(O1 & O2 & O3 & O4) Hs Hi Hk Hz Hnum Hpz Har Hp] Gz E Wi. unfold read_zone_details in E.
    apply bind_ok in E. destruct E as (v & Ev & E). apply bind_ok in E. destruct E as (name & En & E).
    apply bind_ok in E. destruct E as ([index f] & Ei & E). cbv zeta beta iota in E.
    apply bind_ok in E. destruct E as (v1 & Em1 & E). apply bind_ok in E. destruct E as (mto & Em2 & E).
    apply bind_ok in E. destruct E as (pc & Epc & E). apply bind_ok in E. destruct E as (cy & Ecy & E).
    apply bind_ok in E. destruct E as (th & Eth & E). apply bind_ok in E. destruct E as (acc & Eacc & E).
    injection E as <-. unfold loaded_of in *. cbn [r_found r_sensors r_pids r_zones l_sensors l_pids l_zones] in *.
    pose proof (text_ok _ _ _ _ Ev En) as Hn.
    destruct (getZoneIndex_ok _ _ _ _ Gz Ei) as (_ & Gi & _). apply Wi in Gi.
    assert (Inc : incl before (before ++ [PZone props])%list) by (intros x X; apply in_app_iff; auto).
    assert (Zp : forall i, zone_part number i (PZone props) <-> i = index).
    { intros i. cbn [zone_part]. split.
      - intros (n & N1 & N2). pose proof (says_text_unique _ _ _ _ Hn N1). subst n. congruence.
      - intros ->. exists name. auto. }
    set (old := zget index (r_zones st)) in *.
    assert (Cyc : forall key d0 d1 val, getCycleTimeSetting_dbus props key d0 = Ok val -> d0 = d1 ->
       cycle_time props key d1 val).
    { intros key x y val C ->. unfold getCycleTimeSetting_dbus in C. unfold cycle_time.
      destruct (mget key props) as [u|]; [|congruence]. apply bind_ok in C. destruct C as (d & C1 & C2).
      exists d. split; [apply to_double_ok, C1|]. destruct (dgeb d (D 1)); [|congruence].
      destruct (to_uint64 d); congruence. }
    assert (Set_ : zone_settings props old (MkZoneConfig mto pc cy th acc)).
    { unfold zone_settings. cbn [zc_minThermalOutput zc_failsafePercent zc_cycleIntervalTimeMS zc_updateThermalsTimeMS
        zc_accumulateSetPoint].
      split; [exists v1; split; [apply at_key_ok, Em1|apply to_double_ok, Em2]|].
      split; [apply percent_ok, Epc|]. split; [|split].
      - eapply Cyc; [exact Ecy|]. destruct old; reflexivity.
      - eapply Cyc; [exact Eth|]. destruct old; reflexivity.
      - apply opt_flag_ok, Eacc. }
    constructor; cbn [l_sensors l_pids l_zones].
    - split; [exact O1|]. split; [exact O2|]. split; [apply in_order_zset, O3|exact O4].
    - intros n c G. eapply sensor_entry_mono; [exact Inc|apply Hs, G].
    - exact Hi.
    - intros pr nm I N. apply in_snoc in I. destruct I as [I|I].
      + destruct (Hk _ _ I N) as (i & zc & A & B). setoid_rewrite zget_zset. exists i. rewrite A.
        destruct (Z.eqb i index); eexists; (split; [reflexivity|]); [reflexivity|exact B].
      + injection I as ->. pose proof (says_text_unique _ _ _ _ Hn N). subst nm. exists index.
        setoid_rewrite zget_zset. rewrite Z.eqb_refl. eexists. split; [exact Gi|reflexivity].
    - intros i zc G. rewrite zget_zset in G. destruct (Z.eqb_spec i index) as [->|N].
      + injection G as <-. exists before, props, [], old. split; [reflexivity|]. split; [apply Zp; reflexivity|].
        split; [intros X; inversion X|]. split; [exact Set_|]. intros X. subst old.
        destruct (zget index (r_zones st)) as [o|] eqn:Q; [|congruence].
        destruct (Hz _ _ Q) as (b & p2 & a & ol & -> & Z2 & _). apply Exists_app. right. left. exact Z2.
      + destruct (Hz _ _ G) as (b & p2 & a & ol & -> & Z2 & Na & S2 & Ol).
        exists b, p2, (a ++ [PZone props])%list, ol. split; [rewrite <- app_assoc; reflexivity|]. split; [exact Z2|].
        split; [|auto]. rewrite Exists_snoc. intros [X|X]; [exact (Na X)|]. apply Zp in X. contradiction.
    - intros pr z H. apply (Hnum pr z). rewrite !in_snoc in H. destruct H as [[H|H]|[H|H]]; auto; discriminate.
    - intros i. rewrite Hpz. split; intros (pr & z & H & Y); exists pr, z; (split; [|exact Y]); rewrite !in_snoc in *.
      + tauto.
      + destruct H as [[H|H]|[H|H]]; auto; discriminate.
    - intros i n q I T. apply in_snoc in I. destruct I as [I|I]; [apply (Har _ _ _ I T)|subst q; destruct T].
    - intros i pids n info G M. destruct (Hp _ _ _ _ G M) as (b & q & a & -> & F & Na).
      exists b, q, (a ++ [PZone props])%list. split; [rewrite <- app_assoc; reflexivity|].
      split; [eapply entry_from_mono; [exact Inc|exact F]|]. rewrite Exists_snoc. cbn [touches]. tauto.
  Qed.

  Lemma act_step number before p st st' :
    as_configured w before number (loaded_of st) -> good_zones (r_found st) ->
    act (ce_of w) st p = Ok st' -> within (r_found st') number ->
    as_configured w (before ++ [p])%list number (loaded_of st').
  Proof.
    intros A G E Wi. destruct p as [props|props zone|props zone]; cbn [act] in E.
    - eapply zone_step; eassumption.
    - apply bind_ok in E. destruct E as (v & Ev & E). apply bind_ok in E. destruct E as (name & En & E).
      apply bind_ok in E. destruct E as (v2 & Ev2 & E). apply bind_ok in E. destruct E as (class & Ec & E).
      pose proof (text_ok _ _ _ _ Ev En) as Hn. pose proof (text_ok _ _ _ _ Ev2 Ec) as Hc.
      apply (pid_in_zone_ok w bus_ok) in E; [|exact Hc].
      destruct E as (index & us & names & conf' & Ei & Nm & Es & Us & Ks & Ez & Ep & H).
      destruct (getZoneIndex_ok _ _ _ _ G Ei) as (_ & Gi & _). apply Wi in Gi.
      eapply (controller_step number before (PPid props zone) zone); try eassumption.
      + exists props. auto.
      + eapply Forall_impl; [|exact Us]. intros u U. eapply pid_update_ok; [|exact Hc|exact U].
        apply in_app_iff. right. left. reflexivity.
      + destruct H as [[-> ->]|(Ne & ot & margins & acc & H1 & H2 & H3 & H4)].
        * apply effect_none. intros n T. apply (touches_pid w number index n props zone name []) in T; tauto.
        * eapply pid_effect; try eassumption. intros n I. rewrite Es. apply apply_updates_keys. right. apply Ks, I.
    - apply bind_ok in E. destruct E as (v & Ev & E). apply bind_ok in E. destruct E as (name & En & E).
      pose proof (text_ok _ _ _ _ Ev En) as Hn.
      apply (step_in_zone_ok w bus_ok) in E.
      destruct E as (index & us & names & conf' & Ei & Nm & Es & Us & Ks & Ez & Ep & H).
      destruct (getZoneIndex_ok _ _ _ _ G Ei) as (_ & Gi & _). apply Wi in Gi.
      eapply (controller_step number before (PStep props zone) zone); try eassumption.
      + exists props. auto.
      + eapply Forall_impl; [|exact Us]. intros u U. eapply step_update_ok; [|exact U].
        apply in_app_iff. right. left. reflexivity.
      + destruct H as [[-> ->]|(Ne & margins & acc & table & H1 & H2 & H3 & H4)].
        * apply effect_none. intros n T. apply (touches_step w number index n props zone name []) in T; tauto.
        * subst conf'. eapply step_effect; try eassumption. intros n I. rewrite Es. apply apply_updates_keys. right. apply Ks, I.
  Qed.

  Lemma acts_found ps : forall st st', good_zones (r_found st) -> foldM (act (ce_of w)) ps st = Ok st' ->
    good_zones (r_found st') /\ (forall n j, mget n (r_found st) = Some j -> mget n (r_found st') = Some j).
  Proof.
    induction ps as [|p r IH]; intros st st' G E; [injection E as <-; auto|]. cbn [foldM] in E. apply bind_ok in E.
    destruct E as (s1 & E1 & E). destruct (act_found _ _ _ G E1) as [G1 H1]. destruct (IH _ _ G1 E) as [G2 H2].
    split; [exact G2|]. auto.
  Qed.
  Lemma acts_ok number ps : forall before st st',
    as_configured w before number (loaded_of st) -> good_zones (r_found st) ->
    foldM (act (ce_of w)) ps st = Ok st' -> within (r_found st') number ->
    as_configured w (before ++ ps)%list number (loaded_of st').
  Proof.
    induction ps as [|p r IH]; intros before st st' A G E Wi.
    - injection E as <-. rewrite app_nil_r. exact A.
    - cbn [foldM] in E. apply bind_ok in E. destruct E as (s1 & E1 & E).
      destruct (act_found _ _ _ G E1) as [G1 _]. destruct (acts_found _ _ _ G1 E) as [_ H2].
      replace (before ++ p :: r)%list with ((before ++ [p]) ++ r)%list by (rewrite <- app_assoc; reflexivity).
      apply (IH _ s1); try assumption. eapply act_step; try eassumption. intros n i M. apply Wi, H2, M.
  Qed.
  Lemma start_ok number f : as_configured w [] number (loaded_of (MkReading f [] [] [])).
  Proof.
    constructor; cbn; try discriminate.
    - split; [constructor|]. split; [constructor|]. split; [constructor|]. discriminate.
    - intros props name [].
    - intros props zone [[]|[]].
    - intros i. split; [intros (pids & X); discriminate|]. intros (props & z & [[]|[]] & _).
    - intros i n p [].
  Qed.
End Steps.

(** ** Requested zone numbers *)
Lemma reserve_ok l : forall f f', good_zones f -> foldM reserve_index l f = Ok f' ->
  good_zones f' /\ (forall n j, mget n f = Some j -> mget n f' = Some j) /\
  (NoDup (map fst (requests l)) -> NoDup (map snd (requests l)) ->
   (forall n i, In (n, i) (requests l) -> mget n f = None /\ ~ taken i f) ->
   forall n i, In (n, i) (requests l) -> mget n f' = Some i).
Proof.
  induction l as [|e r IH]; intros f f' G E.
  - injection E as <-. split; [exact G|]. split; [auto|]. intros _ _ _ n i [].
  - cbn [foldM] in E. apply bind_ok in E. destruct E as (f1 & E1 & E).
    set (req := match mget zone_intf (snd e) with
       | None => []
       | Some props => match mget "Name" props, mget "ZoneIndex" props with
           | Some (VStr name), Some (VDbl d) => match to_int64 d with Some i => [(name, i)] | None => [] end
           | _, _ => [] end end).
    assert (Rq : requests (e :: r) = (req ++ requests r)%list) by reflexivity.
    assert (H1 : good_zones f1 /\ (forall n j, mget n f = Some j -> mget n f1 = Some j) /\
       (req = [] -> f1 = f) /\
       (forall n i, req = [(n, i)] -> mget n f = None -> ~ taken i f ->
          mget n f1 = Some i /\ forall m, m <> n -> mget m f1 = mget m f) /\ (req = [] \/ exists n i, req = [(n, i)])).
    { unfold reserve_index in E1. unfold req. destruct (mget zone_intf (snd e)) as [props|].
      2: { injection E1 as <-. split; [exact G|]. split; [auto|]. split; [auto|]. split; [discriminate|auto]. }
      apply bind_ok in E1. destruct E1 as (v & Ev & E1). apply bind_ok in E1. destruct E1 as (name & En & E1).
      apply at_key_ok in Ev. apply get_str_ok in En. subst v. rewrite Ev.
      destruct (mget "ZoneIndex" props) as [v|].
      2: { injection E1 as <-. split; [exact G|]. split; [auto|]. split; [auto|]. split; [discriminate|auto]. }
      destruct v; try (injection E1 as <-; split; [exact G|]; split; [auto|]; split; [auto|]; split; [discriminate|auto]).
      destruct (to_int64 d) as [desired|] eqn:Td; [|discriminate].
      apply bind_ok in E1. destruct E1 as ([i0 f0] & E0 & E1). injection E1 as <-. cbn [snd].
      pose proof (setZoneIndex_spec name f desired G) as S. rewrite E0 in S.
      destruct S as (S1 & S2 & S3 & S4 & S5). split; [exact S1|]. split.
      { intros n j M. destruct (string_dec n name) as [->|N]; [rewrite S2; f_equal; apply S4, M|rewrite S3 by exact N; exact M]. }
      split; [discriminate|]. split; [|right; eexists; eexists; reflexivity].
      intros n i X Mn Nt. injection X as <- <-. destruct (S5 Mn) as (L & _ & Tk).
      assert (i0 = desired).
      { destruct (Z.eq_dec i0 desired) as [Q|Q]; [exact Q|]. exfalso. apply Nt, Tk. lia. }
      subst i0. split; [exact S2|exact S3]. }
    destruct H1 as (G1 & K1 & R0 & R1 & Rc). destruct (IH _ _ G1 E) as (G2 & K2 & R2).
    split; [exact G2|]. split; [auto|]. rewrite Rq. intros N1 N2 Fr n i I. rewrite !map_app in *.
    destruct Rc as [Rc|(n0 & i0 & Rc)]; rewrite Rc in *; cbn [map app] in *.
    + rewrite (R0 eq_refl) in *. apply R2; assumption.
    + inversion N1 as [|? ? A1 A2]; inversion N2 as [|? ? B1 B2]; subst.
      destruct (Fr n0 i0 (or_introl eq_refl)) as [F1 F2]. destruct (R1 _ _ eq_refl F1 F2) as [M0 Mo].
      destruct I as [I|I]; [injection I as <- <-; apply K2, M0|].
      apply R2; try assumption. intros m j J. destruct (Fr m j (or_intror J)) as [X1 X2].
      assert (m <> n0).
      { intros ->. apply A1. apply in_map_iff. exists (n0, j). auto. }
      split; [rewrite Mo by assumption; exact X1|]. intros [q Q]. unfold number_of in Q.
      destruct (string_dec q n0) as [->|Nq].
      * rewrite M0 in Q. injection Q as <-. apply B1. apply in_map_iff. exists (m, i0). auto.
      * rewrite Mo in Q by exact Nq. apply X2. exists q. exact Q.
Qed.

(** ** The whole *)
Lemma C69_lemma sf re cb b c :
  dbus_init sf re cb = Ok (b, c) ->
  exists resp bus objs number,
    cb_subtree cb = Some resp /\ searched resp bus /\ reads cb resp objs /\
    one_to_one number /\ requests_granted objs number /\
    as_configured (Setting sf re resp bus (cb_thresholds cb)) (parts objs) number c /\
    (b = true <-> l_pids c <> [] /\ l_zones c <> []).
Proof.
  intros E. unfold dbus_init in E. destruct (cb_subtree cb) as [resp|] eqn:Sb; [|discriminate].
  assert (Hr : exists x r, resp = x :: r) by (destruct resp; [discriminate|eexists; eexists; reflexivity]).
  assert (E' : (let '(owners, sensors) := scan resp in
      do confs <- gather (cb_managed cb) owners;
      do selected <- match cb_profiles cb with Some l => Ok l | None => Throw "Failure getting profile" end;
      do confs <- apply_profiles selected confs;
      do st <- read_objects (ConfigEnv sf re (cb_thresholds cb) sensors) confs;
      Ok (match r_pids st, r_zones st with [], _ | _, [] => false | _, _ => true end,
          MkLoaded (r_sensors st) (r_pids st) (r_zones st))) = Ok (b, c))
    by (destruct Hr as (x & r & ->); exact E).
  clear E. rename E' into E. destruct (scan resp) as [owners sensors] eqn:Sc.
  apply bind_ok in E. destruct E as (confs & Eg & E). apply bind_ok in E. destruct E as (selected & Esel & E).
  apply bind_ok in E. destruct E as (objs & Ea & E). apply bind_ok in E. destruct E as (st & Est & E).
  injection E as <- <-. destruct (cb_profiles cb) as [sel|] eqn:Pr; [|discriminate]. injection Esel as ->.
  unfold read_objects in Est. apply bind_ok in Est. destruct Est as (f0 & Ef & Est).
  apply flatten_objects in Est.
  set (w := Setting sf re resp (bus_of resp) (cb_thresholds cb)).
  assert (Ce : ConfigEnv sf re (cb_thresholds cb) sensors = ce_of w).
  { unfold ce_of, sensors_of. cbn [w s_flags s_regex s_thresholds s_resp]. rewrite Sc. reflexivity. }
  rewrite Ce in Est. destruct (reserve_ok _ _ _ good_nil Ef) as (G0 & _ & R0).
  assert (Bo : s_bus w = bus_of (s_resp w)) by reflexivity.
  destruct (acts_found w Bo (parts objs) (MkReading f0 [] [] []) st G0 Est) as (G1 & K1). cbn [r_found] in G0, K1.
  exists resp, (bus_of resp), objs, (fun n => mget n (r_found st)).
  split; [reflexivity|]. split; [apply searched_bus|]. split.
  { eapply reads_ok; [rewrite Sc; exact Eg|exact Pr|exact Ea]. }
  split; [intros x y i; apply G1|]. split.
  { intros N1 N2 n i I. apply K1. apply (R0 N1 N2); [|exact I]. intros m j _. split; [reflexivity|].
    intros [q Q]. discriminate. }
  split.
  - apply (acts_ok w Bo (fun n => mget n (r_found st)) (parts objs) [] (MkReading f0 [] [] []) st); try assumption.
    + apply start_ok.
    + intros n i M. exact M.
  - cbn [l_pids l_zones]. destruct (r_pids st), (r_zones st); (split; [intros Q|intros [X Y]]);
      try discriminate; try congruence. split; discriminate.
Qed.
