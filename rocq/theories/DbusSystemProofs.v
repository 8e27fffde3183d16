(** * From a configuration on D-Bus to a running daemon. *)
From Coq Require Import ZArith Bool List String Lia Permutation.
From Verif Require Import Base BaseFacts Dbl DblFacts PidModel ZoneModel LoopModel BuilderModel SpecBuilder BuilderProofs
  SensorModel WriteModel SystemModel SpecSystem SystemProofs SystemProofs4 JsonModel SpecJson JsonProofs JsonSystemProofs
  ConfigModel DbusConfigModel SpecDbus SpecDbusSystem DbusProofs DbusProofs2 DbusProofs3 DbusProofs4 DbusProofs5.
Import ListNotations.
Local Open Scope string_scope.

Section Served.
  Variables (sf : sflags) (pow10 : Z -> dbl) (sb : sensor_bus) (bus_ok : string -> bool).
  Variables (w : setting) (ps : list part) (number : string -> option Z) (c : loaded).
  Hypothesis Ac : as_configured w ps number c.
  Hypothesis Bus : forall i n, bus_ok (getControlPath i) = true /\ bus_ok (getPidControlPath i n) = true.
  Hypothesis Zd : zones_described ps.
  Hypothesis Cs : classes_served ps.
  Hypothesis Fa : fans_apart w ps.
  Hypothesis Ss : sensors_served sf pow10 sb w ps.

  Lemma sensor_known n s : sensor_entry w ps n s -> known_type (sc_type s).
  Proof.
    intros [(props & zone & missing & path & H & _)|H].
    - destruct H as [(I & C & _)|(_ & -> & _)]; [|right; left; reflexivity]. apply (Cs _ _ _ I C).
    - destruct H as (props & zone & missing & sources & _ & _ & -> & _). left. reflexivity.
  Qed.
  Lemma loaded_readable n s : mget n (l_sensors c) = Some s -> readable (l_sensors c) n.
  Proof.
    intros G. pose proof (ac_sensors _ _ _ _ Ac n s G) as E. exists s. split; [apply mget_In, G|].
    split; [eapply sensor_known, E|]. left. apply (Ss _ _ E).
  Qed.

  (** The part an entry comes from. *)
  Lemma entry_inputs i pids n info : In (i, pids) (l_pids c) -> In (n, info) pids ->
    ci_inputs info <> [] /\
    (forall x, In x (ci_inputs info) -> readable (l_sensors c) (si_name x)) /\
    (ci_type info = "fan" -> forall x, In x (ci_inputs info) -> writable (l_sensors c) (si_name x)) /\
    (ci_type info = "margin" -> forall x, In x (ci_inputs info) -> si_convertTempToMargin x = true ->
       dfinite (si_convertMarginZero x)).
  Proof.
    intros I J. destruct (ac_order _ _ _ _ Ac) as (_ & Oz & _ & Op).
    apply in_order_z_get in I; [|exact Oz]. apply sorted_In_mget in J; [|eapply Op, I].
    assert (Kn : forall x, In x (ci_inputs info) -> exists s, mget (si_name x) (l_sensors c) = Some s).
    { intros x X. eapply (ac_inputs _ _ _ _ Ac); eassumption. }
    destruct (ac_pids _ _ _ _ Ac i pids n info I J) as (before & p & after & Ep & F & _).
    assert (Ip : In p ps) by (rewrite Ep; apply in_app_iff; right; left; reflexivity).
    assert (Mk : forall names margins acc l, inputs_marked names margins acc l -> names <> [] -> l <> []).
    { intros names margins acc l [M _] N E. subst l. cbn in M. congruence. }
    assert (Rd : forall x, In x (ci_inputs info) -> readable (l_sensors c) (si_name x)).
    { intros x X. destruct (Kn x X) as (s & G). eapply loaded_readable, G. }
    destruct p as [props|props zone|props zone]; cbn [entry_from] in F.
    - destruct F.
    - destruct F as (_ & Pi & name & names & margins & acc & l & _ & Nm & Ne & Tm & _ & M & H).
      assert (Ct : says_text props "Class" (ci_type info)) by apply Pi.
      destruct (Cs _ _ _ Ip Ct) as (_ & Pl & Mf).
      split; [|split; [exact Rd|split]].
      + destruct (mget "SetPointOffset" props).
        * destruct H as (ty & s & r & first & c0 & input & earlier & _ & _ & _ & _ & -> & _). destruct earlier; discriminate.
        * destruct H as (_ & -> & _). eapply Mk; eassumption.
      + intros Tf x X. rewrite (Pl (or_introl Tf)) in H. destruct H as (_ & El & _).
        destruct (Kn x X) as (s & G). exists s. split; [apply mget_In, G|].
        destruct (ac_sensors _ _ _ _ Ac _ _ G) as [T|T]; [exfalso|destruct T as (? & ? & ? & ? & _ & _ & T & _); exact T].
        rewrite Tf in Ct. destruct Nm as (class & missing & sources & short & C' & Src & Sh & En).
        assert (class = "fan") by (eapply says_text_unique; eassumption). subst class.
        assert (missing = []).
        { destruct Src as (cl & ins & ac & ls & S1 & _ & _ & _ & _ & [(_ & Q & _)|(Q & _)]); [exact Q|].
          exfalso. apply Q. eapply says_text_unique; eassumption. }
        subst missing. cbn [app] in En. subst short. destruct M as [M _]. rewrite El in X.
        assert (In (si_name x) names) by (rewrite <- M; apply in_map, X).
        assert (Sx : exists e, In e sources /\ fan_name e (si_name x)).
        { clear - Sh H. induction Sh as [|e n r rs A _ IH]; [destruct H|]. destruct H as [<-|H].
          - exists e. split; [left; reflexivity|exact A].
          - destruct (IH H) as (e' & Ie & Fe). exists e'. split; [right; exact Ie|exact Fe]. }
        destruct Sx as (e & Ie & Fe). exact (Fa _ _ _ _ _ _ _ Ip Ct Src Ie Fe T).
      + intros Tg x X Cv. rewrite (Pl (or_intror Tg)) in H. destruct H as (_ & El & _). rewrite El in X.
        apply In_nth_error in X. destruct X as (k & X). destruct M as [_ M]. destruct (M _ _ X) as (_ & Z).
        destruct (nth_error margins k) as [z|] eqn:Ez; [|congruence]. destruct Z as (_ & ->).
        specialize (Mf Tg margins Tm). rewrite Forall_forall in Mf. apply Mf. eapply nth_error_In, Ez.
    - destruct F as (_ & Si & _ & _ & names & margins & acc & Nm & Ne & Tm & _ & M).
      assert (Ty : ci_type info = "stepwise") by apply Si.
      split; [eapply Mk; eassumption|]. split; [exact Rd|]. split; intros Q; rewrite Ty in Q; discriminate Q.
  Qed.

  Lemma dbus_served i pids : In (i, pids) (l_pids c) -> pids_served (l_sensors c) pids.
  Proof.
    intros I. split; [|split; [|split]].
    - intros [n info] J _. apply (entry_inputs _ _ _ _ I J).
    - intros [n info] x J T X. apply (entry_inputs _ _ _ _ I J); assumption.
    - intros n ([n' info] & J & _ & N). unfold names_of in N. apply in_map_iff in N. destruct N as (x & <- & X).
      apply (entry_inputs _ _ _ _ I J). exact X.
    - intros n ([n' info] & J & T & N). unfold names_of in N. apply in_map_iff in N. destruct N as (x & <- & X).
      unfold is_fan_pid in T. cbn [snd] in *. apply String.eqb_eq in T.
      split; apply (entry_inputs _ _ _ _ I J); assumption.
  Qed.
  Lemma dbus_sensors_buildable : Forall (buildable_sensor sf pow10 sb) (l_sensors c) /\ own_objects (l_sensors c).
  Proof.
    assert (G : forall n s, In (n, s) (l_sensors c) -> bus_path (sc_readPath s) /\ buildable_sensor sf pow10 sb (n, s)).
    { intros n s I. apply sorted_In_mget in I; [|apply Ac]. apply Ss. apply (ac_sensors _ _ _ _ Ac), I. }
    split.
    - apply Forall_forall. intros [n s] I. apply G. exact I.
    - unfold own_objects. induction (l_sensors c) as [|[n s] r IH]; constructor.
      + apply Forall_forall. intros e _ (_ & _ & X). cbn [snd] in X. destruct (G n s (or_introl eq_refl)) as ((_ & Y & _) & _). contradiction.
      + apply IH. intros n' s' I. apply G. right. exact I.
  Qed.
  Lemma dbus_zones_buildable e : In e (l_pids c) -> buildable bus_ok (l_zones c) e.
  Proof.
    destruct e as [i pids]. intros I. cbn [buildable fst snd]. split; [|split].
    - cbn [fst]. assert (G : zget i (l_pids c) = Some pids) by (apply in_order_z_get; [apply Ac|exact I]).
      destruct (proj1 (ac_pid_zones _ _ _ _ Ac i) (ex_intro _ _ G)) as (props & zone & P & N).
      destruct (Zd _ _ P) as (z & Iz & Nz). destruct (ac_zone_known _ _ _ _ Ac _ _ Iz Nz) as (j & zc & Nj & Gj).
      assert (j = i) by congruence. subst j. exists zc. exact Gj.
    - apply (Bus i "").
    - intros [n info] J _. split; [apply (entry_inputs _ _ _ _ I J)|apply (Bus i n)].
  Qed.
End Served.

Lemma C72_lemma f sf pow10 sb bus_ok failures first devices re cb :
  complete sf re cb -> daemon_served sf re cb pow10 sb bus_ok ->
  exists b c m built,
    dbus_init sf re cb = Ok (b, c) /\ buildSensors sf pow10 sb (l_sensors c) = Ok m /\
    buildZones bus_ok (l_pids c) (l_zones c) = Ok built /\
    forall zs, Permutation (map snd zs) (map snd built) ->
      Forall (fun e => files_ok sb (l_sensors c) (st_files (fst e)) /\ tuning_readable f (st_tune (fst e))) zs ->
      exists s0, sys_start f m failures (host_initial first) devices zs = Ok s0 /\
        forall evs, Forall (served f sb (l_sensors c)) evs -> returns_or_bad_command (sys_run f sf pow10 evs s0).
Proof.
  intros C (Bus & D). destruct (C70_lemma _ _ _ C) as (b & c & E).
  destruct (C69_lemma _ _ _ _ _ E) as (resp & bus & objs & number & Sb & Se & Rd & _ & _ & Ac & _).
  destruct (D _ _ _ Sb Se Rd) as (Zd & Cs & Fa & Ss).
  destruct (proj2 (C60_fails_lemma sf pow10 sb (l_sensors c)) (dbus_sensors_buildable _ _ _ _ _ _ _ Ac Ss)) as (m & Em).
  destruct (proj2 (buildZones_returns bus_ok (l_zones c) (l_pids c))
    (dbus_zones_buildable _ _ _ _ _ _ _ _ Ac Bus Zd Cs Fa Ss)) as (built & Eb).
  exists b, c, m, built. split; [exact E|]. split; [exact Em|]. split; [exact Eb|].
  intros zs L F.
  destruct (ac_order _ _ _ _ Ac) as (Os & Oz & _).
  assert (N : NoDup (map fst (l_pids c))) by (apply in_order_z_nodup, Oz).
  assert (Nc : NoDup (map fst (l_sensors c))) by (apply in_order_nodup, Os).
  assert (Bf : built_from bus_ok (l_pids c) (l_zones c) zs) by (split; [exact N|]; exists built; split; assumption).
  assert (Sv : forall id pids, In (id, pids) (l_pids c) -> pids_served (l_sensors c) pids)
    by (intros id pids I; eapply (dbus_served sf pow10 sb); eassumption).
  destruct (C63_start_lemma f sf pow10 sb (l_sensors c) failures first devices _ bus_ok (l_pids c) (l_zones c) Bf Sv m Nc Em)
    as (s0 & E0 & R0).
  { rewrite Forall_forall in *. intros [st z] I. exact (F (st, z) I). }
  exists s0. split; [exact E0|]. intros evs Fe.
  exact (C63_lemma f sf pow10 sb (l_sensors c) failures first devices _ bus_ok (l_pids c) (l_zones c) Bf Sv [] s0 evs R0 Fe).
Qed.
