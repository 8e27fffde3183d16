(** * Proofs about IPMI requests: recovered sensors are reported (C103). *)
From Coq Require Import ZArith Bool List String Lia Permutation.
From Verif Require Import Base BaseFacts Dbl PidModel ZoneModel LoopModel BuilderModel SpecBuilder SpecZone ZoneFrame ZoneThermal ZoneFan ZoneProofs LoopProofs ReactionProofs ConfigModel SensorModel SpecSensor SensorProofs WriteModel SpecWrite
  SystemModel SpecSystem SystemProofs SystemProofs2 SystemProofs3 SystemProofs4 BuilderProofs BuilderRun JsonModel DbusConfigModel MainModel SpecMain MainProofs MainProofs2 ReloadModel SpecReload StartModel SpecStart StartProofs
  DaemonModel SpecDaemon DaemonProofs DaemonProofs2 DaemonProofs4 StopProofs StopProofs2 SpecLife LifeProofs LifeProofs2 IpmiModel RemoteModel SpecRemote RemoteProofs RemoteProofs2.
Import ListNotations.

(** ** One zone *)

Definition shows_good (e : tick_env) (s : string) : Prop :=
  (forall v, pe_sensor (tk_fan e) s = Some v -> bad_reason (Some (pe_now (tk_fan e), v)) = None) /\
  (forall v, pe_sensor (tk_therm e) s = Some v -> bad_reason (Some (pe_now (tk_therm e), v)) = None).

Definition polled_good (s : string) (tr : list event) : Prop := bad_reason (last_poll s tr) = None.

Lemma tick_good f e l l' z1 z2 s :
  auto_tick f e l l' z1 z2 -> shows_good e s ->
  polled_good s (z_trace (l_zone l)) \/ In s (z_fanInputs (l_zone l)) \/
    ((z_updateThermalsTimeMS (l_zone l) <= l_cycleCnt l)%Z /\ In s (z_thermalInputs (l_zone l))) ->
  polled_good s (z_trace (l_zone l')).
Proof.
  intros T (Bf & Bt) K. unfold polled_good. rewrite (tick_last _ _ _ _ _ _ s T).
  destruct (tick_sensors _ _ _ _ _ _ T) as (Sf & St).
  destruct ((z_updateThermalsTimeMS (l_zone l) <=? l_cycleCnt l)%Z &&
            smem s (z_thermalInputs (l_zone l)))%bool eqn:D.
  - apply andb_true_iff in D. destruct D as (D1 & D2). apply Z.leb_le in D1. apply smem_In in D2.
    destruct (St D1 _ D2) as (v & Ev). rewrite Ev. exact (Bt _ Ev).
  - destruct (smem s (z_fanInputs (l_zone l))) eqn:D2.
    + apply smem_In in D2. destruct (Sf _ D2) as (v & Ev). rewrite Ev. exact (Bf _ Ev).
    + destruct K as [K|[K|(K1 & K2)]]; [exact K| |].
      * apply smem_In in K. congruence.
      * apply Z.leb_le in K1. apply smem_In in K2. rewrite K1, K2 in D. discriminate.
Qed.

Lemma ticks_good f z0 s es : forall l l',
  reachable f z0 l -> z_manualMode (l_zone l) = false ->
  (1 <= z_cycleIntervalTimeMS z0 <= z_updateThermalsTimeMS z0)%Z ->
  (z_updateThermalsTimeMS z0 + z_cycleIntervalTimeMS z0 < uint64_mod)%Z ->
  is_input z0 s -> (forall e, In (LTick e) es -> shows_good e s) -> ~ In (LManual true) es ->
  loop_run f es l = Ok l' ->
  reachable f z0 l' /\ z_manualMode (l_zone l') = false /\
  (polled_good s (z_trace (l_zone l)) -> polled_good s (z_trace (l_zone l'))) /\
  (polled_good s (z_trace (l_zone l')) \/
   (l_cycleCnt l' >= l_cycleCnt l + Z.of_nat (ticks es) * z_cycleIntervalTimeMS z0)%Z).
Proof.
  unfold loop_run. induction es as [|ev r IH]; intros l l' R A B W I Sb Nm H.
  - cbn [foldM] in H. injection H as <-. cbn. repeat split; auto. right. lia.
  - cbn [foldM] in H. apply bind_ok in H. destruct H as (l1 & H1 & H2).
    assert (R1 : reachable f z0 l1) by (eapply (reachable_step _ _ _ ev); eauto).
    assert (A1 : z_manualMode (l_zone l1) = false).
    { assert (M := loop_step_mode _ ev _ _ H1). unfold mode in M. rewrite A in M.
      destruct ev as [e|b|n b]; cbn in M; try congruence.
      destruct b; [exfalso; apply Nm; left; reflexivity|congruence]. }
    destruct (IH l1 l' R1 A1 B W I (fun e' I' => Sb e' (or_intror I')) (fun K => Nm (or_intror K)) H2)
      as (R2 & A2 & P2 & Q2).
    split; [exact R2|]. split; [exact A2|].
    destruct (is_tick ev) eqn:Et.
    2: { destruct (setter_quiet _ _ _ _ s H1 Et) as (Etr & Ec & _). split.
         - intros P. apply P2. unfold polled_good. rewrite Etr. exact P.
         - unfold ticks in *. cbn [filter]. rewrite Et. rewrite <- Ec. exact Q2. }
    destruct ev as [e|b|n b]; [|discriminate|discriminate].
    destruct (tick_step f e l l1 H1 A) as (z1 & z2 & evs & T & TF).
    assert (Be : shows_good e s) by (apply Sb; left; reflexivity).
    split.
    { intros P. apply P2. eapply tick_good; eauto. }
    destruct Q2 as [Q2|Q2]; [auto|].
    assert (Ci := reachable_inv _ _ _ R). destruct Ci as (Ci & _).
    destruct (Z.le_gt_cases (z_updateThermalsTimeMS (l_zone l)) (l_cycleCnt l)) as [D|D].
    + left. apply P2. eapply tick_good; eauto. destruct I as [I|I].
      * right. left. use_conf Ci. exact I.
      * right. right. split; [exact D|]. use_conf Ci. exact I.
    + right. assert (K := at_cnt _ _ _ _ _ _ T).
      assert (E : (z_updateThermalsTimeMS (l_zone l) <=? l_cycleCnt l)%Z = false) by (apply Z.leb_gt; lia).
      rewrite E in K.
      assert (EF : z_cycleIntervalTimeMS (l_zone l) = z_cycleIntervalTimeMS z0) by (use_conf Ci; reflexivity).
      assert (ET : z_updateThermalsTimeMS (l_zone l) = z_updateThermalsTimeMS z0) by (use_conf Ci; reflexivity).
      assert (Cb := cnt_bound _ _ _ R B W). rewrite EF in K. rewrite ET in D.
      rewrite Z.mod_small in K by lia.
      unfold ticks in *. cbn [filter is_tick List.length]. rewrite Nat2Z.inj_succ. lia.
Qed.

Lemma last_good f z0 l es e l1 l' s :
  reachable f z0 l -> z_manualMode (l_zone l) = false ->
  (1 <= z_cycleIntervalTimeMS z0 <= z_updateThermalsTimeMS z0)%Z ->
  (z_updateThermalsTimeMS z0 + z_cycleIntervalTimeMS z0 < uint64_mod)%Z ->
  is_input z0 s -> (forall t, In (LTick t) (es ++ [LTick e]) -> shows_good t s) -> ~ In (LManual true) es ->
  (z_updateThermalsTimeMS z0 <= Z.of_nat (ticks es) * z_cycleIntervalTimeMS z0)%Z ->
  loop_run f es l = Ok l1 -> loop_step f l1 (LTick e) = Ok l' ->
  polled_good s (z_trace (l_zone l')).
Proof.
  intros R A B W I Sb Nm Ln H1 H2.
  destruct (ticks_good f z0 s es l l1 R A B W I
    (fun t It => Sb t (in_or_app _ _ _ (or_introl It))) Nm H1) as (R1 & A1 & _ & Q).
  destruct (tick_step _ _ _ _ H2 A1) as (z1 & z2 & evs & T & _).
  eapply tick_good; [exact T|apply Sb; apply in_or_app; right; left; reflexivity|].
  destruct Q as [Q|Q]; [left; exact Q|]. right.
  assert (Ci := reachable_inv _ _ _ R1). destruct Ci as (Ci & _).
  assert (Cb := cnt_bound _ _ _ R B W).
  assert (ET : z_updateThermalsTimeMS (l_zone l1) = z_updateThermalsTimeMS z0) by (use_conf Ci; reflexivity).
  destruct I as [I|I].
  - left. use_conf Ci. exact I.
  - right. split; [rewrite ET; lia|]. use_conf Ci. exact I.
Qed.

(** ** The system *)

Definition well_at (sf : sflags) (pow10 : Z -> dbl) (sb : sensor_bus) (failures : list string)
    (first : option string) (name : string) (info : SensorConfig) (evs : list sys_event) (now : Z) : Prop :=
  ~ bad_at sf pow10 sb failures first name info evs now /\
  ((exists t, updated_at sb name info evs t) \/ (sysfs_path (sc_readPath info) /\ (0 <= sc_timeout info)%Z)).

Lemma sysfs_seen f sf pow10 sb config failures first devices zs evs s name info files now v :
  runs f sf pow10 sb config failures first devices zs evs s ->
  In (name, info) config -> known_type (sc_type info) -> sysfs_path (sc_readPath info) ->
  pe_sensor (view_env s files now) name = Some v ->
  sv_timeout v = sc_timeout info /\ sv_updated v = now /\ sv_failed v = false.
Proof.
  intros R I K Sp E. destruct (runs_sensor _ _ _ _ _ _ _ _ _ _ _ _ _ R I K) as (x0 & x & S0 & Ex & C & Fl & Pw).
  assert (N : ~ bus_path (sc_readPath info) /\ ~ external_path (sc_readPath info)).
  { unfold bus_path, external_path, sysfs_path in *. destruct Sp as (A & B & D). split; [tauto|].
    intros (_ & E'). apply B. apply ext_contains. exact E'. }
  destruct S0 as (_ & S0). destruct x0 as [t rd w i|t i h]; [|tauto].
  destruct S0 as (_ & -> & -> & Rd & _). destruct rd as [p0 red|q| |]; cbn in Rd; try tauto.
  cbn [core] in C. apply sysfs_core in C.
  destruct x as [t' r' w' i'|t' i' h']; cbn in C; [|discriminate]. injection C as -> -> _ ->.
  cbn [view_env pe_sensor] in E. rewrite Ex in E. cbn [sensor_poll reader_read] in E. destruct (files q); cbn in E; try discriminate E.
  injection E as <-. cbn. auto.
Qed.

Lemma well_seen f sf pow10 sb config failures first devices zs evs s name info files now v :
  runs f sf pow10 sb config failures first devices zs evs s ->
  In (name, info) config -> known_type (sc_type info) ->
  well_at sf pow10 sb failures first name info evs now ->
  pe_sensor (view_env s files now) name = Some v -> bad_reason (Some (now, v)) = None.
Proof.
  intros R I K (Nb & Wl) E. unfold bad_reason. destruct Wl as [(t & U)|(Sp & T0)].
  - assert (F : sv_failed v = false).
    { destruct (sv_failed v) eqn:F; [|reflexivity]. exfalso. apply Nb. destruct U as [(Bp & _)|(Ep & Nf & _)].
      - left. destruct (C61_lemma _ _ _ _ _ _ _ _ _ _ _ _ _ files now R I K Bp) as (v' & E' & _ & F').
        assert (v' = v) by congruence. subst v'. apply F' in F. destruct F as (F1 & F2). auto.
      - right. left. destruct (C61_external_lemma _ _ _ _ _ _ _ _ _ _ _ _ _ files now R I K Ep Nf) as (v' & E' & _ & _ & _ & _ & F').
        assert (v' = v) by congruence. subst v'. apply F' in F. split; [exact Ep|]. split; [exact Nf|]. rewrite <- F. f_equal. clear.
        induction (host_values name evs) as [|e h IH] using rev_ind; [reflexivity|]. rewrite !latest_snoc. destruct e; reflexivity. }
    rewrite F. destruct (C61_age_lemma _ _ _ _ _ _ _ _ _ _ _ _ _ files now _ R I K U) as (v' & E' & A1 & A2).
    assert (v' = v) by congruence. subst v'. unfold timed_out. rewrite A1, A2.
    destruct (Z.eqb_spec (sc_timeout info) 0) as [X|X]; [reflexivity|]. cbn [negb andb].
    destruct (Z.leb_spec (sc_timeout info) (Z.quot (now - t) 1000000000)) as [Y|Y]; [|reflexivity].
    exfalso. apply Nb. right. right. exists t. auto.
  - destruct (sysfs_seen _ _ _ _ _ _ _ _ _ _ _ _ _ _ _ _ R I K Sp E) as (A1 & A2 & A3). rewrite A3. unfold timed_out. rewrite A1, A2, Z.sub_diag.
    destruct (Z.eqb_spec (sc_timeout info) 0) as [X|X]; [reflexivity|]. cbn [negb andb].
    change (Z.quot 0 1000000000) with 0%Z. destruct (Z.leb_spec (sc_timeout info) 0) as [Y|Y]; [lia|reflexivity].
Qed.

Lemma recovered_seen f sf pow10 sb config failures first devices zs evs s mid s1 i w s2 st z0 :
  runs f sf pow10 sb config failures first devices zs evs s ->
  sys_run f sf pow10 mid s = Ok s1 -> sys_step f sf pow10 s1 (STick i w) = Ok s2 ->
  nth_error zs i = Some (st, z0) -> is_manual i evs = false -> ~ In (SManual i true) mid ->
  (1 <= z_cycleIntervalTimeMS z0 <= z_updateThermalsTimeMS z0)%Z ->
  (z_updateThermalsTimeMS z0 + z_cycleIntervalTimeMS z0 < uint64_mod)%Z ->
  (z_updateThermalsTimeMS z0 <= Z.of_nat (wakes i mid) * z_cycleIntervalTimeMS z0)%Z ->
  (forall name, is_input z0 name -> ~ acceptable z0 name -> exists info, In (name, info) config /\ known_type (sc_type info) /\
     forall pre w' post, (mid ++ [STick i w])%list = (pre ++ STick i w' :: post)%list ->
     well_at sf pow10 sb failures first name info (evs ++ pre) (wk_fan_now w') /\
     well_at sf pow10 sb failures first name info (evs ++ pre) (wk_therm_now w')) ->
  exists l, nth_error (sy_loops s2) i = Some l /\ ~ some_failure (l_zone l).
Proof.
  intros R M H Ez Am Nm T1 T2 T3 Well.
  destruct (runs_zone _ _ _ _ _ _ _ _ _ _ _ _ _ _ R Ez) as (l & El & Rl & Ml). rewrite Am in Ml.
  destruct (run_loops _ _ _ _ _ _ _ _ M El) as (l1 & El1 & Rl1).
  assert (H' := H). cbn [sys_step] in H'. apply tick_split in H'.
  destruct H' as [(N & _)|(l0 & l2 & ls & k' & E0 & Hl & E1 & _ & _ & Es)]; [congruence|].
  assert (l0 = l1) by congruence. subst l0. rewrite <- Es in E1. exists l2. split; [exact E1|].
  assert (Nm' : ~ In (LManual true) (proj f sf pow10 i mid s)).
  { intros X. apply Nm. eapply proj_manual; eauto. }
  rewrite <- (proj_ticks _ _ _ _ _ _ _ M) in T3.
  assert (Rr : reachable f z0 l2).
  { destruct Rl as (env & te & now & l00 & es & F & S0 & S1). exists env, te, now, l00, (es ++ proj f sf pow10 i mid s ++ [LTick (tick_of s1 w)])%list.
    split; [exact F|]. split; [exact S0|]. rewrite loop_run_app, S1. cbn [bind]. rewrite loop_run_app, Rl1. cbn [bind]. unfold loop_run. cbn [foldM]. rewrite Hl. reflexivity. }
  intros (name & Fn). destruct (mget name (z_failSafeSensors (l_zone l2))) as [x|] eqn:Ex; [|congruence].
  assert (Fm := proj1 (fs_member f z0 l2 name Rr) (ex_intro _ x Ex)). destruct Fm as (Ip & Ac & Br). apply Br.
  destruct (Well name Ip Ac) as (info & In1 & Kt & Wl).
  apply (last_good f z0 l (proj f sf pow10 i mid s) (tick_of s1 w) l1 l2 name Rl Ml T1 T2 Ip); try assumption.
  assert (One : forall pre w' post sp, (mid ++ [STick i w])%list = (pre ++ STick i w' :: post)%list ->
    sys_run f sf pow10 pre s = Ok sp -> shows_good (tick_of sp w') name).
  { intros pre w' post sp E Rp'. destruct (Wl _ _ _ E) as (B1 & B2).
    assert (Rpre := runs_more _ _ _ _ _ _ _ _ _ _ _ _ _ R Rp'). unfold shows_good, tick_of. cbn [tk_fan tk_therm].
    split; intros v Hv; eapply well_seen; try exact Hv; eauto. }
  intros t Ht. apply in_app_or in Ht. destruct Ht as [Ht|[Ht|[]]].
  - destruct (proj_tick_in _ _ _ _ _ _ _ _ M Ht) as (pre & w' & post & sp & -> & Rp' & ->).
    apply (One pre w' (post ++ [STick i w])%list sp); [|exact Rp']. rewrite <- app_assoc. reflexivity.
  - injection Ht as <-. apply (One mid w [] s1); [reflexivity|exact M].
Qed.

Lemma recovered_configured f sf pow10 sb config failures first devices zs evs s mid s1 i w s2
    bus_ok zp confs built id pids c st z0 :
  runs f sf pow10 sb config failures first devices zs evs s ->
  sys_run f sf pow10 mid s = Ok s1 -> sys_step f sf pow10 s1 (STick i w) = Ok s2 ->
  NoDup (map fst zp) -> buildZones bus_ok zp confs = Ok built ->
  nth_error zs i = Some (st, z0) -> In (id, z0) built -> In (id, pids) zp -> zget id confs = Some c ->
  is_manual i evs = false -> ~ In (SManual i true) mid ->
  (1 <= zc_cycleIntervalTimeMS c <= zc_updateThermalsTimeMS c)%Z ->
  (zc_updateThermalsTimeMS c + zc_cycleIntervalTimeMS c < uint64_mod)%Z ->
  (zc_updateThermalsTimeMS c <= Z.of_nat (wakes i mid) * zc_cycleIntervalTimeMS c)%Z ->
  (forall name, listed_by is_fan_pid pids name \/ listed_by is_thermal_pid pids name -> ~ acceptable_in pids name ->
     exists info, In (name, info) config /\ known_type (sc_type info) /\
     forall pre w' post, (mid ++ [STick i w])%list = (pre ++ STick i w' :: post)%list ->
     well_at sf pow10 sb failures first name info (evs ++ pre) (wk_fan_now w') /\
     well_at sf pow10 sb failures first name info (evs ++ pre) (wk_therm_now w')) ->
  exists l, nth_error (sy_loops s2) i = Some l /\ ~ some_failure (l_zone l).
Proof.
  intros R M T Nd B Ez Jz J Zc Mi Mm Cy Up Wk Well.
  destruct (C49_structure _ _ _ _ B) as (_ & Zo). destruct (Zo Nd _ _ _ J Jz) as (c' & Zc' & Z).
  assert (c' = c) by congruence. subst c'.
  apply (recovered_seen f sf pow10 sb config failures first devices zs evs s mid s1 i w s2 st z0); try assumption.
  - rewrite (zo_cycle _ _ _ _ Z), (zo_update _ _ _ _ Z). exact Cy.
  - rewrite (zo_cycle _ _ _ _ Z), (zo_update _ _ _ _ Z). exact Up.
  - rewrite (zo_cycle _ _ _ _ Z), (zo_update _ _ _ _ Z). exact Wk.
  - intros name Ip Ac. apply Well.
    + destruct Ip as [Ip|Ip].
      * left. rewrite (zo_fanInputs _ _ _ _ Z) in Ip. apply in_flat_map in Ip. destruct Ip as (x & Ix & In'). apply filter_In in Ix. exists x. tauto.
      * right. apply (zo_thermalInputs _ _ _ _ Z). exact Ip.
    + intros A. apply Ac. apply (C59_lemma _ _ _ _ _ _ _ _ B Nd J Jz). exact A.
Qed.

Section Remote3.
Context (f : flags) (sf : sflags) (pow10 : Z -> dbl) (re : regex) (named : string).
Notation step := (daemon_step f sf pow10 re named).
Notation run := (daemon_run f sf pow10 re named).

Lemma bad_to_start sb failures first first' name info before a since now b :
  only_messages a = only_messages since -> only_messages before = only_messages b ->
  (host_initial first' = true <-> host_on first (host_changes b)) ->
  bad_at sf pow10 sb failures first' name info a now -> bad_since sf pow10 sb failures first name info before since now.
Proof.
  intros E Eb Hi B. apply (bad_same sf pow10 sb failures first' name info a since now E) in B. unfold bad_at in B. unfold bad_since.
  destruct B as [(B1 & B2 & B3)|[B|B]]; [left|right; left; exact B|right; right; exact B]. split; [exact B1|]. split; [exact B2|].
  intros Ig. specialize (B3 Ig). rewrite <- host_state_lemma in *. unfold host_changes. rewrite flat_map_app.
  fold (host_changes before) (host_changes since). rewrite (same_changes _ _ Eb), fold_left_app.
  apply bool_iff in Hi. rewrite <- Hi. exact B3.
Qed.

Lemma updated_same sb name info a b t : only_messages a = only_messages b -> updated_at sb name info a t -> updated_at sb name info b t.
Proof.
  intros E. assert (F : forall {A} (g : sys_event -> list A), (forall i w, g (STick i w) = []) -> flat_map g a = flat_map g b).
  { intros A g G. rewrite (flat_filter g G a), (flat_filter g G b), E. reflexivity. }
  assert (Hh : forall p, heard p a = heard p b) by (intros p; apply F; reflexivity).
  assert (Hv : host_values name a = host_values name b) by (apply F; reflexivity).
  unfold updated_at. rewrite Hh, Hv. exact (fun x => x).
Qed.

Lemma well_from_start sb failures first first' name info before a since now b :
  only_messages a = only_messages since -> only_messages before = only_messages b ->
  (host_initial first' = true <-> host_on first (host_changes b)) ->
  well_since sf pow10 sb failures first name info before since now -> well_at sf pow10 sb failures first' name info a now.
Proof.
  intros E Eb Hi (Nb & W). split.
  - intros B. apply Nb. exact (bad_to_start sb failures first first' name info before a since now b E Eb Hi B).
  - destruct W as [(t & U)|W]; [left|right; exact W]. exists t. exact (updated_same sb name info since a t (eq_sym E) U).
Qed.

Lemma recovered_reported first devices pre w k post mid w' k' da d1 d d2 d3 z i c pids zc others sends rest :
  Forall ordered (pre ++ DRun w k :: post ++ mid ++ [DRun w' k']) ->
  calm f sf pow10 re named (pre ++ DRun w k :: post ++ mid ++ [DRun w' k']) (daemon_init first devices) ->
  run pre (daemon_init first devices) = Ok da -> next_is (ORestart false) da -> step da (DRun w k) = Ok d1 -> loop_stops d1 <> loop_stops da ->
  read_configuration sf re named (su_disk w) (su_config w) = Ok (Loaded c) ->
  run post d1 = Ok d -> run mid d = Ok d2 -> next_is (OLoop z false) d2 -> step d2 (DRun w' k') = Ok d3 -> going d3 -> loop_stops d3 = loop_stops d1 ->
  nth_error (dm_ids d) i = Some z -> In (fst z, pids) (l_pids c) -> zget (fst z) (l_zones c) = Some zc ->
  is_manual i (messages post) = false -> ~ In (DSys (SManual i true)) mid ->
  (1 <= zc_cycleIntervalTimeMS zc <= zc_updateThermalsTimeMS zc)%Z ->
  (zc_updateThermalsTimeMS zc + zc_cycleIntervalTimeMS zc < uint64_mod)%Z ->
  (zc_updateThermalsTimeMS zc <= Z.of_nat (cycles_of z d2 - cycles_of z d) * zc_cycleIntervalTimeMS zc)%Z ->
  (forall name, listed_by is_fan_pid pids name \/ listed_by is_thermal_pid pids name -> ~ acceptable_in pids name ->
     exists info, In (name, info) (l_sensors c) /\ known_type (sc_type info) /\
     forall m1 wi ki m2 dm, mid ++ [DRun w' k'] = m1 ++ DRun wi ki :: m2 -> run m1 d = Ok dm -> next_is (OLoop z false) dm ->
     let well := well_since sf pow10 (seen (dm_exports da) (su_sensors w)) (known_failures w (dm_sys da)) first name info (messages pre) (messages (post ++ m1)) in
     well (wk_fan_now ki) /\ well (wk_therm_now ki)) ->
  (0 <= fst z < 128)%Z ->
  let x := answer others sends d3 (2%Z :: fst z :: rest) in rp_code x = Ok 0%Z /\ rp_data x = Some 0%Z.
Proof.
  intros Or Ca Ha Nx H1 Ns Er H2 H3 Nl H4 G Q Ei Jp Zc Mi Mm Cy Up Wk Well Lo.
  destruct (last_run f sf pow10 re named first devices pre w k post mid w' k' da d1 d d2 d3 z i c Or Ca Ha Nx H1 Ns Er H2 H3 Nl H4 G Q Ei)
    as (first' & devs & zs & lp & sd & lm & sd2 & built & st & z0 & R & Rd2 & Rd3 & Np & Eb & Ez & Iz & Ma & Mb & Wq & Hst & Ti & Sp3 & Nr & Nu).
  assert (Fx : exists l, nth_error (sy_loops (dm_sys d3)) i = Some l /\ ~ some_failure (l_zone l)); cycle 1.
  { destruct Fx as (l & El & Fa). destruct (answers_zone others sends d3 (fst z) rest i (l_zone l) Lo Sp3) as (_ & _ & X1 & X2).
    { apply zone_at_unique; [exact Nr|exact El|exact (Nu _ El)]. }
    cbv zeta. split; [exact X1|]. rewrite X2. rewrite <- failsafe_some in Fa. destruct (getFailSafeMode (l_zone l)); [elim Fa|]; reflexivity. }
  refine (recovered_configured f sf pow10 (seen (dm_exports da) (su_sensors w)) (l_sensors c) (known_failures w (dm_sys da)) first' devs zs lp sd lm sd2 i k' (dm_sys d3)
    (su_bus_ok w) (l_pids c) (l_zones c) built (fst z) pids zc st z0 R Rd2 Rd3 Np Eb Ez Iz Jp Zc _ _ Cy Up _ _).
  - rewrite Ma. exact Mi.
  - intros I. exact (Mm (Mb I)).
  - rewrite Wq. exact Wk.
  - intros name Li Ac. destruct (Well name Li Ac) as (info & Inm & Kn & Wl). exists info. split; [exact Inm|]. split; [exact Kn|].
    intros p wq q Eq. destruct (Ti p wq q Eq) as (m1 & w0 & m2 & dm & Em & Q1 & Ny & Eo). destruct (Wl m1 w0 wq m2 dm Em Q1 Ny) as (B1 & B2).
    split; [exact (well_from_start _ _ _ _ _ _ _ _ _ _ _ Eo eq_refl Hst B1)|exact (well_from_start _ _ _ _ _ _ _ _ _ _ _ Eo eq_refl Hst B2)].
Qed.
End Remote3.
