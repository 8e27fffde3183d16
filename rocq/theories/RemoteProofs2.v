(** * Proofs about IPMI requests: failing sensors are reported (C102). *)
From Coq Require Import ZArith Bool List String Lia Permutation.
From Verif Require Import Base BaseFacts Dbl PidModel ZoneModel LoopModel BuilderModel SpecBuilder SpecZone ZoneFrame ZoneProofs LoopProofs ReactionProofs ConfigModel SensorModel SpecSensor SensorProofs WriteModel SpecWrite
  SystemModel SpecSystem SystemProofs SystemProofs2 SystemProofs3 SystemProofs4 BuilderProofs BuilderRun JsonModel DbusConfigModel MainModel SpecMain MainProofs MainProofs2 ReloadModel SpecReload StartModel SpecStart StartProofs
  DaemonModel SpecDaemon DaemonProofs DaemonProofs2 DaemonProofs4 StopProofs StopProofs2 SpecLife LifeProofs LifeProofs2 IpmiModel RemoteModel SpecRemote RemoteProofs.
Import ListNotations.

(** Zones keep their numbers. *)
Lemma loop_number f sf pow10 sb config failures first devices zs evs s i st z0 l :
  runs f sf pow10 sb config failures first devices zs evs s -> nth_error zs i = Some (st, z0) -> nth_error (sy_loops s) i = Some l ->
  z_zoneId (l_zone l) = z_zoneId z0.
Proof.
  intros R Ez El. destruct (loop_source _ _ _ _ _ _ _ _ _ _ _ _ _ R El) as (st' & z' & Ez' & Re). assert (z' = z0) by congruence. subst z'.
  destruct Re as (env & te & now & l0 & le & Fr0 & Ls & Lr). apply loop_start_frame in Ls. destruct Ls as (C0 & _).
  assert (C : conf (l_zone l) = conf (l_zone l0)).
  { clear - Lr. revert l0 Lr. unfold loop_run. induction le as [|x r IH]; intros l0 Lr; cbn [foldM] in Lr; [injection Lr as ->; reflexivity|].
    apply bind_ok in Lr. destruct Lr as (lm & X & Lr). destruct (loop_step_conf _ _ _ _ X) as (Cx & _). rewrite (IH _ Lr). exact Cx. }
  assert (C2 : conf (l_zone l) = conf z0) by congruence. use_conf C2. reflexivity.
Qed.

(** The first half of C62: the sensor counts as failing. *)
Lemma failing_seen f sf pow10 sb config failures first devices zs evs s mid s1 i w s2 st z0 name info :
  runs f sf pow10 sb config failures first devices zs evs s ->
  sys_run f sf pow10 mid s = Ok s1 -> sys_step f sf pow10 s1 (STick i w) = Ok s2 ->
  nth_error zs i = Some (st, z0) -> is_manual i evs = false -> ~ In (SManual i true) mid ->
  (1 <= z_cycleIntervalTimeMS z0 <= z_updateThermalsTimeMS z0)%Z ->
  (z_updateThermalsTimeMS z0 + z_cycleIntervalTimeMS z0 < uint64_mod)%Z ->
  (z_updateThermalsTimeMS z0 <= Z.of_nat (wakes i mid) * z_cycleIntervalTimeMS z0)%Z ->
  In (name, info) config -> known_type (sc_type info) -> is_input z0 name -> ~ acceptable z0 name ->
  (forall pre w' post, (mid ++ [STick i w])%list = (pre ++ STick i w' :: post)%list ->
     bad_at sf pow10 sb failures first name info (evs ++ pre) (wk_fan_now w') /\
     bad_at sf pow10 sb failures first name info (evs ++ pre) (wk_therm_now w')) ->
  exists l, nth_error (sy_loops s2) i = Some l /\ some_failure (l_zone l).
Proof.
  intros R M H Ez Am Nm T1 T2 T3 In1 Kt Ip Ac Bad.
  destruct (runs_zone _ _ _ _ _ _ _ _ _ _ _ _ _ _ R Ez) as (l & El & Rl & Ml). rewrite Am in Ml.
  destruct (run_loops _ _ _ _ _ _ _ _ M El) as (l1 & El1 & Rl1).
  assert (H' := H). cbn [sys_step] in H'. apply tick_split in H'.
  destruct H' as [(N & _)|(l0 & l2 & ls & k' & E0 & Hl & E1 & _ & _ & Es)]; [congruence|].
  assert (l0 = l1) by congruence. subst l0. rewrite <- Es in E1. exists l2. split; [exact E1|].
  assert (Nm' : ~ In (LManual true) (proj f sf pow10 i mid s)).
  { intros X. apply Nm. eapply proj_manual; eauto. }
  assert (Sb : forall t, In (LTick t) (proj f sf pow10 i mid s ++ [LTick (tick_of s1 w)])%list -> shows_bad t name).
  { assert (One : forall pre w' post sp, (mid ++ [STick i w])%list = (pre ++ STick i w' :: post)%list ->
      sys_run f sf pow10 pre s = Ok sp -> shows_bad (tick_of sp w') name).
    { intros pre w' post sp E Rp'. destruct (Bad _ _ _ E) as (B1 & B2).
      assert (Rpre := runs_more _ _ _ _ _ _ _ _ _ _ _ _ _ R Rp'). unfold shows_bad, tick_of. cbn [tk_fan tk_therm].
      split; intros v Hv; eapply bad_seen; try exact Hv; eauto. }
    intros t Ht. apply in_app_or in Ht. destruct Ht as [Ht|[Ht|[]]].
    - destruct (proj_tick_in _ _ _ _ _ _ _ _ M Ht) as (pre & w' & post & sp & -> & Rp' & ->).
      apply (One pre w' (post ++ [STick i w])%list sp); [|exact Rp']. rewrite <- app_assoc. reflexivity.
    - injection Ht as <-. apply (One mid w [] s1); [reflexivity|exact M]. }
  rewrite <- (proj_ticks _ _ _ _ _ _ _ M) in T3.
  destruct (C51_failing f z0 l (proj f sf pow10 i mid s) (tick_of s1 w) l1 l2 name Rl Ml T1 T2 Ip Ac Sb Nm' T3 Rl1 Hl) as (_ & _ & x & Ex).
  exists name. congruence.
Qed.

Lemma failing_configured f sf pow10 sb config failures first devices zs evs s mid s1 i w s2
    bus_ok zp confs built id pids c st z0 name info :
  runs f sf pow10 sb config failures first devices zs evs s ->
  sys_run f sf pow10 mid s = Ok s1 -> sys_step f sf pow10 s1 (STick i w) = Ok s2 ->
  NoDup (map fst zp) -> buildZones bus_ok zp confs = Ok built ->
  nth_error zs i = Some (st, z0) -> In (id, z0) built -> In (id, pids) zp -> zget id confs = Some c ->
  is_manual i evs = false -> ~ In (SManual i true) mid ->
  (1 <= zc_cycleIntervalTimeMS c <= zc_updateThermalsTimeMS c)%Z ->
  (zc_updateThermalsTimeMS c + zc_cycleIntervalTimeMS c < uint64_mod)%Z ->
  (zc_updateThermalsTimeMS c <= Z.of_nat (wakes i mid) * zc_cycleIntervalTimeMS c)%Z ->
  In (name, info) config -> known_type (sc_type info) ->
  listed_by is_fan_pid pids name \/ listed_by is_thermal_pid pids name -> ~ acceptable_in pids name ->
  (forall pre w' post, (mid ++ [STick i w])%list = (pre ++ STick i w' :: post)%list ->
     bad_at sf pow10 sb failures first name info (evs ++ pre) (wk_fan_now w') /\
     bad_at sf pow10 sb failures first name info (evs ++ pre) (wk_therm_now w')) ->
  exists l, nth_error (sy_loops s2) i = Some l /\ some_failure (l_zone l).
Proof.
  intros R M T Nd B Ez Jz J Zc Mi Mm Cy Up Wk Inm Kn Li Ac Bad.
  destruct (C49_structure _ _ _ _ B) as (_ & Zo). destruct (Zo Nd _ _ _ J Jz) as (c' & Zc' & Z).
  assert (c' = c) by congruence. subst c'.
  apply (failing_seen f sf pow10 sb config failures first devices zs evs s mid s1 i w s2 st z0 name info); try assumption.
  - rewrite (zo_cycle _ _ _ _ Z), (zo_update _ _ _ _ Z). exact Cy.
  - rewrite (zo_cycle _ _ _ _ Z), (zo_update _ _ _ _ Z). exact Up.
  - rewrite (zo_cycle _ _ _ _ Z), (zo_update _ _ _ _ Z). exact Wk.
  - destruct Li as [(x & I1 & I2 & I3)|Li].
    + left. rewrite (zo_fanInputs _ _ _ _ Z). apply in_flat_map. exists x. split; [apply filter_In; auto|exact I3].
    + right. apply (zo_thermalInputs _ _ _ _ Z). exact Li.
  - intros A. apply Ac. apply (C59_lemma _ _ _ _ _ _ _ _ B Nd J Jz). exact A.
Qed.

Section Remote2.
Context (f : flags) (sf : sflags) (pow10 : Z -> dbl) (re : regex) (named : string).
Notation step := (daemon_step f sf pow10 re named).
Notation run := (daemon_run f sf pow10 re named).
Notation passes_on := (passes_on f sf pow10 re named).
Notation run_ids := (run_ids f sf pow10 re named).
Notation same_start := (same_start f sf pow10 re named).
Notation passed_run := (passed_run f sf pow10 re named).
Notation passed_parts := (passed_parts f sf pow10 re named).
Notation passed_ran := (passed_ran f sf pow10 re named).
Notation passed_in := (passed_in f sf pow10 re named).
Notation passed_messages := (passed_messages f sf pow10 re named).
Notation passed_tick := (passed_tick f sf pow10 re named).
Notation bad_from_start := (bad_from_start sf pow10).

(** One more run of a loop, as a history of the system that was started last. *)
Lemma last_run first devices pre w k post mid w' k' da d1 d d2 d3 z i c :
  Forall ordered (pre ++ DRun w k :: post ++ mid ++ [DRun w' k']) ->
  calm f sf pow10 re named (pre ++ DRun w k :: post ++ mid ++ [DRun w' k']) (daemon_init first devices) ->
  run pre (daemon_init first devices) = Ok da -> next_is (ORestart false) da -> step da (DRun w k) = Ok d1 -> loop_stops d1 <> loop_stops da ->
  read_configuration sf re named (su_disk w) (su_config w) = Ok (Loaded c) ->
  run post d1 = Ok d -> run mid d = Ok d2 -> next_is (OLoop z false) d2 -> step d2 (DRun w' k') = Ok d3 -> going d3 -> loop_stops d3 = loop_stops d1 ->
  nth_error (dm_ids d) i = Some z ->
  exists first' devs zs lp sd lm sd2 built st z0,
    runs f sf pow10 (seen (dm_exports da) (su_sensors w)) (l_sensors c) (known_failures w (dm_sys da)) first' devs zs lp sd /\
    sys_run f sf pow10 lm sd = Ok sd2 /\ sys_step f sf pow10 sd2 (STick i k') = Ok (dm_sys d3) /\
    NoDup (map fst (l_pids c)) /\ buildZones (su_bus_ok w) (l_pids c) (l_zones c) = Ok built /\
    nth_error zs i = Some (st, z0) /\ In (fst z, z0) built /\
    is_manual i lp = is_manual i (messages post) /\ (In (SManual i true) lm -> In (DSys (SManual i true)) mid) /\
    wakes i lm = cycles_of z d2 - cycles_of z d /\
    (host_initial first' = true <-> host_on first (host_changes (messages pre))) /\
    (forall p wq q, lm ++ [STick i k'] = p ++ STick i wq :: q -> exists m1 wi m2 dm,
       mid ++ [DRun w' k'] = m1 ++ DRun wi wq :: m2 /\ run m1 d = Ok dm /\ next_is (OLoop z false) dm /\
       only_messages (lp ++ p) = only_messages (messages (post ++ m1))) /\
    m_stopped (dm_main d3) = false /\ NoDup (running_numbers d3) /\
    (forall l, nth_error (sy_loops (dm_sys d3)) i = Some l -> z_zoneId (l_zone l) = fst z).
Proof.
  intros Or Ca Ha Nx H1 Ns Er H2 H3 Nl H4 G Q Ei.
  set (mid' := mid ++ [DRun w' k']) in *. set (evs := pre ++ DRun w k :: post ++ mid') in *.
  assert (Hm : run mid' d = Ok d3) by (apply (run_app _ _ _ _ _ _ _ _ _ _ H3); unfold daemon_run; cbn [foldM]; rewrite H4; reflexivity).
  assert (Hp : run (post ++ mid') d1 = Ok d3) by exact (run_app _ _ _ _ _ _ _ _ _ _ H2 Hm).
  assert (Hall : run evs (daemon_init first devices) = Ok d3).
  { apply (run_app _ _ _ _ _ _ _ _ _ _ Ha). unfold daemon_run. cbn [foldM]. rewrite H1. exact Hp. }
  assert (Sp3 : m_stopped (dm_main d3) = false).
  { apply going_iff; [|exact G]. eapply run_exits; [|exact Hall]. apply (step_exit main_init EPostRestart init_exit). }
  assert (Sp0 : m_stopped (dm_main da) = false).
  { destruct (m_stopped (dm_main da)) eqn:X; [|reflexivity]. exfalso. unfold daemon_step in H1. rewrite X in H1. congruence. }
  assert (Ga : going da).
  { apply going_iff; [|exact Sp0]. eapply run_exits; [|exact Ha]. apply (step_exit main_init EPostRestart init_exit). }
  assert (Len : forall a b : daemon, loop_stops a = loop_stops b -> nstops (m_log (dm_main a)) = nstops (m_log (dm_main b))) by (intros a b X; rewrite <- !stops_nstops, X; reflexivity).
  destruct (grows_le _ _ (grows_run f sf pow10 re named _ _ _ H2)) as (_ & L1 & _). destruct (grows_le _ _ (grows_run f sf pow10 re named _ _ _ H3)) as (_ & L2 & _).
  destruct (grows_le _ _ (grows_step f sf pow10 re named _ _ _ H4)) as (_ & L3 & _). apply Len in Q as Qn.
  assert (Back : forall a x, run a x = Ok d3 -> m_stopped (dm_main x) = false).
  { intros a x X. destruct (m_stopped (dm_main x)) eqn:Y; [|reflexivity]. pose proof (stopped_run f sf pow10 re named _ _ _ Y X). congruence. }
  assert (H4' : run [DRun w' k'] d2 = Ok d3) by (unfold daemon_run; cbn [foldM]; rewrite H4; reflexivity).
  assert (I3 : dm_ids d3 = dm_ids d) by (apply (run_ids _ _ _ Hm Sp3); lia).
  assert (I2 : dm_ids d2 = dm_ids d) by (apply (run_ids _ _ _ H3 (Back _ _ H4')); lia).
  destruct (C90_lemma f sf pow10 re named first devices evs d3 Or Ca Hall G) as (_ & [(X & _)|Rn]).
  { exfalso. rewrite I3 in X. rewrite X in Ei. destruct i; discriminate Ei. }
  destruct Rn as (pre2 & wb & kb & post2 & da2 & d12 & c2 & fl & first' & devs & zs & unstarted & sevs & E & A1 & A2 & A3 & A4 & A5 & A6 & A7 & A8 & A9 & A10 & A11 & A12 & A13).
  destruct (same_start (daemon_init first devices) pre w k (post ++ mid') da d1 pre2 wb kb post2 da2 d12 d3) as (<- & <- & <- & <-); try assumption.
  { exact (passed_run _ _ _ _ A7). }
  { rewrite A12. intros X. apply (f_equal (@List.length _)) in X. rewrite app_length in X. cbn in X. lia. }
  assert (da2 = da) by congruence. subst da2. assert (d12 = d1) by congruence. subst d12. assert (c2 = c) by congruence. subst c2. clear E A1 A2 A3 A4.
  apply passed_parts in A7. destruct A7 as (lp & lm' & dx & -> & Pp1 & Pm'). assert (dx = d) by (apply passed_run in Pp1; congruence). subst dx.
  apply passed_parts in Pm'. destruct Pm' as (lm & ll & dx & -> & Pm & Pl). assert (dx = d2) by (apply passed_run in Pm; congruence). subst dx.
  assert (Fl : fl = known_failures w (dm_sys da)) by (unfold known_failures; destruct A10 as [->|(-> & ->)]; reflexivity). subst fl.
  destruct (zones_found _ _ _ _ _ (proj1 A5)) as (built & Eb & Nd & Iz).
  assert (Nz : NoDup (dm_ids d)).
  { rewrite <- I3. apply (NoDup_map_inv fst). rewrite <- A6. exact Nd. }
  assert (Ez : exists st z0, nth_error zs i = Some (st, z0) /\ z_zoneId z0 = fst z).
  { assert (X : nth_error (map (fun e => z_zoneId (snd e)) zs) i = Some (fst z)) by (rewrite A6, I3; apply map_nth_error, Ei).
    rewrite nth_error_map in X. destruct (nth_error zs i) as [(st & z0)|]; [|discriminate X]. injection X as X. exists st, z0. split; [reflexivity|exact X]. }
  destruct Ez as (st & z0 & Ez & Ezi).
  assert (Hll : ll = [STick i k']).
  { inversion Pl as [|? x dd ? l0 ? M H Q0|? w0 k0 n z1 dd ? l0 ? Nx0 Nz0 H Q0|? ? dd ? l0 ? N1 N2 H Q0]; subst.
    - inversion Q0; subst. f_equal. destruct Nl as (r1 & Nl), Nx0 as (r2 & Nx0). rewrite Nl in Nx0. injection Nx0 as <- _.
      rewrite I2 in Nz0. rewrite NoDup_nth_error in Nz. f_equal. symmetry. apply Nz; [apply nth_error_Some; congruence|congruence].
    - elim (N2 _ _ z eq_refl Nl). }
  subst ll.
  destruct (passed_ran _ _ _ _ i z Pm (Back _ _ H4')) as (_ & Rc); [lia|exact Nz|exact Ei|].
  destruct (A8) as [Nk Fr (m0 & s0 & B0 & St0 & R0')].
  unfold sys_run in R0'. rewrite foldM_app in R0'. apply bind_ok in R0'. destruct R0' as (sd & Rd & R0'). rewrite foldM_app in R0'. apply bind_ok in R0'.
  destruct R0' as (sd2 & Rd2 & Rd3). cbn [foldM] in Rd3. apply bind_ok in Rd3. destruct Rd3 as (sd3 & Rd3 & X). injection X as ->.
  assert (Hst : host_initial first' = true <-> host_on first (host_changes (messages pre))).
  { rewrite A9. exact (C90_host_lemma f sf pow10 re named first devices pre da Ha Ga). }
  exists first', devs, zs, lp, sd, lm, sd2, built, st, z0.
  split. { constructor; [exact Nk|exact Fr|]. exists m0, s0. split; [exact B0|]. split; [exact St0|exact Rd]. }
  split; [exact Rd2|]. split; [exact Rd3|]. split; [exact (proj1 (proj1 A5))|]. split; [exact Eb|]. split; [exact Ez|].
  split; [rewrite <- Ezi; apply (Iz st); exact (nth_error_In _ _ Ez)|].
  split; [exact (passed_mode f sf pow10 re named i _ _ _ _ Pp1)|].
  split. { intros I. apply (passed_in _ _ _ _ _ Pm I). intros ? ? X. discriminate X. }
  split; [rewrite !cycles_nran, Rc; lia|]. split; [exact Hst|].
  assert (Len3 : sy_loops (dm_sys d3) <> []).
  { intros X. assert (Y : nth_error zs i <> None) by congruence. destruct (nth_error zs i) as [(st' & z')|] eqn:E'; [|congruence].
    destruct (runs_zone _ _ _ _ _ _ _ _ _ _ _ _ _ _ A8 E') as (l & El & _). rewrite X in El. destruct i; discriminate El. }
  split.
  { intros p wq q Eq. assert (Pml : passes_on d mid' (lm ++ [STick i k']) d3).
    { exact (po_app f sf pow10 re named _ _ _ _ _ _ _ Pm Pl). }
    destruct (passed_tick _ _ _ _ i wq q Pml p Eq) as (m1 & w0 & m2 & dm & y & Em & Q1 & Ny & Ey & q' & Q2).
    apply passed_run in Q1 as Q1r. apply passed_run in Q2.
    assert (y = z).
    { assert (dm_ids dm = dm_ids d).
      { destruct (grows_le _ _ (grows_run f sf pow10 re named _ _ _ Q1r)) as (_ & L4 & _). destruct (grows_le _ _ (grows_run f sf pow10 re named _ _ _ Q2)) as (_ & L5 & _).
        apply (run_ids _ _ _ Q1r (Back _ _ Q2)). lia. }
      congruence. }
    subst y. exists m1, w0, m2, dm. split; [exact Em|]. split; [exact Q1r|]. split; [exact Ny|].
    rewrite messages_app, !only_app, (passed_messages _ _ _ _ Pp1), (passed_messages _ _ _ _ Q1). reflexivity. }
  split; [exact Sp3|].
  split; [exact (proj1 (reports f sf pow10 re named first devices evs d3 Or Ca Hall G Len3))|].
  intros l El. rewrite <- Ezi. exact (loop_number _ _ _ _ _ _ _ _ _ _ _ _ _ _ _ A8 Ez El).
Qed.

Lemma failing_reported first devices pre w k post mid w' k' da d1 d d2 d3 z i c pids zc name info others sends rest :
  Forall ordered (pre ++ DRun w k :: post ++ mid ++ [DRun w' k']) ->
  calm f sf pow10 re named (pre ++ DRun w k :: post ++ mid ++ [DRun w' k']) (daemon_init first devices) ->
  run pre (daemon_init first devices) = Ok da -> next_is (ORestart false) da -> step da (DRun w k) = Ok d1 -> loop_stops d1 <> loop_stops da ->
  read_configuration sf re named (su_disk w) (su_config w) = Ok (Loaded c) ->
  run post d1 = Ok d -> run mid d = Ok d2 -> next_is (OLoop z false) d2 -> step d2 (DRun w' k') = Ok d3 -> going d3 -> loop_stops d3 = loop_stops d1 ->
  nth_error (dm_ids d) i = Some z -> In (fst z, pids) (l_pids c) -> zget (fst z) (l_zones c) = Some zc ->
  is_manual i (messages post) = false -> ~ In (DSys (SManual i true)) mid ->
  (1 <= zc_cycleIntervalTimeMS zc <= zc_updateThermalsTimeMS zc)%Z ->
  (zc_updateThermalsTimeMS zc + zc_cycleIntervalTimeMS zc < uint64_mod)%Z ->
  (zc_updateThermalsTimeMS zc <= Z.of_nat (cycles_of z d2 - cycles_of z d) * zc_cycleIntervalTimeMS zc)%Z ->
  In (name, info) (l_sensors c) -> known_type (sc_type info) ->
  listed_by is_fan_pid pids name \/ listed_by is_thermal_pid pids name -> ~ acceptable_in pids name ->
  (forall m1 wi ki m2 dm, mid ++ [DRun w' k'] = m1 ++ DRun wi ki :: m2 -> run m1 d = Ok dm -> next_is (OLoop z false) dm ->
     let bad := bad_since sf pow10 (seen (dm_exports da) (su_sensors w)) (known_failures w (dm_sys da)) first name info (messages pre) (messages (post ++ m1)) in
     bad (wk_fan_now ki) /\ bad (wk_therm_now ki)) ->
  (0 <= fst z < 128)%Z ->
  let x := answer others sends d3 (2%Z :: fst z :: rest) in rp_code x = Ok 0%Z /\ rp_data x = Some 1%Z.
Proof.
  intros Or Ca Ha Nx H1 Ns Er H2 H3 Nl H4 G Q Ei Jp Zc Mi Mm Cy Up Wk Inm Kn Li Ac Bad Lo.
  destruct (last_run first devices pre w k post mid w' k' da d1 d d2 d3 z i c Or Ca Ha Nx H1 Ns Er H2 H3 Nl H4 G Q Ei)
    as (first' & devs & zs & lp & sd & lm & sd2 & built & st & z0 & R & Rd2 & Rd3 & Np & Eb & Ez & Iz & Ma & Mb & Wq & Hst & Ti & Sp3 & Nr & Nu).
  assert (Fx : exists l, nth_error (sy_loops (dm_sys d3)) i = Some l /\ some_failure (l_zone l)); cycle 1.
  { destruct Fx as (l & El & Fa). destruct (answers_zone others sends d3 (fst z) rest i (l_zone l) Lo Sp3) as (_ & _ & X1 & X2).
    { apply zone_at_unique; [exact Nr|exact El|exact (Nu _ El)]. }
    cbv zeta. split; [exact X1|]. rewrite X2. apply failsafe_some in Fa. rewrite Fa. reflexivity. }
  refine (failing_configured f sf pow10 (seen (dm_exports da) (su_sensors w)) (l_sensors c) (known_failures w (dm_sys da)) first' devs zs lp sd lm sd2 i k' (dm_sys d3)
    (su_bus_ok w) (l_pids c) (l_zones c) built (fst z) pids zc st z0 name info R Rd2 Rd3 Np Eb Ez Iz Jp Zc _ _ Cy Up _ Inm Kn Li Ac _).
  - rewrite Ma. exact Mi.
  - intros I. exact (Mm (Mb I)).
  - rewrite Wq. exact Wk.
  - intros p wq q Eq. destruct (Ti p wq q Eq) as (m1 & w0 & m2 & dm & Em & Q1 & Ny & Eo). destruct (Bad m1 w0 wq m2 dm Em Q1 Ny) as (B1 & B2).
    split; [exact (bad_from_start _ _ _ _ _ _ _ _ _ _ _ Eo eq_refl Hst B1)|exact (bad_from_start _ _ _ _ _ _ _ _ _ _ _ Eo eq_refl Hst B2)].
Qed.
End Remote2.
