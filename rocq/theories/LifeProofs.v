(** * Proofs about the life of the daemon: manual mode. *)
From Coq Require Import ZArith Bool List String Lia.
From Verif Require Import Base BaseFacts Dbl PidModel ZoneModel LoopModel SpecZone ZoneProofs ZoneFan LoopProofs SensorModel WriteModel SystemModel SpecSystem
  SystemProofs SystemProofs2 SystemProofs3 SystemProofs4 BuilderRun ConfigModel SensorModel DbusConfigModel MainModel SpecMain MainProofs ConfigModel ReloadModel StartModel DaemonModel SpecDaemon DaemonProofs
  DaemonProofs2 DaemonProofs4 StopProofs StopProofs2 SpecLife.
Import ListNotations.

(** ** Fans of a loop, devices of a fan *)

Lemma commands_wcoref s name path : commands s name path <-> exists w, wcoref s name = Some w /\ out_path w = Some path.
Proof.
  unfold commands, wcoref. split.
  - intros (t & r & i & [(w & ->)|(p & mn & mx & ->)]); eexists; split; reflexivity.
  - destruct (mget name (sy_sensors s)) as [[t r w i|t i h]|]; intros (x & E & O); try discriminate E.
    injection E as <-. exists t, r, i. destruct w as [p w|p pc mn mx|]; cbn in O; try discriminate O; injection O as ->; eauto 6.
Qed.

Lemma lists_sig l l' : map fsig (z_fans (l_zone l')) = map fsig (z_fans (l_zone l)) -> forall n, lists_fan l' n -> lists_fan l n.
Proof.
  intros E n (c & I & J). assert (I2 : In (fsig (Some c)) (map fsig (z_fans (l_zone l)))) by (rewrite <- E; apply in_map, I).
  apply in_map_iff in I2. destruct I2 as ([c'|] & X & I2); [|discriminate X]. injection X as X1 X2. exists c'. split; [exact I2|]. rewrite X2. exact J.
Qed.

Lemma step_lists f l e l' : loop_step f l e = Ok l' -> forall n, lists_fan l' n -> lists_fan l n.
Proof.
  intros H. apply lists_sig. destruct e as [e|b|p b]; cbn [loop_step] in H.
  - destruct (z_manualMode (l_zone l)) eqn:M.
    + unfold loop_tick in H. rewrite M in H. injection H as <-. reflexivity.
    + destruct (tick_step f e l l' H M) as (z1 & z2 & evs & _ & T). pose proof (tf_shape _ _ _ _ _ _ T) as Sh. clear - Sh.
      induction Sh as [|[a|] [b|] x y R _ IH]; cbn; try contradiction; [reflexivity|]. destruct R as (R1 & R2). rewrite IH, R1, R2. reflexivity.
  - injection H as <-. destruct b; reflexivity.
  - injection H as <-. cbn [l_zone with_zone]. unfold setProcessEnabled. destruct (mget p _); reflexivity.
Qed.

(** The writes of a wake-up go to fans of the loop. *)
Lemma tick_writes f e l l' w : loop_step f l (LTick e) = Ok l' -> In w (new_writes (l_zone l) (l_zone l')) ->
  z_manualMode (l_zone l) = false /\ lists_fan l (fst (fst w)).
Proof.
  intros H I. destruct (z_manualMode (l_zone l)) eqn:M.
  - cbn [loop_step] in H. unfold loop_tick in H. rewrite M in H. injection H as <-. exfalso. revert I. cbn [l_zone rearm].
    unfold new_writes. rewrite Nat.sub_diag. intros [].
  - split; [reflexivity|]. destruct (tick_step f e l l' H M) as (z1 & z2 & evs & _ & T).
    rewrite (new_writes_eq _ _ _ (tf_trace _ _ _ _ _ _ T)), (tf_writes _ _ _ _ _ _ T) in I. destruct w as ((n & v) & b).
    apply In_all_fan_writes in I. destruct I as (c & Ic & J & _). exists c. cbn [fst]. split; [|exact J].
    rewrite (fan_ctls_eq z2 (l_zone l) (tf_fans2 _ _ _ _ _ _ T)) in Ic. unfold fan_ctls in Ic. apply in_flat_map in Ic.
    destruct Ic as ([x|] & Ix & Ic); [|destruct Ic]. destruct Ic as [->|[]]. exact Ix.
Qed.

Lemma apply_other ok k s n v b k' s' path : apply_write ok (k, s) (n, v, b) = Ok (k', s') -> ~ commands s n path ->
  mget path (sy_devices s') = mget path (sy_devices s).
Proof.
  intros H N. unfold apply_write in H. destruct (mget n (sy_sensors s)) as [[t r [p w|p pc mn mx|] i|t i h]|] eqn:E; try (injection H as _ <-; reflexivity).
  - apply bind_ok in H. destruct H as (rw & _ & H). injection H as _ <-. destruct (sent w (fst rw)); [|reflexivity].
    cbn [sy_devices set_devices set_sensors]. rewrite mget_mset. destruct (String.eqb_spec path p) as [<-|_]; [|reflexivity].
    elim N. exists t, r, i. left. exists w. exact E.
  - apply bind_ok in H. destruct H as (v' & _ & H). injection H as _ <-. destruct v'; [|reflexivity].
    cbn [sy_devices set_devices]. rewrite mget_mset. destruct (String.eqb_spec path p) as [<-|_]; [|reflexivity].
    elim N. exists t, r, i. right. exists pc, mn, mx. exact E.
Qed.
Lemma applies_other ok path ws : forall k s ks', foldM (apply_write ok) ws (k, s) = Ok ks' ->
  (forall w, In w ws -> ~ commands s (fst (fst w)) path) -> mget path (sy_devices (snd ks')) = mget path (sy_devices s).
Proof.
  induction ws as [|((n & v) & b) r IH]; intros k s ks' H N; cbn [foldM] in H; [injection H as <-; reflexivity|].
  apply bind_ok in H. destruct H as ((k1 & s1) & H1 & H). rewrite (IH _ _ _ H).
  - apply (apply_other _ _ _ _ _ _ _ _ _ H1). apply (N _ (or_introl eq_refl)).
  - intros w I C. apply (N w (or_intror I)). apply commands_wcoref. apply commands_wcoref in C. destruct C as (x & E & O). exists x.
    split; [|exact O]. rewrite <- E. rewrite !wcoref_cores. destruct (apply_write_rest _ _ _ _ _ _ H1) as (X & _). rewrite X. reflexivity.
Qed.

(** ** The system while a loop is in manual mode *)

Definition resting (n : nat) (path : string) (s : system) : Prop :=
  only_from n s path /\ exists l, nth_error (sy_loops s) n = Some l /\ z_manualMode (l_zone l) = true.

Lemma sys_rests f sf pow10 n path s e s' : resting n path s -> sys_step f sf pow10 s e = Ok s' -> e <> SManual n false ->
  resting n path s' /\ mget path (sy_devices s') = mget path (sy_devices s).
Proof.
  intros (Of & l & El & M) H N.
  assert (Lp : (exists l1, nth_error (sy_loops s') n = Some l1 /\ z_manualMode (l_zone l1) = true) /\
    (forall j l1 name, nth_error (sy_loops s') j = Some l1 -> lists_fan l1 name -> exists l0, nth_error (sy_loops s) j = Some l0 /\ lists_fan l0 name)).
  { assert (Same : sy_loops s' = sy_loops s -> (exists l1, nth_error (sy_loops s') n = Some l1 /\ z_manualMode (l_zone l1) = true) /\
      (forall j l1 name, nth_error (sy_loops s') j = Some l1 -> lists_fan l1 name -> exists l0, nth_error (sy_loops s) j = Some l0 /\ lists_fan l0 name))
      by (intros ->; split; [exists l; auto|eauto]).
    assert (Upd : forall i ev ls, update_nth i (fun l => loop_step f l ev) (sy_loops s) = Ok ls -> sy_loops s' = ls ->
      (i = n -> ev <> LManual false) -> (exists l1, nth_error (sy_loops s') n = Some l1 /\ z_manualMode (l_zone l1) = true) /\
      (forall j l1 name, nth_error (sy_loops s') j = Some l1 -> lists_fan l1 name -> exists l0, nth_error (sy_loops s) j = Some l0 /\ lists_fan l0 name)).
    { intros i ev ls U -> Ne. apply update_nth_spec in U. destruct U as (Ln & B & C). split.
      - destruct (Nat.eq_dec i n) as [->|X]; [|exists l; rewrite B by congruence; auto]. destruct (C _ El) as (l' & E' & Hl). exists l'. split; [exact E'|].
        destruct ev as [e0|b|p b]; cbn [loop_step] in Hl.
        + unfold loop_tick in Hl. rewrite M in Hl. injection Hl as <-. exact M.
        + injection Hl as <-. destruct b; [reflexivity|]. elim (Ne eq_refl eq_refl).
        + injection Hl as <-. cbn [l_zone with_zone]. unfold setProcessEnabled. destruct (mget p _); exact M.
      - intros j l1 name E1 L1. destruct (Nat.eq_dec i j) as [->|X]; [|exists l1; rewrite <- B by congruence; auto].
        destruct (nth_error (sy_loops s) j) as [l0|] eqn:E0.
        + destruct (C _ eq_refl) as (l' & E' & Hl). exists l0. split; [reflexivity|]. rewrite E' in E1. injection E1 as <-. exact (step_lists _ _ _ _ Hl _ L1).
        + exfalso. apply nth_error_None in E0. assert (X : nth_error ls j <> None) by congruence. apply nth_error_Some in X. lia. }
    destruct e as [p m|n' v t|m|c|i w|i b|i p b]; cbn [sys_step] in H.
    - apply bind_ok in H. destruct H as (x & _ & H). injection H as <-. apply Same. reflexivity.
    - injection H as <-. apply Same. reflexivity.
    - apply bind_ok in H. destruct H as (x & _ & H). injection H as <-. apply Same. reflexivity.
    - injection H as <-. apply Same. reflexivity.
    - unfold sys_tick in H. destruct (nth_error (sy_loops s) i) as [li|]; [|injection H as <-; apply Same; reflexivity].
      apply bind_ok in H. destruct H as ([] & _ & H). apply bind_ok in H. destruct H as (ls & U & H). apply bind_ok in H. destruct H as (ks & W & H).
      injection H as <-. apply (Upd i _ ls U); [|discriminate]. destruct (nth_error ls i); [|injection W as <-; reflexivity].
      destruct ks as (k2 & s2). apply writes_rest in W. destruct W as (_ & _ & _ & W). exact W.
    - apply bind_ok in H. destruct H as (ls & U & H). injection H as <-. apply (Upd i _ ls U); [reflexivity|]. intros -> X. injection X as ->. apply N. reflexivity.
    - apply bind_ok in H. destruct H as (ls & U & H). injection H as <-. apply (Upd i _ ls U); [reflexivity|]. discriminate. }
  destruct Lp as (L1 & L2). split.
  - split; [|exact L1]. intros j l1 name Nj E1 Lf C. destruct (L2 _ _ _ E1 Lf) as (l0 & E0 & L0). apply (Of j l0 name Nj E0 L0).
    apply commands_wcoref. apply commands_wcoref in C. destruct C as (x & E & O). exists x. split; [|exact O]. rewrite <- E. symmetry. exact (step_wcoref _ _ _ _ _ _ _ H).
  - destruct e as [p m|n' v t|m|c|i w|i b|i p b]; try (f_equal; apply (message_devices f sf pow10) with (2 := H); intros ? ? X; discriminate X).
    cbn [sys_step] in H. apply tick_split in H. destruct H as [(_ & ->)|(li & l' & ls & k' & Ei & Hl & _ & _ & W & _)]; [reflexivity|].
    apply applies_other with (path := path) in W; [exact W|]. intros x Ix. destruct (tick_writes _ _ _ _ _ Hl Ix) as (Ma & Lx).
    destruct (Nat.eq_dec i n) as [->|X]; [rewrite El in Ei; injection Ei as <-; congruence|]. exact (Of i li _ X Ei Lx).
Qed.

(** ** The daemon *)

Section Life.
Context (f : flags) (sf : sflags) (pow10 : Z -> dbl) (re : regex) (named : string).
Notation step := (daemon_step f sf pow10 re named).
Notation run := (daemon_run f sf pow10 re named).

Lemma stops_nstops d : List.length (loop_stops d) = nstops (m_log (dm_main d)).
Proof.
  unfold loop_stops, history, nstops, is_stop. generalize (m_log (dm_main d)). intros l. induction l as [|x r IH]; [reflexivity|].
  cbn [rev]. rewrite filter_app, app_length, IH. cbn [filter]. destruct x; cbn; lia.
Qed.

Lemma stop_logged m m' : stopControlLoops m = (true, m') -> nstops (m_log m') = S (nstops (m_log m)).
Proof.
  unfold stopControlLoops. cbv zeta. cbn [m_zones]. destruct (m_zones m) as [|z r]; [|destruct (1 <? _)%nat; [discriminate|]]; intros H; injection H as <-; reflexivity.
Qed.
Lemma stop_shown m o r m' ok b : m_stopped m = false -> m_ready m = o :: r -> is_attempt o = true ->
  stopControlLoops (set_ready r m) = (true, m') -> nstops (m_log m) < nstops (m_log (main_step m (ERun ok b))).
Proof.
  intros St R A S. unfold main_step. rewrite St, R. pose proof (stop_logged _ _ S) as L. change (m_log (set_ready r m)) with (m_log m) in L.
  assert (Le : forall h x, m_log x = h ++ m_log m' -> nstops (m_log m) < nstops (m_log x)).
  { intros h x ->. rewrite nstops_app. lia. }
  destruct o as [i a|[]|[]]; try discriminate A; cbn [run_op].
  - unfold restartControlLoops. rewrite S. destruct b as [| | |ids good]; cbn [fst snd].
    + apply (Le []). reflexivity.
    + apply (Le [MExit]). reflexivity.
    + apply (Le []). rewrite arm_retry_log'. reflexivity.
    + destruct (nodup Z.eq_dec ids) as [|z zs] eqn:Nz; [apply (Le [MExit]); reflexivity|].
      destruct (start_loops _ _ _) as (q & s2) eqn:Q. assert (G : exists h, m_log s2 = h ++ m_log m').
      { apply start_spec in Q. cbn [m_log] in Q. destruct Q as (_ & _ & _ & _ & _ & _ & _ & k & _ & _ & _ & Q). rewrite Q. eexists. reflexivity. }
      destruct G as (h & G). destruct q; [apply (Le h); exact G|]. apply (Le h). rewrite arm_retry_log'. exact G.
  - rewrite S. apply (Le [MExit]). reflexivity.
Qed.

Lemma step_rests n path d e d1 : resting n path (dm_sys d) -> step d e = Ok d1 -> m_stopped (dm_main d1) = false ->
  nstops (m_log (dm_main d1)) = nstops (m_log (dm_main d)) -> e <> DSys (SManual n false) ->
  resting n path (dm_sys d1) /\ mget path (sy_devices (dm_sys d1)) = mget path (sy_devices (dm_sys d)).
Proof.
  intros R H Sp Q N. destruct (m_stopped (dm_main d)) eqn:St.
  { unfold daemon_step in H. rewrite St in H. injection H as <-. split; [exact R|reflexivity]. }
  pose proof (step_kind f sf pow10 re named d e d1 St H) as K.
  destruct K as [e d1 l K1 K2 K3 K4 K5 K6|x s K1 K2|x K1|w k i m s K1 K2 K3|w k i K1 K2|w k i m t K1 K2 K3|w k r m d' b ex s bus K1 K2 K3 K4|w k o r m K1 K2 K3 K4|w k r m d' K1 K2 K3].
  - rewrite K5. split; [exact R|reflexivity].
  - apply (sys_rests f sf pow10 n path (dm_sys d) x s R K2). intros ->. apply N. reflexivity.
  - discriminate Sp.
  - apply (sys_rests f sf pow10 n path (dm_sys d) (STick m k) s R K3). discriminate.
  - split; [exact R|reflexivity].
  - split; [exact R|reflexivity].
  - exfalso. pose proof (stop_shown _ _ _ _ true b St K1 eq_refl K2) as L.
    unfold dm_main in L at 2. rewrite <- (reload_run_main (dm_reload d) true b bus St) in L. change (dm_main (let rl := reload_step (dm_reload d) (VRun true b bus) in
       Daemon rl s (dm_ids d' ++ firstn (started b) (m_zones (rl_main rl))) ex)) with (rl_main (reload_step (dm_reload d) (VRun true b bus))) in Q. lia.
  - discriminate Sp.
  - exfalso. pose proof (stop_shown _ _ _ _ true BNotReady St K1 eq_refl K2) as L. destruct (clear_reload _ _ _ _ _ K3) as (X & _).
    unfold dm_main in L at 2. rewrite <- (reload_run_main (dm_reload d) true BNotReady false St) in L.
    change (dm_main (plain d')) with (rl_main (reload_step (dm_reload d') (VRun true BNotReady false))) in Q. rewrite X in Q. lia.
Qed.

Lemma run_rests n path evs : forall d d1, resting n path (dm_sys d) -> run evs d = Ok d1 -> m_stopped (dm_main d1) = false ->
  nstops (m_log (dm_main d1)) = nstops (m_log (dm_main d)) -> ~ In (DSys (SManual n false)) evs ->
  resting n path (dm_sys d1) /\ mget path (sy_devices (dm_sys d1)) = mget path (sy_devices (dm_sys d)).
Proof.
  induction evs as [|e r IH]; intros d d1 R H Sp Q N; [injection H as <-; split; [exact R|reflexivity]|].
  unfold daemon_run in H. cbn [foldM] in H. apply bind_ok in H. destruct H as (d2 & H1 & H). fold (run r d2) in H.
  destruct (grows_le _ _ (grows_step f sf pow10 re named _ _ _ H1)) as (_ & L1 & _). destruct (grows_le _ _ (grows_run f sf pow10 re named _ _ _ H)) as (_ & L2 & _).
  assert (Sp2 : m_stopped (dm_main d2) = false).
  { destruct (m_stopped (dm_main d2)) eqn:X; [|reflexivity]. pose proof (stopped_run f sf pow10 re named r d2 d1 X H) as Y. congruence. }
  destruct (step_rests n path d e d2 R H1 Sp2) as (R2 & M2); [lia| |].
  { intros ->. apply N. left. reflexivity. }
  destruct (IH d2 d1 R2 H Sp) as (R3 & M3); [lia| |].
  { intros I. apply N. right. exact I. }
  split; [exact R3|]. congruence.
Qed.

Lemma manual_untouched n path l evs d d1 : run evs d = Ok d1 -> m_stopped (dm_main d1) = false -> loop_stops d1 = loop_stops d ->
  nth_error (sy_loops (dm_sys d)) n = Some l -> z_manualMode (l_zone l) = true -> ~ In (DSys (SManual n false)) evs ->
  only_from n (dm_sys d) path ->
  mget path (sy_devices (dm_sys d1)) = mget path (sy_devices (dm_sys d)) /\
  exists l1, nth_error (sy_loops (dm_sys d1)) n = Some l1 /\ z_manualMode (l_zone l1) = true.
Proof.
  intros H Sp Q El M N Of. destruct (run_rests n path evs d d1) as ((_ & X) & Y); auto.
  - split; [exact Of|]. exists l. auto.
  - rewrite <- !stops_nstops, Q. reflexivity.
Qed.

(** ** The mode of a zone *)

Lemma passed_mode i d evs l d' : passes_on f sf pow10 re named d evs l d' -> is_manual i l = is_manual i (messages evs).
Proof.
  unfold is_manual. generalize false. intros m P. revert m.
  induction P as [d|d e d1 evs l d2 M H P IH|d w k j z d1 evs l d2 Nx Nz H P IH|d e d1 evs l d2 N1 N2 H P IH]; intros m.
  - reflexivity.
  - cbn [messages flat_map app fold_left]. apply IH.
  - cbn [messages flat_map app fold_left]. apply IH.
  - destruct e as [x|w k|x]; cbn [messages flat_map app fold_left]; try apply IH.
    destruct x as [p m0|n v t|m0|c|j w|j b|j p b]; try apply IH; elim (N1 _ eq_refl); intros ? ? X; discriminate X.
Qed.

Lemma mode_since first devices evs d : Forall ordered evs -> calm f sf pow10 re named evs (daemon_init first devices) ->
  run evs (daemon_init first devices) = Ok d -> going d -> sy_loops (dm_sys d) <> [] ->
  exists pre w k post da d1, evs = (pre ++ DRun w k :: post)%list /\ run pre (daemon_init first devices) = Ok da /\ next_is (ORestart false) da /\
    step da (DRun w k) = Ok d1 /\ loop_stops d1 = (loop_stops da ++ [MStopped])%list /\ loop_stops d = loop_stops d1 /\
    forall i l, nth_error (sy_loops (dm_sys d)) i = Some l -> z_manualMode (l_zone l) = is_manual i (messages post).
Proof.
  intros Or Ca H G N. destruct (C90_lemma f sf pow10 re named first devices evs d Or Ca H G) as (_ & [(_ & X)|Rn]); [elim (N X)|].
  destruct Rn as (pre & w & k & post & da & d1 & c & fl & first' & devs & zs & rest & sevs & E & A1 & A2 & A3 & A4 & A5 & A6 & A7 & A8 & A9 & A10 & A11 & A12 & A13).
  exists pre, w, k, post, da, d1. split; [exact E|]. split; [exact A1|]. split; [exact A2|]. split; [exact A3|]. split; [exact A12|]. split; [exact A13|].
  intros i l El. rewrite <- (passed_mode i _ _ _ _ A7). destruct (loop_source _ _ _ _ _ _ _ _ _ _ _ _ _ A8 El) as (st & z0 & Ez & _).
  destruct (runs_zone _ _ _ _ _ _ _ _ _ _ _ _ _ _ A8 Ez) as (l' & El' & _ & M). congruence.
Qed.

End Life.
