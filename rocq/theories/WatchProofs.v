(** * Proofs about which daemons notice changes on the bus (C104). *)
From Coq Require Import ZArith Bool List String Lia.
From Verif Require Import Base BaseFacts Dbl ZoneModel LoopModel SensorModel SystemModel DbusConfigModel LogModel MainModel SpecMain MainProofs MainProofs2
  ReloadModel SpecReload ReloadProofs StartModel SpecStart StartProofs DaemonModel SpecDaemon DaemonProofs DaemonProofs4 SpecStop StopProofs StopProofs2 SpecWatch.
Import ListNotations.

Lemma none_there named dk : no_config_file named dk = match chosen named dk with Ok (_, b) => negb b | _ => false end.
Proof.
  unfold no_config_file, chosen. destruct (if String.eqb named "" then searchConfigurationPath dk else Ok named) as [p|m|m]; [|reflexivity|reflexivity].
  cbn [bind]. destruct (exists_file dk p); reflexivity.
Qed.
Lemma used_there named dk p : file_used named dk p -> no_config_file named dk = false.
Proof. intros U. rewrite none_there, (chosen_used _ _ _ U). reflexivity. Qed.
Lemma missing_there named dk : no_file named dk -> no_config_file named dk = true.
Proof. intros U. rewrite none_there. destruct (chosen_none _ _ U) as (p & ->). reflexivity. Qed.

Lemma step_matches r v : rl_matches (reload_step r v) = rl_matches r || match v with VRun _ _ bus => negb (m_stopped (rl_main r)) && (bus && reads_config (rl_main r)) | _ => false end.
Proof.
  unfold reload_step. destruct (m_stopped (rl_main r)) eqn:St; [destruct v; rewrite orb_false_r; reflexivity|].
  destruct v; try (cbn; rewrite orb_false_r; reflexivity); try reflexivity.
  - rewrite orb_false_r. destruct (rl_matches r) eqn:M; [|exact M]. unfold note_signal. destruct (deliver_frame m r) as (_ & D & _).
    destruct (_ && _); cbn [rl_matches]; rewrite D; exact M.
  - rewrite orb_false_r. destruct (rl_timer r); [destruct (_ <=? _)%Z|]; reflexivity.
  - rewrite orb_false_r. destruct (rl_hup r); [destruct (_ <=? _)%Z|]; reflexivity.
  - rewrite orb_false_r. destruct (rl_done r) as [|[[]|[]] l]; reflexivity.
Qed.

Section Daemon.
Context (f : flags) (sf : sflags) (pow10 : Z -> dbl) (re : regex) (named : string).
Notation step := (daemon_step f sf pow10 re named).
Notation run := (daemon_run f sf pow10 re named).

(** As [step_reload], and when the configuration is taken from the bus. *)
Lemma step_moves d e d1 : m_stopped (dm_main d) = false -> step d e = Ok d1 ->
  dm_reload d1 = set_main (quit (dm_main d)) (dm_reload d) \/ dm_reload d1 = dm_reload d /\ (forall v, e = DMove v -> exists ok b bus, v = VRun ok b bus) \/
  exists v, dm_reload d1 = reload_step (dm_reload d) v /\
    (e = DMove v \/ exists w k ok b bus, e = DRun w k /\ v = VRun ok b bus /\ (bus = true -> no_config_file named (su_disk w) = true)).
Proof.
  intros St H. unfold daemon_step in H. rewrite St in H. destruct e as [e|w k|x].
  - destruct e; injection H as <-; try (right; right; eexists; split; [reflexivity|left; reflexivity]). right. left. split; [reflexivity|].
    intros v E. injection E as <-. eauto.
  - unfold run_handler in H. fold (plain d) in H.
    assert (P : forall x ok b bus, dm_reload x = reload_step (dm_reload d) (VRun ok b bus) -> (bus = true -> no_config_file named (su_disk w) = true) ->
      exists v, dm_reload x = reload_step (dm_reload d) v /\
      (DRun w k = DMove v \/ exists w' k' ok b bus, DRun w k = DRun w' k' /\ v = VRun ok b bus /\ (bus = true -> no_config_file named (su_disk w') = true))).
    { intros x ok b bus X Y. eexists. split; [exact X|]. right. exists w, k, ok, b, bus. auto. }
    assert (P0 : forall x, dm_reload x = dm_reload (plain d) -> exists v, dm_reload x = reload_step (dm_reload d) v /\
      (DRun w k = DMove v \/ exists w' k' ok b bus, DRun w k = DRun w' k' /\ v = VRun ok b bus /\ (bus = true -> no_config_file named (su_disk w') = true))).
    { intros x X. apply (P x true BNotReady false X). discriminate. }
    destruct (m_ready (dm_main d)) as [|o r] eqn:R; [injection H as <-; right; right; apply P0; reflexivity|].
    destruct o as [i []|[]|[]]; try (injection H as <-; right; right; apply P0; reflexivity).
    + destruct (index_of i (dm_ids d)) as [n|]; [|injection H as <-; right; right; apply P0; reflexivity].
      destruct (sys_tick f n k (dm_sys d)) as [s|s|s]; [injection H as <-; right; right; apply P0; reflexivity| |discriminate H].
      injection H as <-. right. right. apply (P _ false BNotReady false); [reflexivity|discriminate].
    + destruct (stopControlLoops (set_ready r (dm_main d))) as [[] m]; [|injection H as <-; right; right; apply P0; reflexivity].
      destruct (clear_zones f (wk_write_ok k) m d) as [d'|s|s] eqn:C; [|injection H as <-; left; reflexivity|discriminate H].
      apply bind_ok in H. destruct H as ((b & ex & s) & H1 & H). cbn zeta iota in H. injection H as <-.
      right. right. apply (P _ true b (no_config_file named (su_disk w))); [reflexivity|auto].
    + destruct (stopControlLoops (set_ready r (dm_main d))) as [[] m]; [|injection H as <-; right; right; apply P0; reflexivity].
      destruct (clear_zones f (wk_write_ok k) m d) as [d'|s|s] eqn:C; [|injection H as <-; left; reflexivity|discriminate H].
      injection H as <-. destruct (clear_reload _ _ _ _ _ C) as (E & _). right. right. apply P0. cbn. rewrite E. reflexivity.
  - assert (N : forall v, DSys x = DMove v -> exists ok b bus, v = VRun ok b bus) by discriminate.
    destruct x; try (match type of H with match ?g with _ => _ end = _ => destruct g as [s|s|s] end; try discriminate H; injection H as <-;
      [right; left; split; [reflexivity|exact N]|left; reflexivity]).
    injection H as <-. right. left. split; [reflexivity|exact N].
Qed.

(** ** With a configuration file *)

Lemma file_step d e d1 : (forall w k, e = DRun w k -> exists p, file_used named (su_disk w) p) -> rl_matches (dm_reload d) = false -> step d e = Ok d1 ->
  rl_matches (dm_reload d1) = false.
Proof.
  intros F M H. destruct (m_stopped (dm_main d)) eqn:St.
  { unfold daemon_step in H. rewrite St in H. injection H as <-. exact M. }
  destruct (step_moves _ _ _ St H) as [E|[(E & _)|(v & E & V)]]; rewrite E; [exact M|exact M|].
  rewrite step_matches, M. destruct V as [->|(w & k & ok & b & bus & -> & -> & B)].
  - unfold daemon_step in H. rewrite St in H. destruct v; try reflexivity. injection H as <-.
    apply (f_equal rl_matches) in E. rewrite step_matches, M in E. symmetry. exact E.
  - cbn [orb]. destruct bus; [|rewrite andb_false_r; reflexivity]. destruct (F _ _ eq_refl) as (p & U). rewrite (used_there _ _ _ U) in B. discriminate (B eq_refl).
Qed.
Lemma file_signal d m : rl_matches (dm_reload d) = false -> step d (DMove (VSignal m)) = Ok d.
Proof.
  intros M. unfold daemon_step. destruct (m_stopped (dm_main d)) eqn:St; [reflexivity|]. unfold reload_step. unfold dm_main in St. rewrite St, M.
  destruct d; reflexivity.
Qed.
Lemma file_run evs : forall d, file_installed named evs -> rl_matches (dm_reload d) = false -> run evs d = run (without_signals evs) d.
Proof.
  induction evs as [|e r IH]; intros d F M; [reflexivity|].
  assert (Fr : file_installed named r) by (intros w k I; exact (F w k (or_intror I))).
  unfold without_signals. cbn [filter]. destruct (is_signal_event e) eqn:S; cbn [negb].
  - destruct e as [[]| |]; try discriminate S. unfold daemon_run at 1. cbn [foldM]. rewrite (file_signal _ _ M). exact (IH _ Fr M).
  - unfold daemon_run. cbn [foldM]. destruct (step d e) as [d'|x|x] eqn:H; [|reflexivity|reflexivity]. cbn [bind].
    apply (IH _ Fr). apply (file_step _ _ _ (fun w k E => F w k (or_introl E)) M H).
Qed.
Lemma C104_file_lemma first devices evs : file_installed named evs ->
  run evs (daemon_init first devices) = run (without_signals evs) (daemon_init first devices).
Proof. intros F. apply (file_run _ _ F). reflexivity. Qed.

(** ** Without *)

Lemma keeps_watch evs : forall d d1, rl_matches (dm_reload d) = true -> run evs d = Ok d1 -> rl_matches (dm_reload d1) = true.
Proof.
  induction evs as [|e r IH]; intros d d1 M H; [injection H as <-; exact M|]. apply run_cons in H. destruct H as (d' & H1 & H). apply (IH d'); [|exact H].
  destruct (m_stopped (dm_main d)) eqn:St; [unfold daemon_step in H1; rewrite St in H1; injection H1 as <-; exact M|].
  destruct (step_moves _ _ _ St H1) as [E|[(E & _)|(v & E & _)]]; rewrite E; [exact M|exact M|]. rewrite step_matches, M. reflexivity.
Qed.
Lemma begins_watch d w k d1 : next_is (ORestart false) d -> no_file named (su_disk w) -> step d (DRun w k) = Ok d1 -> loop_stops d1 <> loop_stops d ->
  m_stopped (dm_main d1) = true \/ rl_matches (dm_reload d1) = true.
Proof.
  intros (r & R) N H L. unfold daemon_step in H. destruct (m_stopped (dm_main d)) eqn:St; [injection H as <-; elim (L eq_refl)|].
  unfold run_handler in H. rewrite R in H. destruct (stopControlLoops (set_ready r (dm_main d))) as [b m] eqn:Sc. destruct b.
  - destruct (clear_zones f (wk_write_ok k) m d) as [d'|s|s] eqn:C; [|injection H as <-; left; reflexivity|discriminate H].
    apply bind_ok in H. destruct H as ((b & ex & s) & _ & H). cbn zeta iota in H. injection H as <-. right. cbn [dm_reload].
    rewrite step_matches, (missing_there _ _ N). unfold reads_config. unfold dm_main in St, R, Sc. rewrite R, St, Sc. cbn. apply orb_true_r.
  - exfalso. apply L. injection H as <-. unfold loop_stops, history. fold (plain d). rewrite (plain_main _ St).
    unfold main_step, run_op. rewrite St, R. unfold restartControlLoops. rewrite Sc. apply stop_cases in Sc. destruct Sc as [(_ & -> & _)|(X & _)]; [|discriminate X].
    rewrite arm_retry_log'. cbn [m_log say cut set_ready]. cbn [rev]. rewrite filter_app. cbn. rewrite app_nil_r. reflexivity.
Qed.
Lemma is_watched pre w k post first devices da db d : run pre (daemon_init first devices) = Ok da -> next_is (ORestart false) da ->
  no_file named (su_disk w) -> step da (DRun w k) = Ok db -> loop_stops db <> loop_stops da -> run post db = Ok d ->
  m_stopped (dm_main d) = true \/ rl_matches (dm_reload d) = true.
Proof.
  intros Ha Nx Nf Hb L Hd. destruct (begins_watch _ _ _ _ Nx Nf Hb L) as [X|X].
  - left. rewrite (stopped_run _ _ _ _ _ _ _ _ X Hd). exact X.
  - right. exact (keeps_watch _ _ _ X Hd).
Qed.

(** ** Nothing is lost *)

Lemma replays evs : forall d d1, run evs d = Ok d1 -> m_stopped (dm_main d1) = false -> exists l, dm_reload d1 = reload_run l (dm_reload d).
Proof.
  induction evs as [|e r IH]; intros d d1 H St1; [injection H as <-; exists []; reflexivity|]. apply run_cons in H. destruct H as (d' & H1 & H).
  destruct (IH _ _ H St1) as (l & E). destruct (m_stopped (dm_main d)) eqn:St.
  { unfold daemon_step in H1. rewrite St in H1. injection H1 as <-. exists l. exact E. }
  destruct (step_moves _ _ _ St H1) as [X|[(X & _)|(v & X & _)]].
  - assert (S' : m_stopped (dm_main d') = true) by (unfold dm_main; rewrite X; reflexivity).
    rewrite (stopped_run _ _ _ _ _ _ _ _ S' H) in St1. congruence.
  - exists l. rewrite E, X. reflexivity.
  - exists (v :: l). rewrite E, X. reflexivity.
Qed.
Lemma going_stopped first devices evs d : run evs (daemon_init first devices) = Ok d -> going d -> m_stopped (dm_main d) = false.
Proof. intros H G. destruct (m_stopped (dm_main d)) eqn:St; [|reflexivity]. elim (G (run_ended _ _ _ _ _ _ _ _ _ H St)). Qed.

Lemma signal_step d m d1 : m_stopped (dm_main d) = false -> step d (DMove (VSignal m)) = Ok d1 -> d1 = set_reload (reload_step (dm_reload d) (VSignal m)) d.
Proof. intros St H. unfold daemon_step in H. rewrite St in H. injection H as <-. reflexivity. Qed.

Lemma C104_lost_lemma pre w k post m mid first devices da db d d1 :
  run pre (daemon_init first devices) = Ok da -> next_is (ORestart false) da -> no_file named (su_disk w) ->
  step da (DRun w k) = Ok db -> loop_stops db <> loop_stops da -> run post db = Ok d ->
  about_configuration m -> run (DMove (VSignal m) :: mid) d = Ok d1 -> going d1 -> settled (dm_reload d1) ->
  reread_since (dm_reload d) (dm_reload d1).
Proof.
  intros Ha Nx Nf Hb L Hd A H1 G Se.
  assert (H0 : run (pre ++ DRun w k :: post) (daemon_init first devices) = Ok d).
  { eapply run_app; [exact Ha|]. unfold daemon_run. cbn [foldM]. rewrite Hb. exact Hd. }
  pose proof (going_stopped _ _ _ _ (run_app _ _ _ _ _ _ _ _ _ _ H0 H1) G) as St1.
  assert (St : m_stopped (dm_main d) = false).
  { destruct (m_stopped (dm_main d)) eqn:St; [|reflexivity]. rewrite (stopped_run _ _ _ _ _ _ _ _ St H1) in St1. congruence. }
  destruct (is_watched _ _ _ _ _ _ _ _ _ Ha Nx Nf Hb L Hd) as [X|M]; [congruence|].
  apply run_cons in H1. destruct H1 as (d' & T & H1). pose proof (signal_step _ _ _ St T) as ->.
  destruct (replays _ _ _ H0 St) as (l & E). destruct (replays _ _ _ H1 St1) as (l1 & E1). cbn [dm_reload set_reload] in E1.
  change (dm_reload (daemon_init first devices)) with reload_init in E. rewrite E.
  apply (C81_lost_lemma (l ++ VSignal m :: l1) l m l1 (dm_reload d1) eq_refl); [|exact A|rewrite <- E; exact M|exact G|exact Se].
  rewrite reload_run_app, <- E, E1. reflexivity.
Qed.

(** ** How long it takes *)

Lemma clock evs : forall d d1, run evs d = Ok d1 -> m_stopped (dm_main d1) = false -> rl_now (dm_reload d1) = (rl_now (dm_reload d) + waited evs)%Z.
Proof.
  induction evs as [|e r IH]; intros d d1 H St1; [injection H as <-; cbn; lia|]. apply run_cons in H. destruct H as (d' & H1 & H).
  rewrite (IH _ _ H St1). cbn [waited fold_right]. fold (waited r).
  destruct (m_stopped (dm_main d)) eqn:St.
  { unfold daemon_step in H1. rewrite St in H1. injection H1 as <-. rewrite (stopped_run _ _ _ _ _ _ _ _ St H) in St1. congruence. }
  destruct (step_moves _ _ _ St H1) as [X|[(X & V)|(v & X & V)]].
  - assert (S' : m_stopped (dm_main d') = true) by (unfold dm_main; rewrite X; reflexivity).
    rewrite (stopped_run _ _ _ _ _ _ _ _ S' H) in St1. congruence.
  - rewrite X. destruct e as [v| |]; try (cbn [wait_of]; lia). destruct (V _ eq_refl) as (ok & b & bus & ->). cbn [wait_of]. lia.
  - assert (N : forall v, rl_now (reload_step (dm_reload d) v) = (rl_now (dm_reload d) + wait_of (DMove v))%Z).
    { intros x. unfold dm_main in St. unfold reload_step. rewrite St. destruct x; cbn [wait_of]; try (cbn; lia).
      - destruct (rl_matches _); [|lia]. unfold note_signal. destruct (deliver_frame m (dm_reload d)) as (_ & _ & _ & Y & _). destruct (_ && _); cbn [rl_now]; rewrite Y; lia.
      - destruct (rl_timer _); [destruct (_ <=? _)%Z|]; cbn; lia.
      - destruct (rl_hup _); [destruct (_ <=? _)%Z|]; cbn; lia.
      - destruct (rl_done _) as [|[[]|[]] q]; cbn; lia. }
    rewrite X, N. destruct V as [->|(w & k & ok & b & bus & -> & -> & _)]; cbn [wait_of]; lia.
Qed.

(** The reload is queued behind fewer than [n] handlers of the timers, or already further. *)
Definition comes (n : nat) (d : daemon) : Prop :=
  (exists a b, rl_done (dm_reload d) = a ++ TReload false :: b /\ List.length a < n) \/ exists k, way true k (dm_main d).
Definition timed (t : Z) (d : daemon) : Prop := exists x, rl_timer (dm_reload d) = Some x /\ (x <= t)%Z.
Definition timer_run (e : daemon_ev) : nat := if is_timer_run e then 1 else 0.

Lemma way_kept d e d1 : fit (dm_main d) -> m_stopped (dm_main d) = false -> step d e = Ok d1 -> nstarts (m_log (dm_main d1)) = nstarts (m_log (dm_main d)) ->
  (exists k, way true k (dm_main d)) -> over true (dm_main d) (dm_main d1) \/ exists k, way true k (dm_main d1).
Proof.
  intros F St H Ns (k & W). pose proof (step_acts _ _ _ _ _ _ _ _ St H) as A.
  destruct (acts_step true (way true) ltac:(intros j m; rewrite Nat.sub_0_r; auto) (way_step true) _ _ _ _ F St W A Ns) as [X|X]; [left; exact X|right; eexists; exact X].
Qed.

(** What an event does to completed waits. *)
Lemma done_kept r v : m_stopped (rl_main r) = false ->
  (exists l, rl_done (reload_step r v) = rl_done r ++ l) \/
  v = VHandler /\ exists o q, rl_done r = o :: q /\ rl_done (reload_step r v) = q /\
    (o = TReload false -> rl_main (reload_step r v) = main_step (rl_main r) EPostRestart).
Proof.
  intros St. unfold reload_step. rewrite St. destruct v; try (left; exists []; rewrite app_nil_r; reflexivity).
  - left. destruct (rl_matches r); [|exists []; rewrite app_nil_r; reflexivity]. unfold note_signal.
    destruct (deliver_frame m r) as (_ & _ & _ & _ & _ & (n & D) & _). exists (repeat (TReload true) n). destruct (_ && _); exact D.
  - left. unfold arm_hup. cbn. destruct (rl_hup r); eexists; [reflexivity|rewrite app_nil_r; reflexivity].
  - left. destruct (rl_timer r); [destruct (_ <=? _)%Z|]; eexists; [reflexivity|rewrite app_nil_r; reflexivity..].
  - left. destruct (rl_hup r); [destruct (_ <=? _)%Z|]; eexists; [reflexivity|rewrite app_nil_r; reflexivity..].
  - destruct (rl_done r) as [|o q] eqn:D; [left; exists []; rewrite D; reflexivity|]. right. split; [reflexivity|]. exists o, q. split; [reflexivity|].
    split; [destruct o as [[]|[]]; reflexivity|]. intros ->. reflexivity.
Qed.

Lemma comes_step n d e d1 : fit (dm_main d) -> m_stopped (dm_main d) = false -> step d e = Ok d1 -> nstarts (m_log (dm_main d1)) = nstarts (m_log (dm_main d)) ->
  comes n d -> over true (dm_main d) (dm_main d1) \/ comes (n - timer_run e) d1.
Proof.
  intros F St H Ns [(a & b & D & L)|W].
  - destruct (step_moves _ _ _ St H) as [X|[(X & V)|(v & X & V)]].
    + left. left. unfold dm_main. rewrite X. reflexivity.
    + right. left. exists a, b. rewrite X. split; [exact D|]. unfold timer_run, is_timer_run. destruct e as [[]| |]; try lia.
      destruct (V _ eq_refl) as (? & ? & ? & Y). discriminate Y.
    + destruct (done_kept (dm_reload d) v St) as [(l & K)|(-> & o & q & K1 & K2 & K3)].
      * destruct (is_timer_run e) eqn:T.
        -- destruct e as [[]| |]; try discriminate T. destruct V as [V|(? & ? & ? & ? & ? & V & _)]; [injection V as <-|discriminate V].
           exfalso. unfold reload_step in K. unfold dm_main in St. rewrite St in K. rewrite D in K.
           assert (Y : List.length (rl_done (reload_step (dm_reload d) VHandler)) < List.length (rl_done (dm_reload d))).
           { unfold reload_step. rewrite St, D. destruct a as [|[[]|[]] a]; cbn; lia. }
           unfold reload_step in Y. rewrite St, D in Y. rewrite K, !app_length in Y. lia.
        -- right. left. exists a, (b ++ l). unfold timer_run. rewrite T. rewrite X, K, D, <- app_assoc. split; [reflexivity|lia].
      * destruct V as [->|(? & ? & ? & ? & ? & _ & V & _)]; [|discriminate V]. unfold timer_run. cbn [is_timer_run].
        rewrite K1 in D. destruct a as [|o' a]; injection D as D1 D2.
        -- right. right. exists (S (List.length (m_ready (dm_main d)))). right. unfold dm_main at 2. rewrite X, (K3 D1). fold (dm_main d).
           exists (m_ready (dm_main d)), []. unfold main_step. rewrite St. split; [reflexivity|lia].
        -- right. left. exists a, b. rewrite X, K2. split; [exact D2|]. cbn in L. lia.
  - destruct (way_kept _ _ _ F St H Ns W) as [X|X]; [left; exact X|right; right; exact X].
Qed.
Lemma comes_run evs : forall n d d1, fit (dm_main d) -> comes n d -> run evs d = Ok d1 -> nstarts (m_log (dm_main d1)) = nstarts (m_log (dm_main d)) ->
  over true (dm_main d) (dm_main d1) \/ fit (dm_main d1) /\ comes (n - timer_handlers evs) d1.
Proof.
  induction evs as [|e r IH]; intros n d d1 F C H Ns.
  - injection H as <-. right. split; [exact F|]. cbn. rewrite Nat.sub_0_r. exact C.
  - apply run_cons in H. destruct H as (d' & H1 & H). destruct (m_stopped (dm_main d)) eqn:St.
    { left. left. unfold daemon_step in H1. rewrite St in H1. injection H1 as <-. rewrite (stopped_run _ _ _ _ _ _ _ _ St H). exact St. }
    pose proof (step_acts _ _ _ _ _ _ _ _ St H1) as A. pose proof (grows_acts _ _ _ A) as G. pose proof (grows_run _ _ _ _ _ _ _ _ H) as G2.
    destruct (grows_le _ _ G) as (L1 & L2 & _). destruct (grows_le _ _ G2) as (L3 & L4 & _).
    destruct (comes_step _ _ _ _ F St H1 ltac:(lia) C) as [O|C1].
    + left. apply (over_mono _ _ _ _ O); [|exact G2]. intros X. rewrite (stopped_run _ _ _ _ _ _ _ _ X H). reflexivity.
    + destruct (m_stopped (dm_main d')) eqn:St'; [left; left; rewrite (stopped_run _ _ _ _ _ _ _ _ St' H); exact St'|].
      destruct (IH _ _ _ (fit_acts _ _ _ F St' A) C1 H) as [O|(F1 & P2)]; [lia|left; exact (over_le _ _ _ _ O G)|right].
      split; [exact F1|]. replace (n - timer_handlers (e :: r)) with (n - timer_run e - timer_handlers r); [exact P2|].
      unfold timer_handlers, timer_run. cbn [filter]. destruct (is_timer_run e); cbn [List.length]; lia.
Qed.

(** The timer runs until it expires, if nothing new comes. *)
Lemma timed_step t d e d1 : m_stopped (dm_main d) = false -> step d e = Ok d1 -> (forall m, e = DMove (VSignal m) -> ~ about_configuration m) ->
  timed t d -> m_stopped (dm_main d1) = true \/ timed t d1 \/ exists n, comes n d1.
Proof.
  intros St H N (x & T & L). destruct (step_moves _ _ _ St H) as [X|[(X & V)|(v & X & V)]].
  - left. unfold dm_main. rewrite X. reflexivity.
  - right. left. exists x. rewrite X. auto.
  - assert (Y : v = VExpire \/ rl_timer (reload_step (dm_reload d) v) = rl_timer (dm_reload d)).
    { assert (Nv : forall m, v = VSignal m -> ~ about_configuration m).
      { intros m ->. destruct V as [->|(? & ? & ? & ? & ? & _ & V & _)]; [exact (N _ eq_refl)|discriminate V]. }
      destruct v; try (right; unfold reload_step; unfold dm_main in St; rewrite St; reflexivity).
      - right. rewrite (signal_ignored _ _ (Nv _ eq_refl)). reflexivity.
      - left. reflexivity.
      - right. unfold reload_step. unfold dm_main in St. rewrite St. destruct (rl_hup _); [destruct (_ <=? _)%Z|]; reflexivity.
      - right. unfold reload_step. unfold dm_main in St. rewrite St. destruct (rl_done _) as [|[[]|[]] q]; reflexivity. }
    right. destruct Y as [->|Y]; [|left; exists x; rewrite X, Y; auto].
    unfold reload_step in X. unfold dm_main in St. rewrite St, T in X. destruct (x <=? rl_now (dm_reload d))%Z; [right|left; exists x; rewrite X; auto].
    exists (S (List.length (rl_done (dm_reload d)))). left. exists (rl_done (dm_reload d)), []. rewrite X. split; [reflexivity|lia].
Qed.
Lemma comes_some evs n d d1 : fit (dm_main d) -> comes n d -> run evs d = Ok d1 -> nstarts (m_log (dm_main d1)) = nstarts (m_log (dm_main d)) ->
  over true (dm_main d) (dm_main d1) \/ fit (dm_main d1) /\ exists n, comes n d1.
Proof. intros F C H Ns. destruct (comes_run _ _ _ _ F C H Ns) as [X|(X & Y)]; [left; exact X|right; split; [exact X|eexists; exact Y]]. Qed.
Lemma timed_run evs : forall t d d1, fit (dm_main d) -> timed t d -> nothing_new evs -> run evs d = Ok d1 ->
  nstarts (m_log (dm_main d1)) = nstarts (m_log (dm_main d)) ->
  over true (dm_main d) (dm_main d1) \/ fit (dm_main d1) /\ (timed t d1 \/ exists n, comes n d1).
Proof.
  induction evs as [|e r IH]; intros t d d1 F T N H Ns.
  - injection H as <-. right. split; [exact F|left; exact T].
  - apply run_cons in H. destruct H as (d' & H1 & H). destruct (m_stopped (dm_main d)) eqn:St.
    { left. left. unfold daemon_step in H1. rewrite St in H1. injection H1 as <-. rewrite (stopped_run _ _ _ _ _ _ _ _ St H). exact St. }
    pose proof (step_acts _ _ _ _ _ _ _ _ St H1) as A. pose proof (grows_acts _ _ _ A) as G. pose proof (grows_run _ _ _ _ _ _ _ _ H) as G2.
    destruct (grows_le _ _ G) as (L1 & L2 & _). destruct (grows_le _ _ G2) as (L3 & L4 & _).
    destruct (m_stopped (dm_main d')) eqn:St'; [left; left; rewrite (stopped_run _ _ _ _ _ _ _ _ St' H); exact St'|].
    pose proof (fit_acts _ _ _ F St' A) as F'.
    destruct (timed_step t d e d' St H1 ltac:(intros m ->; apply N; left; reflexivity) T) as [X|[X|(n & X)]]; [congruence| |].
    + destruct (IH t d' d1 F' X ltac:(intros m I; apply N; right; exact I) H ltac:(lia)) as [O|O]; [left; exact (over_le _ _ _ _ O G)|right; exact O].
    + destruct (comes_some _ _ _ _ F' X H ltac:(lia)) as [O|(O1 & O2)]; [left; exact (over_le _ _ _ _ O G)|right; auto].
Qed.

(** As [two_attempts], when the first attempt may be over already. *)
Lemma two_more n d0 evs1 d1 evs2 d2 evs3 d3 : fit (dm_main d0) -> way true n (dm_main d0) ->
  run evs1 d0 = Ok d1 -> queued d0 <= handlers evs1 -> run evs2 d1 = Ok d2 ->
  run (DMove VRetry :: evs3) d2 = Ok d3 -> queued d2 < handlers evs3 ->
  nstarts (m_log (dm_main d3)) = nstarts (m_log (dm_main d0)) -> over true (dm_main d0) (dm_main d3).
Proof.
  intros F [Du|(a & b & Q & _)] H1 L1 H2 H3 L3 Ns.
  - pose proof (run_app _ _ _ _ _ _ _ _ _ _ H1 H2) as H12. pose proof H3 as H3'. apply run_cons in H3. destruct H3 as (d2' & T & H3).
    pose proof (grows_run _ _ _ _ _ _ _ _ H12) as G1. pose proof (grows_step _ _ _ _ _ _ _ _ T) as GT. pose proof (grows_run _ _ _ _ _ _ _ _ H3) as G3.
    destruct (grows_le _ _ G1) as (A1 & B1 & _), (grows_le _ _ GT) as (AT & BT & _), (grows_le _ _ G3) as (A3 & B3 & _).
    assert (Fin : over true (dm_main d0) (dm_main d2) -> over true (dm_main d0) (dm_main d3)).
    { intros [X|(_ & X)]; [|right; split; [reflexivity|lia]]. left. rewrite (stopped_run _ _ _ _ _ _ _ _ X H3'). exact X. }
    destruct (phase _ _ _ _ _ true (due true) (acts_step true (due true) ltac:(auto) (due_step true)) (evs1 ++ evs2) 0 d0 d2 F Du H12) as [O|(F2 & D2)]; [lia|exact (Fin O)|].
    destruct (m_stopped (dm_main d2)) eqn:St; [apply Fin; left; exact St|].
    destruct (timer_step true (dm_main d2) St (proj1 D2) (proj2 D2)) as (H & B).
    pose proof (timer_daemon f sf pow10 re named true _ _ St T) as Et. rewrite <- Et in H, B.
    assert (F2' : fit (dm_main d2')) by (rewrite Et; apply fit_step, F2).
    destruct (phase _ _ _ _ _ true (last_time true) (acts_step true (last_time true) ltac:(intros k m; rewrite Nat.sub_0_r; auto) (last_step true)) evs3 _ d2' d3 F2' (conj H B) H3) as [O|(_ & _ & (a & b & _ & L & _))]; [lia| |].
    + apply (over_le _ _ _ _ O). exact (grows_trans _ _ _ G1 GT).
    + exfalso. unfold queued in L3. lia.
  - assert (Q' : queued_at true (queued d0) (dm_main d0)).
    { exists a, b. split; [exact Q|]. unfold queued. rewrite Q, app_length. cbn. lia. }
    exact (two_attempts f sf pow10 re named true _ d0 evs1 d1 evs2 d2 evs3 d3 F Q' H1 L1 H2 H3 L3 Ns).
Qed.

Lemma reread_more d d1 : grows (dm_main d) (dm_main d1) -> nstops (m_log (dm_main d)) < nstops (m_log (dm_main d1)) -> reread_since (dm_reload d) (dm_reload d1).
Proof.
  intros (h & G & _) L. exists (rev h). split.
  - unfold since, history. fold (dm_main d) (dm_main d1). rewrite G, rev_app_distr. reflexivity.
  - rewrite G, nstops_app in L. rewrite <- in_rev. destruct (filter (fun e => match e with MStopped => true | _ => false end) h) as [|y t] eqn:Fh.
    + exfalso. unfold nstops in L at 2. rewrite Fh in L. cbn in L. lia.
    + assert (Y : In y (y :: t)) by (left; reflexivity). rewrite <- Fh in Y. apply filter_In in Y. destruct Y as (Y & Z). destruct y; try discriminate Z. exact Y.
Qed.

Lemma C104_served_lemma pre w k post m evs1 evs2 evs3 evs4 evs5 first devices da db d0 d1 d2 d3 d4 d5 :
  run pre (daemon_init first devices) = Ok da -> next_is (ORestart false) da -> no_file named (su_disk w) ->
  step da (DRun w k) = Ok db -> loop_stops db <> loop_stops da -> run post db = Ok d0 ->
  about_configuration m -> nothing_new evs1 ->
  run (DMove (VSignal m) :: evs1) d0 = Ok d1 -> (2000 <= waited evs1)%Z ->
  run (DMove VExpire :: evs2) d1 = Ok d2 -> timers_queued d1 < timer_handlers evs2 ->
  run evs3 d2 = Ok d3 -> queued d2 <= handlers evs3 -> run evs4 d3 = Ok d4 ->
  run (DMove VRetry :: evs5) d4 = Ok d5 -> queued d4 < handlers evs5 ->
  ended (dm_reload d5) \/ reread_since (dm_reload d0) (dm_reload d5).
Proof.
  intros Ha Nx Nf Hb L Hd A Nn H1 Lw H2 L2 H3 L3 H4 H5 L5.
  assert (H0 : run (pre ++ DRun w k :: post) (daemon_init first devices) = Ok d0).
  { eapply run_app; [exact Ha|]. unfold daemon_run. cbn [foldM]. rewrite Hb. exact Hd. }
  pose proof (run_app _ _ _ _ _ _ _ _ _ _ H4 H5) as R35. pose proof (run_app _ _ _ _ _ _ _ _ _ _ H3 R35) as R25.
  pose proof (run_app _ _ _ _ _ _ _ _ _ _ H2 R25) as R15. pose proof (run_app _ _ _ _ _ _ _ _ _ _ H1 R15) as R05.
  assert (E : m_stopped (dm_main d5) = true -> ended (dm_reload d5)) by exact (run_ended _ _ _ _ _ _ _ _ _ (run_app _ _ _ _ _ _ _ _ _ _ H0 R05)).
  destruct (m_stopped (dm_main d5)) eqn:St5; [left; exact (E eq_refl)|right].
  assert (Alive : forall l d, run l d = Ok d5 -> m_stopped (dm_main d) = false).
  { intros l d H. destruct (m_stopped (dm_main d)) eqn:X; [|reflexivity]. rewrite (stopped_run _ _ _ _ _ _ _ _ X H) in St5. congruence. }
  pose proof (Alive _ _ R05) as St0. pose proof (Alive _ _ R15) as St1. pose proof (Alive _ _ R25) as St2.
  destruct (fit_daemon _ _ _ _ _ _ _ _ (fit_start_daemon first devices) H0) as [X|F0]; [congruence|].
  pose proof (grows_run _ _ _ _ _ _ _ _ R05) as G. apply (reread_more _ _ G). destruct (grows_le _ _ G) as (Gs & Gn & N).
  destruct (Nat.eq_dec (nstops (m_log (dm_main d5))) (nstops (m_log (dm_main d0)))) as [Ns|Ns]; [exfalso|lia]. specialize (N Ns).
  destruct (is_watched _ _ _ _ _ _ _ _ _ Ha Nx Nf Hb L Hd) as [X|M]; [congruence|].
  apply run_cons in H1. destruct H1 as (d0' & T & H1). pose proof (signal_step _ _ _ St0 T) as Ed.
  assert (Em : dm_main d0' = dm_main d0).
  { rewrite Ed. unfold dm_main at 1. cbn [dm_reload set_reload]. rewrite step_main. unfold main_part. change (rl_main (dm_reload d0)) with (dm_main d0). rewrite St0. reflexivity. }
  assert (F0' : fit (dm_main d0')) by (rewrite Em; exact F0).
  assert (T0 : timed (rl_now (dm_reload d0) + 2000) d0').
  { exists (rl_now (dm_reload d0) + 2000)%Z. split; [|lia]. rewrite Ed. exact (proj1 (signal_counts _ _ St0 M A)). }
  assert (Now : rl_now (dm_reload d0') = rl_now (dm_reload d0)).
  { pose proof (clock [DMove (VSignal m)] d0 d0') as C. cbn [waited fold_right wait_of] in C. rewrite C; [lia| |rewrite Em; exact St0].
    unfold daemon_run. cbn [foldM]. rewrite T. reflexivity. }
  pose proof (clock _ _ _ H1 St1) as Ck.
  pose proof (grows_run _ _ _ _ _ _ _ _ H1) as G1. pose proof (grows_run _ _ _ _ _ _ _ _ H2) as G2. pose proof (grows_run _ _ _ _ _ _ _ _ R25) as G3.
  destruct (grows_le _ _ G1) as (A1 & B1 & _), (grows_le _ _ G2) as (A2 & B2 & _), (grows_le _ _ G3) as (A3 & B3 & _). rewrite Em in A1, B1.
  assert (No : forall a b, nstops (m_log (dm_main d0)) <= nstops (m_log a) -> m_stopped b = false -> nstops (m_log b) <= nstops (m_log (dm_main d5)) -> over true a b -> False).
  { intros a b Y1 Y2 Y3 [Y|(_ & Y)]; [congruence|lia]. }
  destruct (timed_run _ _ _ _ F0' T0 Nn H1) as [O|(F1 & C1)]; [rewrite Em; lia|apply (No (dm_main d0') (dm_main d1) ltac:(rewrite Em; lia) St1 ltac:(lia) O)|].
  apply run_cons in H2. destruct H2 as (d1' & Tx & H2).
  assert (Ex : d1' = set_reload (reload_step (dm_reload d1) VExpire) d1) by (unfold daemon_step in Tx; rewrite St1 in Tx; injection Tx as <-; reflexivity).
  assert (Em1 : dm_main d1' = dm_main d1).
  { rewrite Ex. unfold dm_main at 1. cbn [dm_reload set_reload]. rewrite step_main. unfold main_part. change (rl_main (dm_reload d1)) with (dm_main d1). rewrite St1. reflexivity. }
  assert (C1' : comes (S (timers_queued d1)) d1').
  { unfold timers_queued. destruct C1 as [(x & Tm & Le)|(n & C1)].
    - left. exists (rl_done (dm_reload d1)), []. rewrite Ex. cbn [dm_reload set_reload]. unfold reload_step. unfold dm_main in St1. rewrite St1, Tm.
      destruct (Z.leb_spec x (rl_now (dm_reload d1))); [|lia]. split; [reflexivity|lia].
    - destruct C1 as [(a & b & D & _)|W]; [left|right; rewrite Em1; exact W].
      destruct (done_kept (dm_reload d1) VExpire St1) as [(l & K)|(K & _)]; [|discriminate K]. exists a, (b ++ l). rewrite Ex. cbn [dm_reload set_reload].
      rewrite K, D, <- app_assoc. split; [reflexivity|]. rewrite app_length. cbn. lia. }
  destruct (comes_run _ _ _ _ ltac:(rewrite Em1; exact F1) C1' H2) as [O|(F2 & C2)]; [rewrite Em1; lia|apply (No (dm_main d1') (dm_main d2) ltac:(rewrite Em1; lia) St2 ltac:(lia) O)|].
  destruct C2 as [(a & b & _ & Lx)|(n & W)]; [exfalso; lia|].
  apply (No (dm_main d2) (dm_main d5) ltac:(lia) St5 ltac:(lia) (two_more n d2 evs3 d3 evs4 d4 evs5 d5 F2 W H3 L3 H4 H5 L5 ltac:(lia))).
Qed.

End Daemon.
