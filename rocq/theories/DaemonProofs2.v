(** * Proofs about the whole daemon (C91 to C93). *)
From Coq Require Import ZArith Bool List String Permutation Lia.
From Verif Require Import Base BaseFacts Dbl PidModel ZoneModel LoopModel BuilderModel SpecBuilder BuilderProofs BuilderRun ConfigModel
  SensorModel WriteModel SystemModel SpecSystem SpecZone ZoneFrame ZoneProofs SystemProofs SystemProofs2 SystemProofs3
  SystemProofs4 JsonModel SpecJson JsonProofs JsonSystemProofs DbusConfigModel SpecDbus DbusProofs4
  LogModel MainModel SpecMain MainProofs MainProofs2 ReloadModel SpecReload ReloadProofs StartModel SpecStart StartProofs DaemonModel SpecDaemon
  DaemonProofs.
Import ListNotations.
Local Open Scope string_scope.
Local Open Scope outcome_scope.

(** ** Building has no undefined behaviour *)

Definition noub {A : Type} (o : outcome A) : Prop := forall m, o <> UB m.
Lemma noub_ok {A : Type} (x : A) : noub (Ok x).
Proof. intros m. discriminate. Qed.
Lemma noub_throw {A : Type} m : noub (@Throw A m).
Proof. intros m'. discriminate. Qed.
Lemma noub_bind {A B : Type} (o : outcome A) (k : A -> outcome B) : noub o -> (forall a, noub (k a)) -> noub (bind o k).
Proof. intros H K. destruct o as [a|m|m]; [apply K|apply noub_throw|elim (H m); reflexivity]. Qed.
Lemma noub_fold {A S : Type} (g : S -> A -> outcome S) l : (forall s a, noub (g s a)) -> forall s, noub (foldM g l s).
Proof. intros H. induction l as [|x r IH]; intros s; cbn; [apply noub_ok|]. apply noub_bind; auto. Qed.

Lemma buildZones_noub bus_ok zp confs : noub (buildZones bus_ok zp confs).
Proof. exact (buildZones_defined bus_ok confs zp). Qed.
Lemma FixupPath_noub dir p : noub (FixupPath dir p).
Proof.
  unfold FixupPath. destruct (split_stars p) as [[base r]|]; [|apply noub_ok]. destruct (dir base) as [[|x l]|]; [apply noub_ok|apply noub_ok|apply noub_throw].
Qed.
Lemma buildSensors_noub sf pow10 sb config : noub (buildSensors sf pow10 sb config).
Proof.
  unfold buildSensors. destruct (can_register _ _); [|apply noub_throw]. apply noub_fold. intros m [n info]. unfold build_sensor.
  apply noub_bind.
  - unfold make_reader. destruct (getReadInterfaceType _); try apply noub_ok.
    + destruct (createDbusPassive _ _ _ _ _ _ _); [apply noub_ok|apply noub_throw].
    + apply noub_bind; [apply FixupPath_noub|intros; apply noub_ok].
  - intros r. destruct (String.eqb _ _).
    + apply noub_bind; [|intros; apply noub_ok]. unfold make_writer. destruct (getWriteInterfaceType _); try apply noub_ok.
      * destruct (sb_writable _ _); [apply noub_ok|apply noub_throw].
      * apply noub_bind; [apply FixupPath_noub|intros; apply noub_ok].
    + destruct (smem _ _); [|apply noub_ok]. destruct (getReadInterfaceType _); apply noub_ok.
Qed.

(** ** What can end the daemon *)

Lemma stop_terms m : inv1 m -> forall o, In (OTerminate o) (m_ready (snd (stopControlLoops m))) -> In (OTerminate o) (m_ready m).
Proof.
  intros I o H. assert (E : m_ready (snd (stopControlLoops m)) = m_ready (cancelled m)).
  { destruct (stopControlLoops m) as [[] m1] eqn:S.
    - apply stop_true_state in S; [|exact I]. subst. reflexivity.
    - apply stop_fail_inv in S; [|exact I]. destruct S as (_ & _ & ->). reflexivity. }
  rewrite E in H. unfold cancelled in H. cbn in H. apply in_app_or in H. destruct H as [H|H]; [exact H|].
  apply in_map_iff in H. destruct H as (y & H & _). discriminate H.
Qed.
Lemma term_source m x : inv1 m -> term_pending (main_step m x) -> x = EPostTerminate \/ term_pending m.
Proof.
  intros I. unfold main_step. destruct (m_stopped m) eqn:St; [auto|].
  assert (K : forall o m', m_ready m' = (m_ready m ++ [o])%list -> o <> OTerminate false -> m_ttimer m' = m_ttimer m ->
    term_pending m' -> term_pending m).
  { intros o m' R N T [X|X]; [left|right; congruence]. rewrite R in X. apply in_app_or in X. destruct X as [X|[X|[]]]; [exact X|contradiction]. }
  destruct x as [i| | | | |ok b]; try (left; reflexivity).
  - destruct (imem i (m_armed m)); [|auto]. intros H. right. refine (K (OLoop i false) _ _ _ _ H); [reflexivity|discriminate|reflexivity].
  - destruct (m_rtimer m); [|auto]. intros H. right. refine (K (ORestart false) _ _ _ _ H); [reflexivity|discriminate|reflexivity].
  - destruct (m_ttimer m) eqn:T; [|auto]. intros _. right. right. exact T.
  - intros H. right. refine (K (ORestart false) _ _ _ _ H); [reflexivity|discriminate|reflexivity].
  - intros H. right. destruct (m_ready m) as [|o r] eqn:R; [exact H|].
    assert (P : term_pending (set_ready r m) -> term_pending m).
    { intros [X|X]; [left|right; exact X]. rewrite R. right. exact X. }
    destruct o as [i []|[]|[]]; try (apply P; exact H).
    + apply P. cbn in H. destruct ok; [destruct (m_canceling m)|]; exact H.
    + pose proof (pop_inv _ _ _ I R eq_refl) as I1. cbn [run_op] in H.
      pose proof (restart_ready b _ I1) as Rr.
      assert (Tt : m_ttimer (snd (restartControlLoops b (set_ready r m))) = m_ttimer m).
      { unfold restartControlLoops. destruct (stop_kept (set_ready r m)) as ((_ & _ & T) & _). destruct (stopControlLoops _) as [[] m1]; cbn [snd] in T |- *; [|exact T].
        destruct b as [| | |ids n]; try exact T. destruct (nodup Z.eq_dec ids); [exact T|].
        match goal with |- context [start_loops ?zs ?g ?t] => destruct (start_kept zs g t) as ((_ & _ & T2) & _) end. rewrite T2. exact T. }
      assert (Q : term_pending (snd (restartControlLoops b (set_ready r m))) -> term_pending m).
      { intros [X|X]; [|right; congruence]. left. rewrite Rr in X. unfold cancelled in X. cbn in X. apply in_app_or in X.
        destruct X as [X|X]; [rewrite R; right; exact X|]. apply in_map_iff in X. destruct X as (y & X & _). discriminate X. }
      destruct (restartControlLoops b (set_ready r m)) as [[] m1]; cbn [snd] in Q; [auto|]. apply Q.
      unfold arm_retry in H. destruct (m_rtimer m1); [|exact H]. destruct H as [X|X]; [left|right; exact X].
      cbn in X. apply in_app_or in X. destruct X as [X|[X|[]]]; [exact X|discriminate X].
    + left. rewrite R. left. reflexivity.
Qed.

Lemma stop_handler m ok b : inv1 m -> m_stopped m = false -> m_stopped (main_step m (ERun ok b)) = true ->
  ok = false \/ b = BExit \/ (exists n, b = BZones [] n) \/ exists r, m_ready m = OTerminate false :: r.
Proof.
  intros I St. unfold main_step. rewrite St. destruct (m_ready m) as [|o r] eqn:R; [congruence|].
  destruct o as [i []|[]|[]]; cbn [run_op]; try (cbn; congruence).
  - destruct ok; [|auto]. cbn. destruct (m_canceling m); cbn; congruence.
  - unfold restartControlLoops. destruct (stop_kept (set_ready r m)) as (_ & Es & _).
    assert (Ar : forall m', m_stopped m' = false -> m_stopped (arm_retry m') = true -> False).
    { intros m' E1 E2. unfold arm_retry in E2. destruct (m_rtimer m'); cbn in E2; congruence. }
    cbn in Es. destruct (stopControlLoops (set_ready r m)) as [[] m1]; cbn [snd] in Es; rewrite St in Es; [|intros H; elim (Ar _ Es H)].
    destruct b as [| | |ids n]; auto; try congruence; [intros H; elim (Ar _ Es H)|].
    destruct (nodup Z.eq_dec ids) as [|z0 zr] eqn:N.
    + intros _. right. right. left. exists n. f_equal. destruct ids as [|z ids]; [reflexivity|].
      assert (X : In z (nodup Z.eq_dec (z :: ids))) by (apply nodup_In; left; reflexivity). rewrite N in X. destruct X.
    + assert (X : forall zs n t, m_stopped (snd (start_loops zs n t)) = m_stopped t).
      { clear. induction zs as [|z zs IH]; intros n t; cbn; [reflexivity|]. destruct n; cbn; [reflexivity|]. rewrite IH. reflexivity. }
      match goal with |- context [start_loops ?zs ?g ?t] => specialize (X zs g t); destruct (start_loops zs g t) as [[] m2] end;
        cbn [snd] in X; cbn in X; rewrite Es in X; [congruence|intros H; elim (Ar _ X H)].
  - intros _. right. right. right. exists r. reflexivity.
Qed.
Lemma stop_source m ok b : inv1 m -> m_stopped m = false -> m_stopped (main_step m (ERun ok b)) = true ->
  ok = false \/ b = BExit \/ (exists n, b = BZones [] n) \/ term_pending m.
Proof.
  intros I St H. destruct (stop_handler _ _ _ I St H) as [X|[X|[X|(r & R)]]]; auto.
  right. right. right. left. rewrite R. left. reflexivity.
Qed.

Section Life2.
Context (f : flags) (sf : sflags) (pow10 : Z -> dbl) (re : regex) (named : string).
Notation kind := (kind f sf pow10 re named).
Notation step := (daemon_step f sf pow10 re named).
Notation run := (daemon_run f sf pow10 re named).

(** ** Fans (C91) *)

Lemma restart_left w old s b ex s0 : restart f sf pow10 re named w old s = Ok (b, (ex, s0)) -> left_alone s s0.
Proof.
  unfold restart, left_alone. intros H.
  destruct (read_configuration sf re named (su_disk w) (su_config w)) as [[c| |]|m|m]; try discriminate H; try (injection H as _ _ <-; split; reflexivity).
  set (s1 := match su_redundancy w with Some l => set_failures l s | None => s end) in H.
  assert (E1 : sy_power s1 = sy_power s /\ sy_devices s1 = sy_devices s) by (unfold s1; destruct (su_redundancy w); split; reflexivity).
  clearbody s1. destruct (buildSensors _ _ _ _) as [m|m|m]; try discriminate H; [|injection H as _ _ <-; exact E1].
  destruct (buildZones _ _ _) as [bu|m'|m']; try discriminate H; [|injection H as _ _ <-; exact E1].
  apply bind_ok in H. destruct H as ((n & s2) & Hs & H). cbn [fst snd] in H. injection H as _ _ <-.
  apply start_zones_cases in Hs. destruct Hs as (_ & Hs). apply start_rest in Hs. cbn in Hs. destruct Hs as (_ & _ & P & D & _).
  destruct E1 as (E1 & E2). split; congruence.
Qed.
Lemma clear_devices ok m d d' : OFFLINE_FAILSAFE_PWM f = false -> clear_zones f ok m d = Ok d' -> sy_devices (dm_sys d') = sy_devices (dm_sys d).
Proof.
  intros O H. unfold clear_zones in H. apply bind_ok in H. destruct H as (ks & H & H1). injection H1 as <-. cbn.
  apply destroys_rest in H. cbn [snd] in H. apply H, O.
Qed.
Lemma message_devices s e s' : message e -> sys_step f sf pow10 s e = Ok s' -> sy_devices s' = sy_devices s.
Proof.
  intros M H. destruct e; cbn in H; try (injection H as <-; reflexivity);
    try (apply bind_ok in H; destruct H as (x & _ & H); injection H as <-; reflexivity).
  elim (M _ _ eq_refl).
Qed.

Lemma C91_step d e d1 : OFFLINE_FAILSAFE_PWM f = false -> step d e = Ok d1 ->
  (forall w k i, e = DRun w k -> ~ next_is (OLoop i false) d) -> sy_devices (dm_sys d1) = sy_devices (dm_sys d).
Proof.
  intros O H N. destruct (m_stopped (dm_main d)) eqn:St; [unfold daemon_step in H; rewrite St in H; injection H as <-; reflexivity|].
  pose proof (step_kind _ _ _ _ _ _ _ _ St H) as K.
  destruct K as [e d1 l N1 N2 Om Te E1 E2|x s M E|x M|w k i n s Nx Ix T|w k i Nx Ix|w k i n m Nx Ix T|w k r m d' bd ex s bus R S C E|w k o r m R A S C|w k r m d' R S C].
  - rewrite E1. reflexivity.
  - exact (message_devices _ _ _ M E).
  - reflexivity.
  - elim (N _ _ _ eq_refl Nx).
  - reflexivity.
  - reflexivity.
  - apply restart_left in E. destruct E as (_ & E). cbn [dm_sys]. rewrite E. exact (clear_devices _ _ _ _ O C).
  - reflexivity.
  - exact (clear_devices _ _ _ _ O C).
Qed.

Lemma C91_lemma evs : forall d d1, OFFLINE_FAILSAFE_PWM f = false -> run evs d = Ok d1 ->
  (forall pre w k post d', evs = (pre ++ DRun w k :: post)%list -> run pre d = Ok d' -> forall i, ~ next_is (OLoop i false) d') ->
  sy_devices (dm_sys d1) = sy_devices (dm_sys d).
Proof.
  unfold daemon_run. induction evs as [|e r IH]; intros d d1 O H N; cbn [foldM] in H; [injection H as <-; reflexivity|].
  apply bind_ok in H. destruct H as (d' & H1 & H). rewrite (IH _ _ O H).
  - apply (C91_step _ e _ O H1). intros w k i -> X. exact (N [] w k r d eq_refl eq_refl i X).
  - intros pre w k post d2 E P i X. subst r. apply (N (e :: pre) w k post d2 eq_refl) with (i := i); [|exact X].
    cbn [foldM]. rewrite H1. exact P.
Qed.

(** ** Safety (C92) *)

Lemma read_fatal w old s : read_configuration sf re named (su_disk w) (su_config w) = Ok Fatal ->
  restart f sf pow10 re named w old s = Ok (BExit, (old, s)).
Proof. unfold restart. intros ->. reflexivity. Qed.

Lemma restart_ok F w old s : start_sound f sf re named F w -> sy_loops s = [] ->
  exists b ex s0, restart f sf pow10 re named w old s = Ok (b, (ex, s0)).
Proof.
  intros (Or & Nu & Ld) El.
  destruct (read_configuration sf re named (su_disk w) (su_config w)) as [[c| |]|m|m] eqn:E.
  2-4: unfold restart; rewrite E; eauto.
  2: elim (Nu _ eq_refl).
  destruct (Ld c eq_refl) as (Sv & St & _).
  destruct (buildSensors sf pow10 (seen old (su_sensors w)) (l_sensors c)) as [m|m|m] eqn:Eb.
  2: unfold restart; rewrite E, Eb; eauto.
  2: elim (buildSensors_noub _ _ _ _ _ Eb).
  destruct (buildZones (su_bus_ok w) (l_pids c) (l_zones c)) as [bu|m'|m'] eqn:Ez.
  2: unfold restart; rewrite E, Eb, Ez; eauto.
  2: elim (buildZones_noub _ _ _ _ Ez).
  destruct (restart_runs f sf pow10 re named w old s c m bu E (read_sensors _ _ _ _ _ _ E) (read_order _ _ _ _ _ _ E) Sv Eb Ez Or St El) as (ids & s0 & H & _).
  eauto.
Qed.

Lemma clear_ok ok m d : OFFLINE_FAILSAFE_PWM f = false -> exists d', clear_zones f ok m d = Ok d'.
Proof.
  intros O. unfold clear_zones.
  assert (Q : forall ls ks, exists ks', foldM (destroy_zone f ok) ls ks = Ok ks').
  { induction ls as [|l r IH]; intros ks; cbn [foldM]; [eauto|]. unfold destroy_zone at 1.
    assert (E : forall fs z, foldM (fun z c => match c with Some c => fan_destroy f (sensors_write_env (sy_sensors (snd ks))) c z | None => Ok z end) fs z = Ok z).
    { induction fs as [|c fs IHf]; intros z; cbn [foldM]; [reflexivity|]. destruct c as [c|]; cbn [bind]; [unfold fan_destroy at 1; rewrite O; cbn [negb bind]|]; apply IHf. }
    rewrite E. cbn [bind]. unfold new_writes. rewrite Nat.sub_diag. cbn. apply IH. }
  match goal with |- context [foldM (destroy_zone f ok) ?l ?k] => destruct (Q l k) as (ks' & ->) end. eexists. reflexivity.
Qed.

Lemma message_ok_step s x : message x -> message_ok x -> exists s', sys_step f sf pow10 s x = Ok s'.
Proof.
  intros M H. destruct x as [path m|n v t|m|c|i w|i b|i p b]; cbn [sys_step]; try (eexists; reflexivity).
  - destruct (signal_all_ok sf pow10 path m (sy_sensors s) H) as (l & ->). eexists. reflexivity.
  - cbn in H. unfold handleRedundancy. destruct (rm_status m); [eexists; reflexivity|congruence|].
    destruct (rm_collection m); eexists; reflexivity.
  - elim (M _ _ eq_refl).
  - assert (U : exists ls, update_nth i (fun l => loop_step f l (LManual b)) (sy_loops s) = Ok ls).
    { generalize (sy_loops s). clear. induction i as [|i IH]; intros [|l r]; cbn [update_nth]; try (eexists; reflexivity). destruct (IH r) as (ls & ->). eexists. reflexivity. }
    destruct U as (ls & ->). eexists. reflexivity.
  - assert (U : exists ls, update_nth i (fun l => loop_step f l (LEnable p b)) (sy_loops s) = Ok ls).
    { generalize (sy_loops s). clear. induction i as [|i IH]; intros [|l r]; cbn [update_nth]; try (eexists; reflexivity). destruct (IH r) as (ls & ->). eexists. reflexivity. }
    destruct U as (ls & ->). eexists. reflexivity.
Qed.

Lemma tick_safe F d0 evs d w k i n : Forall (no_accident f sf re named F) evs -> no_accident f sf re named F (DRun w k) ->
  index_of i (dm_ids d) = Some n -> dm_ids d = [] /\ sy_loops (dm_sys d) = [] \/ running f sf pow10 re named d0 evs d ->
  returns_or_bad_command (sys_tick f n k (dm_sys d)).
Proof.
  intros Ev (Ss & Wk) Ix Rn.
  destruct Rn as [(Nl & _)|Rn]; [rewrite Nl in Ix; discriminate Ix|].
  destruct Rn as (pre & w0 & k0 & post & da & d2 & c & fl & first & devs & zs & rest & sevs & E & A1 & A2 & A3 & A4 & (A5 & A5') & A6 & A7 & A8 & A9).
  assert (S0 : start_sound f sf re named F w0).
  { subst evs. apply Forall_app in Ev. destruct Ev as (_ & Ev). inversion Ev as [|? ? Q _]; subst. apply Q. }
  destruct S0 as (_ & _ & Ld). destruct (Ld c A4) as (Sv & _ & Fs). destruct Wk as (W1 & W2 & W3).
  assert (Sd : served f (seen (dm_exports da) (su_sensors w0)) (l_sensors c) (STick n k)).
  { split; [|split; [|exact W3]]; intros n' info p J Sp Rs; [apply W1|apply W2]; eapply Fs; eauto. }
  pose proof (C63_step _ _ _ _ _ _ _ _ _ _ _ _ (built_some _ _ _ _ _ A5) Sv _ _ _ A8 Sd) as Q. cbn [sys_step] in Q.
  exact Q.
Qed.

(** Destroying zones returns, or converts an absurd command. *)
Definition clears (d : daemon) : Prop := m_stopped (dm_main d) = false -> forall ok m, returns_or_bad_command (clear_zones f ok m d).

(** Only a cycle and the end of zones can fail to return. *)
Lemma step_cases F b d0 evs d e : clears d -> no_accident f sf re named F e ->
  life f sf pow10 re named b d0 evs d ->
  (exists d1, step d e = Ok d1) \/
  (step d e = UB "floating-integral conversion" /\ exists ok m, m_stopped (dm_main d) = false /\ clear_zones f ok m d = UB "floating-integral conversion") \/
  exists w k i n m, e = DRun w k /\ m_stopped (dm_main d) = false /\ index_of i (dm_ids d) = Some n /\ sys_tick f n k (dm_sys d) = UB m /\ step d e = UB m.
Proof.
  intros O Ne [G X Li Rn]. unfold clears in O. unfold daemon_step. destruct (m_stopped (dm_main d)) eqn:St; [left; eauto|].
  specialize (Li eq_refl). specialize (Rn eq_refl). specialize (O eq_refl).
  destruct e as [e|w k|x].
  - left. destruct e; eauto.
  - destruct Ne as (Ss & Wk). unfold run_handler. destruct (m_ready (dm_main d)) as [|o r] eqn:R; [left; eauto|].
    destruct o as [i []|[]|[]]; try (left; eauto; fail).
    + destruct (index_of i (dm_ids d)) as [n|] eqn:Ix; [|left; eauto].
      destruct (sys_tick f n k (dm_sys d)) as [s'|m|m] eqn:T; [left; eauto|left; eauto|]. right. right. exists w, k, i, n, m. auto.
    + destruct (stopControlLoops (set_ready r (dm_main d))) as [[] m] eqn:S; [|left; eauto].
      destruct (O (wk_write_ok k) m) as [(d' & C)|C]; rewrite C; [|right; left; split; [reflexivity|exists (wk_write_ok k), m; auto]].
      destruct (restart_live _ _ true BNotReady _ (good_inv1 _ _ G) (good_clean _ _ St G) St R S (Nat.le_0_l _)) as (_ & _ & Hn).
      destruct (clear_rest _ _ _ _ _ C Hn) as (_ & C2 & _).
      destruct (restart_ok F w (dm_exports d') (dm_sys d') Ss C2) as (bd & ex & s0 & ->). left. eexists. reflexivity.
    + destruct (stopControlLoops (set_ready r (dm_main d))) as [[] m] eqn:S; [|left; eauto].
      destruct (O (wk_write_ok k) m) as [(d' & C)|C]; rewrite C; [left; eauto|right; left; split; [reflexivity|exists (wk_write_ok k), m; auto]].
  - assert (D : message x \/ ~ message x).
    { destruct x; try (left; intros ? ? Y; discriminate Y). right. intros N. exact (N _ _ eq_refl). }
    destruct D as [M|M].
    + destruct (message_ok_step (dm_sys d) x M Ne) as (s' & E). destruct x; try (elim (M _ _ eq_refl)); rewrite E; left; eauto.
    + destruct x; try (elim M; intros ? ? Y; discriminate Y). left. eauto.
Qed.
Lemma step_safe F b d0 evs d e : clears d -> Forall (no_accident f sf re named F) evs -> no_accident f sf re named F e ->
  life f sf pow10 re named b d0 evs d -> returns_or_bad_command (step d e).
Proof.
  intros O Ev Ne Lf. destruct (step_cases F _ _ _ _ _ O Ne Lf) as [H|[(H & _)|(w & k & i & n & m & -> & St & Ix & T & E)]]; [left; exact H|right; exact H|]. right.
  destruct (tick_safe F _ _ _ w k i n Ev Ne Ix (lf_runs _ _ _ _ _ _ _ _ _ Lf St)) as [(s & Q)|Q]; congruence.
Qed.

Lemma C92_from F first devices evs :
  throughout f sf pow10 re named clears evs (daemon_init first devices) -> Forall (no_accident f sf re named F) evs ->
  calm f sf pow10 re named evs (daemon_init first devices) ->
  returns_or_bad_command (run evs (daemon_init first devices)).
Proof.
  intros O Ev C.
  assert (Q : exists b, throughout f sf pow10 re named (quiet b) evs (daemon_init first devices)).
  { destruct C as [C|C]; [exists true|exists false]; exact C. }
  destruct Q as (b & Th). clear C. revert O Ev Th. induction evs as [|e evs IH] using rev_ind; intros O Ev Th; [left; eexists; reflexivity|].
  apply Forall_app in Ev. destruct Ev as (Ev & Ee). inversion Ee as [|? ? Ne _]; subst.
  unfold daemon_run in *. rewrite foldM_app. pose proof (throughout_prefix _ _ _ _ _ _ _ _ _ Th) as Th0.
  destruct (IH (throughout_prefix _ _ _ _ _ _ _ _ _ O) Ev Th0) as [(d & Hd)|Hd]; rewrite Hd; cbn [bind foldM]; [|right; reflexivity].
  assert (Or : Forall ordered evs).
  { clear - Ev. eapply Forall_impl; [|exact Ev]. intros e H w k ->. apply H. }
  pose proof (life_run _ _ _ _ _ _ _ _ _ _ Or Th0 Hd) as Lf.
  destruct (step_safe F _ _ _ _ e (O evs [e] d eq_refl Hd) Ev Ne Lf) as [(d1 & ->)| ->]; [left; eexists; reflexivity|right; reflexivity].
Qed.

(** What ended it. *)
Definition cause (evs : list daemon_ev) : Prop :=
  In (DMove VTerm) evs \/ exists w k, In (DRun w k) evs /\ hopeless sf re named w.

Lemma hopeful w old s b ex s0 : any_order w -> restart f sf pow10 re named w old s = Ok (b, (ex, s0)) ->
  hopeless sf re named w \/ b <> BExit /\ forall n, b <> BZones [] n.
Proof.
  intros Or H. destruct b as [| | |ids n]; try (right; split; discriminate).
  - left. left. unfold restart in H. destruct (read_configuration sf re named (su_disk w) (su_config w)) as [[c| |]|m|m]; try discriminate H; [|reflexivity].
    destruct (buildSensors _ _ _ _) as [m|m|m]; try discriminate H. destruct (buildZones _ _ _) as [bu|m'|m']; try discriminate H.
    apply bind_ok in H. destruct H as (x & _ & H). discriminate H.
  - destruct ids as [|z ids]; [|right; split; discriminate]. left. right.
    apply restart_zones_inv in H; [|exact Or]. destruct H as (c & m & built & Er & _ & Eb & Ei & _). exists c. split; [exact Er|].
    destruct (C49_structure _ _ _ _ Eb) as (Mf & _). specialize (Or built). symmetry in Ei. apply map_eq_nil in Ei. rewrite Ei in Or.
    apply Permutation_nil in Or. subst built. symmetry in Mf. apply map_eq_nil in Mf. exact Mf.
Qed.

Lemma C92_end_from F first devices evs d :
  throughout f sf pow10 re named clears evs (daemon_init first devices) -> Forall (no_accident f sf re named F) evs ->
  calm f sf pow10 re named evs (daemon_init first devices) ->
  run evs (daemon_init first devices) = Ok d -> ended (dm_reload d) -> cause evs.
Proof.
  intros O Ev C H En.
  assert (Q : exists b, throughout f sf pow10 re named (quiet b) evs (daemon_init first devices)).
  { destruct C as [C|C]; [exists true|exists false]; exact C. }
  destruct Q as (b & Th). clear C.
  assert (Or : Forall ordered evs). { eapply Forall_impl; [|exact Ev]. intros e He w k ->. apply He. }
  assert (St : m_stopped (dm_main d) = true).
  { destruct (m_stopped (dm_main d)) eqn:E; [reflexivity|]. exfalso.
    apply (proj2 (going_iff d (lf_exit _ _ _ _ _ _ _ _ _ (life_run _ _ _ _ _ _ _ _ _ _ Or Th H))) E). exact En. }
  clear En. revert d H St.
  assert (G : forall d, run evs (daemon_init first devices) = Ok d ->
    (m_stopped (dm_main d) = true -> cause evs) /\ (term_pending (dm_main d) -> In (DMove VTerm) evs)).
  2: { intros d H St. exact (proj1 (G d H) St). }
  revert O Ev Th Or. induction evs as [|e evs IH] using rev_ind; intros O Ev Th Or d H.
  { injection H as <-. split; [discriminate|]. intros [X|X]; [|discriminate X]. cbn in X. destruct X as [X|[]]; discriminate X. }
  apply Forall_app in Ev. destruct Ev as (Ev & Ee). inversion Ee as [|? ? Ne _]; subst. apply Forall_app in Or. destruct Or as (Or & Oe).
  unfold daemon_run in H. rewrite foldM_app in H. apply bind_ok in H. destruct H as (d' & H1 & H). cbn [foldM] in H.
  apply bind_ok in H. destruct H as (d'' & H & Y). injection Y as ->.
  pose proof (throughout_prefix _ _ _ _ _ _ _ _ _ Th) as Th0. destruct (IH (throughout_prefix _ _ _ _ _ _ _ _ _ O) Ev Th0 Or d' H1) as (I1 & I2).
  pose proof (O evs [e] d' eq_refl H1) as Cl.
  assert (Mono : cause evs -> cause (evs ++ [e])).
  { intros [X|(w & k & X & Hp)]; [left; apply in_or_app; left; exact X|right; exists w, k; split; [apply in_or_app; left; exact X|exact Hp]]. }
  pose proof (life_run _ _ _ _ _ _ _ _ _ _ Or Th0 H1) as Lf.
  destruct (m_stopped (dm_main d')) eqn:St.
  { assert (d = d') by (unfold daemon_step in H; rewrite St in H; congruence). subst d. split; [auto|].
    intros T. apply in_or_app. left. exact (I2 T). }
  specialize (Cl St). destruct Lf as [G X Li Rn]. specialize (Li St).
  pose proof (good_inv1 _ _ G) as Iv.
  pose proof (step_kind _ _ _ _ _ _ _ _ St H) as K.
  assert (Keep : forall x, main_step (dm_main d') x = dm_main d -> (x = EPostTerminate -> e = DMove VTerm) ->
    term_pending (dm_main d) -> In (DMove VTerm) (evs ++ [e])).
  { intros x E Xe T. rewrite <- E in T. apply term_source in T; [|exact Iv]. apply in_or_app. destruct T as [T|T]; [|left; exact (I2 T)].
    right. left. auto. }
  assert (End : forall ok b, main_step (dm_main d') (ERun ok b) = dm_main d -> ok = true -> b <> BExit -> (forall n, b <> BZones [] n) ->
    m_stopped (dm_main d) = true -> cause (evs ++ [e])).
  { intros ok b' E -> Nb Nz S1. rewrite <- E in S1. apply stop_source in S1; [|exact Iv|exact St].
    destruct S1 as [S1|[S1|[(n & S1)|S1]]]; [discriminate S1|contradiction|elim (Nz _ S1)|]. apply Mono. left. exact (I2 S1). }
  destruct K as [e d1 l N1 N2 Om Te E1 E2|x s M E|x M|w k i n s Nx Ix T|w k i Nx Ix|w k i n m Nx Ix T|w k r m dd bd ex s bus R S C E|w k o r m R A S C|w k r m dd R S C].
  - destruct Om as (O1 & O2). destruct O1 as [->|(x & ->)].
    { cbn in E2. rewrite E2. split; [congruence|]. intros T. apply in_or_app. left. exact (I2 T). }
    cbn [main_run fold_left] in E2. symmetry in E2. split.
    + intros S1. destruct x as [i| | | | |ok b'].
      1-5: exfalso; rewrite <- E2 in S1; unfold main_step in S1; rewrite St in S1; cbn in S1;
        try (destruct (imem _ _)); try (destruct (m_rtimer _)); try (destruct (m_ttimer _)); cbn in S1; congruence.
      destruct (O2 _ _ (or_introl eq_refl)) as (_ & -> & ->). apply (End _ _ E2); [reflexivity|discriminate|discriminate|exact S1].
    + apply (Keep _ E2). intros ->. apply Te. left. reflexivity.
  - change (dm_main (set_sys s d')) with (dm_main d'). split; [congruence|]. intros T. apply in_or_app. left. exact (I2 T).
  - exfalso. destruct (message_ok_step (dm_sys d') x M Ne) as (s' & E). unfold daemon_step in H. rewrite St in H.
    destruct x; try (elim (M _ _ eq_refl)); rewrite E in H;
      apply (f_equal (fun o => match o with Ok d => m_stopped (dm_main d) | _ => false end)) in H;
      change (m_stopped (dm_main d') = true) in H; congruence.
  - change (dm_main (set_sys s (plain d'))) with (dm_main (plain d')) in *. pose proof (plain_main d' St) as E. symmetry in E.
    split; [apply (End _ _ E); [reflexivity|discriminate|discriminate]|apply (Keep _ E); discriminate].
  - pose proof (plain_main d' St) as E. symmetry in E.
    split; [apply (End _ _ E); [reflexivity|discriminate|discriminate]|apply (Keep _ E); discriminate].
  - exfalso. destruct (tick_safe F _ _ _ w k i n Ev Ne Ix (Rn St)) as [(s' & E)|E]; rewrite E in T; discriminate T.
  - assert (E' : main_step (dm_main d') (ERun true bd) = rl_main (reload_step (dm_reload d') (VRun true bd bus))) by (symmetry; exact (reload_run_main _ _ _ _ St)).
    split; [|apply (Keep _ E'); discriminate]. intros S1.
    destruct (hopeful w (dm_exports dd) (dm_sys dd) bd ex s (proj1 (proj1 Ne)) E) as [Hp|[Hb Hz]].
    + right. exists w, k. split; [apply in_or_app; right; left; reflexivity|exact Hp].
    + exact (End _ _ E' eq_refl Hb Hz S1).
  - exfalso. destruct C as (x & C). destruct (Cl (wk_write_ok k) m) as [(dd & C')|C']; congruence.
  - destruct (clear_reload _ _ _ _ _ C) as (Er & _).
    assert (E' : main_step (dm_main d') (ERun true BNotReady) = dm_main (plain dd)).
    { unfold dm_main at 2, plain. cbn [dm_reload set_reload]. rewrite Er. symmetry. exact (reload_run_main _ _ _ _ St). }
    split; [apply (End _ _ E'); [reflexivity|discriminate|discriminate]|apply (Keep _ E'); discriminate].
Qed.
End Life2.
