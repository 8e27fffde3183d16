(** * Proofs about the whole daemon (C90, C95). *)
From Coq Require Import ZArith Bool List String Permutation Lia.
From Verif Require Import Base BaseFacts Dbl PidModel ZoneModel LoopModel BuilderModel SpecBuilder BuilderProofs BuilderRun ConfigModel
  SensorModel SpecSensor SensorProofs WriteModel SystemModel SpecSystem SpecZone ZoneFrame ZoneFan ZoneProofs LoopProofs SystemProofs SystemProofs2 SystemProofs3
  SystemProofs4 JsonModel SpecJson JsonProofs JsonSystemProofs DbusConfigModel SpecDbus DbusProofs4 SpecRange RangeSystem
  LogModel MainModel SpecMain MainProofs MainProofs2 ReloadModel SpecReload ReloadProofs StartModel SpecStart StartProofs DaemonModel SpecDaemon
  DaemonProofs DaemonProofs2 DaemonProofs3.
Import ListNotations.
Local Open Scope string_scope.
Local Open Scope outcome_scope.

(** ** The state of the host (C90) *)

Section Host.
Context (f : flags) (sf : sflags) (pow10 : Z -> dbl) (re : regex) (named : string).
Notation step := (daemon_step f sf pow10 re named).
Notation run := (daemon_run f sf pow10 re named).

Lemma clear_power ok m d d' : clear_zones f ok m d = Ok d' -> sy_power (dm_sys d') = sy_power (dm_sys d).
Proof.
  intros H. unfold clear_zones in H. apply bind_ok in H. destruct H as (ks & H & H1). injection H1 as <-. cbn.
  apply destroys_rest in H. cbn [snd] in H. apply H.
Qed.
Lemma tick_power n k s s' : sys_tick f n k s = Ok s' -> sy_power s' = sy_power s.
Proof.
  unfold sys_tick. destruct (nth_error (sy_loops s) n); [|intros H; injection H as <-; reflexivity]. cbv zeta. intros H.
  apply bind_ok in H. destruct H as (u & _ & H). apply bind_ok in H. destruct H as (ls & _ & H).
  apply bind_ok in H. destruct H as (ks & W & H). injection H as <-. destruct (nth_error ls n); [|injection W as <-; reflexivity].
  apply writes_rest in W. destruct W as (_ & _ & W & _). exact W.
Qed.
Lemma message_power s x s' : message x -> sys_step f sf pow10 s x = Ok s' ->
  sy_power s' = fold_left handleStateChange (host_changes [x]) (sy_power s).
Proof.
  intros M H. destruct x; cbn in H; try (injection H as <-; reflexivity);
    try (apply bind_ok in H; destruct H as (y & _ & H); injection H as <-; reflexivity).
  elim (M _ _ eq_refl).
Qed.
Lemma step_power d e d1 : m_stopped (dm_main d) = false -> step d e = Ok d1 -> m_stopped (dm_main d1) = false ->
  sy_power (dm_sys d1) = fold_left handleStateChange (host_changes (messages [e])) (sy_power (dm_sys d)).
Proof.
  intros St H St1. pose proof (step_kind _ _ _ _ _ _ _ _ St H) as K.
  destruct K as [e d1 l N1 N2 Om Te E1 E2|x s M E|x M|w k i n s Nx Ix T|w k i Nx Ix|w k i n m Nx Ix T|w k r m d' bd ex s bus R S C E|w k o r m R A S C|w k r m d' R S C];
    try reflexivity.
  - rewrite E1. destruct e as [e|w k|x]; try reflexivity. specialize (N1 x eq_refl). cbn.
    destruct x; try (elim N1; intros ? ? X; discriminate X). reflexivity.
  - exact (message_power _ _ _ M E).
  - discriminate St1.
  - exact (tick_power _ _ _ _ T).
  - apply restart_left in E. destruct E as (E & _). cbn [dm_sys]. rewrite E. exact (clear_power _ _ _ _ C).
  - exact (clear_power _ _ _ _ C).
Qed.
Lemma run_exits evs : forall d d1, exit_inv (dm_main d) -> run evs d = Ok d1 -> exit_inv (dm_main d1).
Proof.
  unfold daemon_run. induction evs as [|e r IH]; intros d d1 X H; cbn [foldM] in H; [injection H as <-; exact X|].
  apply bind_ok in H. destruct H as (d' & H1 & H). apply (IH d'); [|exact H].
  destruct (m_stopped (dm_main d)) eqn:St; [unfold daemon_step in H1; rewrite St in H1; injection H1 as <-; exact X|].
  exact (exit_step _ _ _ _ _ _ _ _ St X (step_kind _ _ _ _ _ _ _ _ St H1)).
Qed.
Lemma C90_host_lemma first devices evs d : run evs (daemon_init first devices) = Ok d -> going d ->
  (sy_power (dm_sys d) = true <-> host_on first (host_changes (messages evs))).
Proof.
  intros H Go. rewrite <- host_state_lemma.
  assert (X : exit_inv (dm_main d)) by (eapply run_exits; [|exact H]; apply (step_exit main_init EPostRestart init_exit)).
  apply (going_iff _ X) in Go. clear X.
  assert (E : sy_power (dm_sys d) = fold_left handleStateChange (host_changes (messages evs)) (host_initial first)); [|rewrite E; reflexivity].
  change (host_initial first) with (sy_power (dm_sys (daemon_init first devices))).
  revert d H Go. generalize (daemon_init first devices) as d0. induction evs as [|e evs IH] using rev_ind; intros d0 d H Go.
  - injection H as <-. reflexivity.
  - unfold daemon_run in H. rewrite foldM_app in H. apply bind_ok in H. destruct H as (d' & H1 & H). cbn [foldM] in H.
    apply bind_ok in H. destruct H as (d'' & H & Y). injection Y as ->.
    destruct (m_stopped (dm_main d')) eqn:St; [unfold daemon_step in H; rewrite St in H; injection H as <-; congruence|].
    rewrite (step_power _ _ _ St H Go), (IH _ _ H1 St). unfold messages, host_changes.
    rewrite !flat_map_app, fold_left_app. reflexivity.
Qed.
End Host.

(** ** What destroying a zone writes *)

Lemma last_request_const name v ws : (forall e, In e ws -> fst (fst e) = name -> snd (fst e) = v) ->
  (exists e, In e ws /\ fst (fst e) = name) -> last_request name ws = Some v.
Proof.
  unfold last_request. induction ws as [|e ws IH] using rev_ind; intros A (x & I & N); [destruct I|].
  rewrite fold_left_app. cbn [fold_left]. destruct (String.eqb_spec name (fst (fst e))) as [E|E].
  - f_equal. apply A; [apply in_or_app; right; left; reflexivity|auto].
  - apply in_app_or in I. destruct I as [I|[ <- |[]]]; [|congruence]. apply IH; [|eauto].
    intros y J. apply A. apply in_or_app. left. exact J.
Qed.
Lemma last_request_absent name ws : (forall e, In e ws -> fst (fst e) <> name) -> last_request name ws = None.
Proof.
  unfold last_request. induction ws as [|e ws IH] using rev_ind; intros A; [reflexivity|].
  rewrite fold_left_app. cbn [fold_left]. destruct (String.eqb_spec name (fst (fst e))) as [E|E].
  - elim (A e); [apply in_or_app; right; left; reflexivity|auto].
  - apply IH. intros y J. apply A. apply in_or_app. left. exact J.
Qed.

Definition destroy_writes (z : zone) (fs : list (option FanController)) : list (string * dbl * bool) :=
  flat_map (fun c => match c with
                     | Some c => map (fun n => (n, ddiv (getFailSafePercent z) (D 100), z_redundantWrite z)) (fan_inputs c)
                     | None => []
                     end) fs.

Lemma frame_percent z z' : fan_frame z z' -> getFailSafePercent z' = getFailSafePercent z /\ z_redundantWrite z' = z_redundantWrite z.
Proof.
  intros [C M _ _ Fs _ _]. assert (E : z_zoneFailSafePercent z' = z_zoneFailSafePercent z) by (use_conf C; reflexivity).
  assert (R : z_redundantWrite z' = z_redundantWrite z) by (unfold mode in M; injection M; auto).
  split; [|exact R]. unfold getFailSafePercent. rewrite Fs, E. reflexivity.
Qed.

Lemma destroy_spec f w fs : OFFLINE_FAILSAFE_PWM f = true -> forall z z',
  foldM (fun z c => match c with Some c => fan_destroy f w c z | None => Ok z end) fs z = Ok z' ->
  fan_frame z z' /\ exists evs, new_events z z' evs /\ writes_in evs = destroy_writes z fs.
Proof.
  intros O. induction fs as [|c fs IH]; intros z z' H; cbn [foldM] in H.
  - injection H as <-. split; [apply ff_refl|]. exists []. split; reflexivity.
  - apply bind_ok in H. destruct H as (z1 & H1 & H). apply IH in H. destruct H as (F2 & e2 & N2 & W2).
    assert (S1 : fan_frame z z1 /\ exists evs, new_events z z1 evs /\ writes_in evs =
      match c with Some c => map (fun n => (n, ddiv (getFailSafePercent z) (D 100), z_redundantWrite z)) (fan_inputs c) | None => [] end).
    { destruct c as [c|]; [|injection H1 as <-; split; [apply ff_refl|]; exists []; split; reflexivity].
      unfold fan_destroy in H1. rewrite O in H1. cbn [negb] in H1. apply write_fans_spec in H1.
      destruct H1 as (F1 & e & T & W & _). split; [exact F1|]. exists e. split; assumption. }
    destruct S1 as (F1 & e1 & N1 & W1). destruct (frame_percent _ _ F1) as (P1 & R1).
    split; [eapply ff_trans; eauto|]. exists (e2 ++ e1)%list. split.
    + unfold new_events in *. rewrite N2, N1, app_assoc. reflexivity.
    + rewrite writes_app, W1, W2. unfold destroy_writes. cbn [flat_map]. rewrite P1, R1. reflexivity.
Qed.

Lemma in_destroy_writes z fs e : In e (destroy_writes z fs) <->
  (exists c, In (Some c) fs /\ In (fst (fst e)) (fan_inputs c)) /\ snd (fst e) = ddiv (getFailSafePercent z) (D 100) /\ snd e = z_redundantWrite z.
Proof.
  unfold destroy_writes. rewrite in_flat_map. split.
  - intros (c & I & J). destruct c as [c|]; [|destruct J]. apply in_map_iff in J. destruct J as (n & <- & J). cbn [fst snd]. eauto.
  - intros ((c & I & J) & E1 & E2). exists (Some c). split; [exact I|]. apply in_map_iff. exists (fst (fst e)).
    split; [|exact J]. rewrite <- E1, <- E2. destruct e as [[? ?] ?]. reflexivity.
Qed.

Lemma destroy_device f ok k s l ks' name path w : OFFLINE_FAILSAFE_PWM f = true ->
  destroy_zone f ok (k, s) l = Ok ks' -> (forall k, ok k = true) ->
  wcoref s name = Some w -> out_path w = Some path -> owner s name path -> synced s name path ->
  (forall n, wcoref (snd ks') n = wcoref s n) /\ synced (snd ks') name path /\
  (~ lists_fan l name -> mget path (sy_devices (snd ks')) = mget path (sy_devices s)) /\
  (lists_fan l name -> exists raw, wraw w (ddiv (getFailSafePercent (l_zone l)) (D 100)) = Some raw /\
     (0 <= raw -> mget path (sy_devices (snd ks')) = Some raw)%Z).
Proof.
  intros O H Hok W Op Ow Sy. unfold destroy_zone in H. apply bind_ok in H. destruct H as (z & Hz & H).
  apply (destroy_spec f _ _ O) in Hz. destruct Hz as (_ & evs & Ev & Wr). rewrite (new_writes_eq _ _ _ Ev), Wr in H.
  assert (Rs := writes_rest _ _ _ _ _ H). destruct Rs as (Rs & _). cbn [snd] in Rs.
  destruct (writes_device _ _ _ _ _ _ _ _ H Hok W Op Ow Sy) as (S1 & A1 & A2).
  split; [apply cores_wcoref; exact Rs|]. split; [exact S1|]. split.
  - intros N. apply A1, last_request_absent. intros e I E. apply in_destroy_writes in I. destruct I as (I & _). rewrite E in I.
    apply N. exact I.
  - intros (c & I & J). apply A2, last_request_const.
    + intros e K _. apply in_destroy_writes in K. apply K.
    + exists (name, ddiv (getFailSafePercent (l_zone l)) (D 100), z_redundantWrite (l_zone l)). split; [|reflexivity].
      apply in_destroy_writes. cbn [fst snd]. eauto.
Qed.

Lemma destroys_device f ok name path w p ls : OFFLINE_FAILSAFE_PWM f = true -> (forall k, ok k = true) ->
  (forall l, In l ls -> lists_fan l name -> getFailSafePercent (l_zone l) = p) ->
  forall k s ks', foldM (destroy_zone f ok) ls (k, s) = Ok ks' ->
  wcoref s name = Some w -> out_path w = Some path -> owner s name path -> synced s name path ->
  (exists l, In l ls /\ lists_fan l name) ->
  exists raw, wraw w (ddiv p (D 100)) = Some raw /\ (0 <= raw -> mget path (sy_devices (snd ks')) = Some raw)%Z.
Proof.
  intros O Hok.
  assert (Dc : forall l, lists_fan l name \/ ~ lists_fan l name).
  { intros l. unfold lists_fan. destruct (in_dec string_dec name (flat_map (fun c => match c with Some c => fan_inputs c | None => [] end) (z_fans (l_zone l)))) as [I|I].
    - left. apply in_flat_map in I. destruct I as ([c|] & I & J); [eauto|destruct J].
    - right. intros (c & J & K). apply I, in_flat_map. exists (Some c). auto. }
  assert (Hd : forall ls, (forall l, In l ls -> lists_fan l name -> getFailSafePercent (l_zone l) = p) ->
    forall k s ks', foldM (destroy_zone f ok) ls (k, s) = Ok ks' ->
    wcoref s name = Some w -> out_path w = Some path -> owner s name path -> synced s name path ->
    ((forall l, In l ls -> ~ lists_fan l name) -> mget path (sy_devices (snd ks')) = mget path (sy_devices s)) /\
    ((exists l, In l ls /\ lists_fan l name) ->
     exists raw, wraw w (ddiv p (D 100)) = Some raw /\ (0 <= raw -> mget path (sy_devices (snd ks')) = Some raw)%Z)).
  { clear ls. induction ls as [|l ls IH] using rev_ind; intros P k s ks' H W Op Ow Sy.
    - injection H as <-. split; [reflexivity|]. intros (l & [] & _).
    - assert (Inv : forall ls0 k s ks', foldM (destroy_zone f ok) ls0 (k, s) = Ok ks' ->
        wcoref s name = Some w -> owner s name path -> synced s name path ->
        wcoref (snd ks') name = Some w /\ owner (snd ks') name path /\ synced (snd ks') name path).
      { clear - O Hok Op. induction ls0 as [|l ls IH]; intros k s ks' H W Ow Sy; cbn [foldM] in H; [injection H as <-; auto|].
        apply bind_ok in H. destruct H as ((k1 & s1) & H1 & H).
        destruct (destroy_device _ _ _ _ _ _ _ _ _ O H1 Hok W Op Ow Sy) as (E & S1 & _). cbn [snd] in *.
        apply (IH _ _ _ H); [rewrite E; exact W|eapply owner_same; eauto|exact S1]. }
      rewrite foldM_app in H. apply bind_ok in H. destruct H as ((k1 & s1) & H1 & H2).
      destruct (Inv _ _ _ _ H1 W Ow Sy) as (W1 & Ow1 & Sy1). cbn [snd] in W1, Ow1, Sy1.
      destruct (IH (fun x I => P x (in_or_app _ _ _ (or_introl I))) _ _ _ H1 W Op Ow Sy) as (A1 & A2). cbn [snd] in A1, A2.
      cbn [foldM] in H2. apply bind_ok in H2. destruct H2 as (ks2 & H2 & E2). injection E2 as <-.
      destruct (destroy_device _ _ _ _ _ _ _ _ _ O H2 Hok W1 Op Ow1 Sy1) as (_ & _ & B1 & B2).
      split.
      + intros N. rewrite B1; [|apply N, in_or_app; right; left; reflexivity]. apply A1. intros x I. apply N, in_or_app. left. exact I.
      + intros (x & I & L). destruct (Dc l) as [Ll|Nl].
        * rewrite <- (P l) by (auto; apply in_or_app; right; left; reflexivity). apply B2, Ll.
        * rewrite B1 by exact Nl. apply A2. apply in_app_or in I. destruct I as [I|[ <- |[]]]; [eauto|contradiction]. }
  intros P k s ks' H W Op Ow Sy L. exact (proj2 (Hd ls P k s ks' H W Op Ow Sy) L).
Qed.

(** ** Destroying does not throw *)

Definition no_throw {A : Type} (o : outcome A) : Prop := forall m, o <> Throw m.
Lemma no_throw_bind {A B : Type} (o : outcome A) (k : A -> outcome B) : no_throw o -> (forall a, o = Ok a -> no_throw (k a)) -> no_throw (bind o k).
Proof. intros H K. destruct o as [a|m|m]; cbn; [apply K; reflexivity|elim (H m); reflexivity|discriminate]. Qed.
Lemma rob_no_throw {A : Type} (o : outcome A) : rob o -> no_throw o.
Proof. intros [(a & ->)| ->]; discriminate. Qed.
Lemma fold_no_throw {A St : Type} (g : St -> A -> outcome St) l : (forall s a, In a l -> no_throw (g s a)) -> forall s, no_throw (foldM g l s).
Proof.
  induction l as [|a l IH]; intros H s; cbn [foldM]; [discriminate|]. apply no_throw_bind; [apply H; left; reflexivity|].
  intros s1 _. apply IH. intros s2 b I. apply H. right. exact I.
Qed.

Lemma write_no_throw s init v n z : wcoref s n <> None -> no_throw (write_fan (sensors_write_env (sy_sensors s)) v init z n).
Proof.
  unfold wcoref, write_fan, sensors_write_env. destruct (mget n (sy_sensors s)) as [[t r w i|t i h]|]; intros N; try congruence.
  apply no_throw_bind; [|intros raw _; destruct (match raw with Some v => Some v | None => init end); discriminate].
  destruct (sensor_write_soft t r w i v (z_redundantWrite z)) as (x & E). intros m T.
  change (sensor_write (Pluggable t r w i) v (z_redundantWrite z) = Throw m) in T. rewrite T in E. discriminate E.
Qed.

Lemma destroy_no_throw f ok k s l : (forall n, lists_fan l n -> wcoref s n <> None) -> no_throw (destroy_zone f ok (k, s) l).
Proof.
  intros K. unfold destroy_zone. apply no_throw_bind.
  - apply fold_no_throw. intros z c I. destruct c as [c|]; [|discriminate]. unfold fan_destroy. destruct (negb _); [discriminate|].
    apply fold_no_throw. intros z' n J. apply write_no_throw, K. exists c. auto.
  - intros z _. apply rob_no_throw, rob_foldM. intros. apply apply_write_rob.
Qed.
Lemma destroy_wcoref f ok k s l ks' : destroy_zone f ok (k, s) l = Ok ks' -> forall n, wcoref (snd ks') n = wcoref s n.
Proof.
  unfold destroy_zone. intros H. apply bind_ok in H. destruct H as (z & _ & H). apply writes_rest in H. destruct H as (H & _).
  apply cores_wcoref. exact H.
Qed.
Lemma destroys_no_throw f ok ls : forall ks, (forall l n, In l ls -> lists_fan l n -> wcoref (snd ks) n <> None) -> no_throw (foldM (destroy_zone f ok) ls ks).
Proof.
  induction ls as [|l ls IH]; intros (k & s) K; cbn [foldM]; [discriminate|]. apply no_throw_bind.
  - apply destroy_no_throw. intros n L. apply (K l n); [left; reflexivity|exact L].
  - intros ks1 H. apply IH. intros x n I L. rewrite (destroy_wcoref _ _ _ _ _ _ H). apply (K x n); [right; exact I|exact L].
Qed.

(** ** The stop *)

Lemma quiet_stop m o r : m_ready m = o :: r -> m_armed m = [] -> (forall i a, ~ In (OLoop i a) (m_ready m)) ->
  exists m', stopControlLoops (set_ready r m) = (true, m') /\ forall i, handled m' i = false.
Proof.
  intros R Ar Nr. unfold stopControlLoops. cbn [m_zones m_armed m_timers set_ready m_ready m_gen m_stopped m_log m_rtimer m_ttimer]. rewrite Ar. cbn [imem existsb filter].
  assert (F : forall l : list inst, filter (fun _ : inst => false) l = []) by (induction l; auto).
  rewrite F. cbn [map]. rewrite app_nil_r.
  assert (Hn : forall i l, handled (say l (MainSt false [] [] [] r (m_rtimer m) (m_ttimer m) (m_gen m) (m_stopped m) (m_log m))) i = false).
  { intros i l. unfold handled, say. cbn [m_armed m_ready imem existsb orb].
    destruct (existsb _ r) eqn:E; [|reflexivity]. apply existsb_exists in E. destruct E as (x & I & E). destruct x as [j []|b|b]; try discriminate E.
    elim (Nr j false). rewrite R. right. exact I. }
  destruct (m_zones m) as [|z zs]; [eexists; split; [reflexivity|intros i; apply Hn]|].
  match goal with |- context [Nat.ltb 1 ?n] => assert (E : n = 1%nat) end.
  { unfold use_count. cbn [m_armed m_ready filter List.length].
    assert (Fr : filter (is_loop_of z) r = []).
    { destruct (filter (is_loop_of z) r) as [|x l] eqn:Fe; [reflexivity|]. assert (H0 : In x (filter (is_loop_of z) r)) by (rewrite Fe; left; reflexivity).
      apply filter_In in H0. destruct H0 as (H0 & H1). destruct x as [i b|b|b]; try discriminate H1. elim (Nr i b). rewrite R. right. exact H0. }
    rewrite Fr. reflexivity. }
  rewrite E. cbn [Nat.ltb Nat.leb]. eexists. split; [reflexivity|]. intros i. apply Hn.
Qed.

(** A listed fan is in the configuration. *)
Lemma listed_writable f sf pow10 sb config failures first devices zs bus_ok zp confs :
  some_of bus_ok zp confs zs -> (forall id pids, In (id, pids) zp -> pids_served config pids) ->
  forall evs s l n, runs f sf pow10 sb config failures first devices zs evs s ->
  In l (sy_loops s) -> lists_fan l n -> writable config n.
Proof.
  intros Bs Sv evs s l n R I (ctl & Ic & Jn). apply In_nth_error in I. destruct I as (i & El).
  destruct (loop_source _ _ _ _ _ _ _ _ _ _ _ _ _ R El) as (st & z0 & Ez & Rl).
  destruct (zone_source _ _ _ _ Bs _ _ _ Ez) as (built & id & pids & B & J & Jz).
  destruct Bs as (Nd & _). destruct (C49_structure _ _ _ _ B) as (_ & Zo). destruct (Zo Nd _ _ _ J Jz) as (zc & _ & Z).
  destruct (Sv _ _ J) as (_ & _ & _ & P4). apply P4.
  destruct (sig_controllers _ _ _ Rl) as (_ & Sg).
  assert (I2 : In (Some (fan_id ctl, fan_inputs ctl)) (map fsig (z_fans z0))).
  { rewrite <- Sg. apply in_map_iff. exists (Some ctl). split; [reflexivity|exact Ic]. }
  apply in_map_iff in I2. destruct I2 as ([c0|] & E2 & I2); [|discriminate E2]. cbn in E2. injection E2 as _ E2.
  pose proof (zo_fans _ _ _ _ Z) as Ff. destruct (Forall2_In_r _ _ _ _ Ff I2) as (e & Ie & Fe).
  destruct Fe as (_ & _ & Fi & _). exists e. apply filter_In in Ie. destruct Ie as (Ie & Fp).
  split; [exact Ie|]. split; [exact Fp|]. rewrite <- Fi, E2. exact Jn.
Qed.

Section Offline.
Context (f : flags) (sf : sflags) (pow10 : Z -> dbl) (re : regex) (named : string).
Notation step := (daemon_step f sf pow10 re named).
Notation run := (daemon_run f sf pow10 re named).
Notation running := (running f sf pow10 re named).
Notation calm := (SpecDaemon.calm f sf pow10 re named).

Lemma passed_delivered d evs l d' : passes_on f sf pow10 re named d evs l d' -> Forall delivered evs -> all_writes_ok l.
Proof.
  induction 1 as [d|d e d1 evs l d2 M E _ IH|d w k i z d1 evs l d2 Nx Nt E _ IH|d e d1 evs l d2 N1 N2 E _ IH]; intros H; [intros i w []| | |];
    inversion H as [|? ? H1 H2]; subst; [| |apply IH, H2].
  - intros i w [X|I]; [elim (M _ _ X)|exact (IH H2 i w I)].
  - intros j w' [X|I]; [|exact (IH H2 j w' I)]. injection X as _ <-. intros n. exact (H1 w k n eq_refl).
Qed.

Lemma stop_clears d w k d1 : m_stopped (dm_main d) = false -> about_to_stop d -> step d (DRun w k) = Ok d1 ->
  no_throw (foldM (destroy_zone f (wk_write_ok k)) (map snd (combine (dm_ids d) (sy_loops (dm_sys d)))) (O, dm_sys d)) ->
  exists ks, foldM (destroy_zone f (wk_write_ok k)) (map snd (combine (dm_ids d) (sy_loops (dm_sys d)))) (O, dm_sys d) = Ok ks /\
    sy_devices (dm_sys d1) = sy_devices (snd ks).
Proof.
  intros St (Nx & Ar & Nr) H Nt.
  assert (Cl : forall m, (forall i, handled m i = false) -> clear_zones f (wk_write_ok k) m d =
    bind (foldM (destroy_zone f (wk_write_ok k)) (map snd (combine (dm_ids d) (sy_loops (dm_sys d)))) (O, dm_sys d))
      (fun ks => Ok (Daemon (dm_reload d) (set_loops [] (snd ks)) [] (dm_exports d)))).
  { intros m Hn. unfold clear_zones. cbv zeta.
    destruct (no_rest (fun x : inst * loop => handled m (fst x)) (combine (dm_ids d) (sy_loops (dm_sys d))) (fun x => Hn (fst x))) as (-> & ->). reflexivity. }
  set (ds := foldM (destroy_zone f (wk_write_ok k)) (map snd (combine (dm_ids d) (sy_loops (dm_sys d)))) (O, dm_sys d)) in *. clearbody ds.
  unfold daemon_step in H. rewrite St in H. unfold run_handler in H.
  destruct Nx as [(r & R)|(r & R)]; destruct (quiet_stop _ _ _ R Ar Nr) as (m & Sp & Hn); rewrite R, Sp, (Cl m Hn) in H;
    (destruct ds as [ks|x|x]; [|elim (Nt x); reflexivity|discriminate H]); cbn [bind] in H; exists ks; (split; [reflexivity|]).
  - apply bind_ok in H. destruct H as ((b & ex & s) & H1 & H). cbn zeta iota in H. injection H as <-.
    destruct (restart_left _ _ _ _ _ _ _ _ _ _ _ H1) as (_ & E). exact E.
  - injection H as <-. reflexivity.
Qed.

Lemma C95_lemma F first devices evs d w k d1 :
  OFFLINE_FAILSAFE_PWM f = true -> Forall (no_accident f sf re named F) evs -> calm evs (daemon_init first devices) ->
  Forall delivered evs -> delivered (DRun w k) ->
  run evs (daemon_init first devices) = Ok d -> going d -> about_to_stop d -> step d (DRun w k) = Ok d1 ->
  sy_loops (dm_sys d) = [] \/
  exists w0 k0 c, In (DRun w0 k0) evs /\ read_configuration sf re named (su_disk w0) (su_config w0) = Ok (Loaded c) /\
    forall l name, In l (sy_loops (dm_sys d)) -> lists_fan l name ->
      exists info, In (name, info) (l_sensors c) /\ sc_type info = "fan" /\
        forall path, drives (su_sensors w0) info path -> own_device (su_sensors w0) (l_sensors c) name path ->
          (forall l', In l' (sy_loops (dm_sys d)) -> lists_fan l' name -> getFailSafePercent (l_zone l') = getFailSafePercent (l_zone l)) ->
          exists raw, raw_for info (ddiv (getFailSafePercent (l_zone l)) (D 100)) = Some raw /\
            (0 <= raw -> mget path (sy_devices (dm_sys d1)) = Some raw)%Z.
Proof.
  intros Of Ev C De Dk H Go Ab Hs.
  assert (Or : Forall ordered evs).
  { clear - Ev. eapply Forall_impl; [|exact Ev]. intros e H w k ->. apply H. }
  assert (L : exists b, life f sf pow10 re named b (daemon_init first devices) evs d).
  { destruct C as [C|C]; [exists true|exists false]; apply life_run; assumption. }
  destruct L as (b & [G X Li Rn]). apply (going_iff _ X) in Go. rename Go into St.
  destruct (Rn St) as [(_ & Nl)|R]; [left; exact Nl|right].
  destruct R as (pre & w0 & k0 & post & da & d2 & c & fl & first0 & devs & zs & rest & sevs & E & A1 & A2 & A3 & A4 & (A5 & A5') & A6 & A7 & A8 & A9).
  assert (S0 : start_sound f sf re named F w0).
  { subst evs. apply Forall_app in Ev. destruct Ev as (_ & Ev). inversion Ev as [|? ? Q _]; subst. apply Q. }
  destruct S0 as (_ & _ & Ld). destruct (Ld c A4) as (Sv & _ & _).
  assert (Dp : all_writes_ok sevs).
  { subst evs. apply Forall_app in De. destruct De as (_ & De). inversion De; subst. eapply passed_delivered; eauto. }
  exists w0, k0, c. split; [subst evs; apply in_or_app; right; left; reflexivity|]. split; [exact A4|].
  assert (Src : forall i l, nth_error (sy_loops (dm_sys d)) i = Some l -> exists st z0, nth_error zs i = Some (st, z0) /\ reachable f z0 l).
  { intros i l El. eapply loop_source; eauto. }
  assert (Wr : forall l n, In l (sy_loops (dm_sys d)) -> lists_fan l n -> writable (l_sensors c) n).
  { intros l n. exact (listed_writable _ _ _ _ _ _ _ _ _ _ _ _ (built_some _ _ _ _ _ A5) Sv _ _ _ _ A8). }
  assert (Ls : map snd (combine (dm_ids d) (sy_loops (dm_sys d))) = sy_loops (dm_sys d)).
  { assert (Ln : (List.length (sy_loops (dm_sys d)) <= List.length (dm_ids d))%nat).
    { apply (f_equal (@List.length _)) in A6. rewrite !map_length in A6.
      assert (A6' : List.length zs = List.length (dm_ids d)) by exact A6. rewrite <- A6'.
      destruct (le_lt_dec (List.length (sy_loops (dm_sys d))) (List.length zs)) as [Q|Q]; [exact Q|exfalso].
      apply nth_error_Some in Q. destruct (nth_error (sy_loops (dm_sys d)) (List.length zs)) as [l|] eqn:El; [|congruence].
      destruct (Src _ _ El) as (st & z0 & Ez & _). assert (nth_error zs (List.length zs) <> None) by congruence.
      apply nth_error_Some in H0. lia. }
    revert Ln. generalize (dm_ids d) (sy_loops (dm_sys d)). clear. intros a b. revert a. induction b as [|y b IH]; intros [|x a] Ln; cbn in *; try reflexivity; try lia.
    f_equal. apply IH. lia. }
  assert (Wc : forall l n, In l (sy_loops (dm_sys d)) -> lists_fan l n -> wcoref (dm_sys d) n <> None).
  { intros l n I Lf. destruct (writable_soft _ _ _ _ _ _ _ _ _ _ _ _ A8 (Wr _ _ I Lf)) as (wr & E1 & E2).
    unfold soft, sensors_write_env in E1. unfold wcoref. destruct (mget n (sy_sensors (dm_sys d))) as [[t r wt i|t i h]|]; cbn [option_map] in E1; try discriminate.
    injection E1 as <-. destruct (E2 d0 false) as (r & Q). discriminate Q. }
  assert (Nt : no_throw (foldM (destroy_zone f (wk_write_ok k)) (map snd (combine (dm_ids d) (sy_loops (dm_sys d)))) (O, dm_sys d))).
  { rewrite Ls. apply destroys_no_throw. exact Wc. }
  destruct (stop_clears _ _ _ _ St Ab Hs Nt) as (ks & Hk & ->). rewrite Ls in Hk.
  intros l name I Lf. destruct (Wr _ _ I Lf) as (info & Ii & Ty). exists info. split; [exact Ii|]. split; [exact Ty|].
  intros path Dr Od Sp.
  destruct (runs_writer _ _ _ _ _ _ _ _ _ _ _ _ _ path A8 Ii Ty Dr Od Dp) as (wt & W1 & W2 & W3 & W4 & W5).
  destruct (destroys_device f (wk_write_ok k) name path wt (getFailSafePercent (l_zone l)) (sy_loops (dm_sys d)) Of (fun n => Dk w k n eq_refl) Sp _ _ _ Hk W1 W2 W4 W5
    (ex_intro _ l (conj I Lf))) as (raw & R1 & R2).
  exists raw. rewrite <- W3. split; [exact R1|exact R2].
Qed.
End Offline.
