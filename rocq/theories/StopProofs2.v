(** * Proofs about how long stopping takes, for the whole daemon (C96, C97). *)
From Coq Require Import ZArith Bool List String Lia.
From Verif Require Import Base BaseFacts Dbl ZoneModel LoopModel SensorModel SystemModel DbusConfigModel LogModel MainModel SpecMain MainProofs MainProofs2
  ReloadModel SpecReload ReloadProofs StartModel DaemonModel SpecDaemon DaemonProofs DaemonProofs4 SpecStop StopProofs.
Import ListNotations.

Section Daemon.
Context (f : flags) (sf : sflags) (pow10 : Z -> dbl) (re : regex) (named : string).
Notation step := (daemon_step f sf pow10 re named).
Notation run := (daemon_run f sf pow10 re named).

Definition handler (e : daemon_ev) : nat := if is_run e then 1 else 0.
Definition ran (l : list main_ev) : nat := fold_right (fun e n => runs_of e + n) 0 l.
(** The events of MainModel.v in an event. *)
Definition acts (m : main_st) (n : nat) (m1 : main_st) : Prop :=
  m_stopped m1 = true /\ (exists h, m_log m1 = h ++ m_log m /\ (nstarts h <> 0 -> nstops h <> 0)) \/
  exists l, (l = [] \/ exists x, l = [x]) /\ m1 = main_run l m /\ ran l = n.

Lemma acts_run m ok b m1 : m1 = main_step m (ERun ok b) -> acts m 1 m1.
Proof. intros ->. right. exists [ERun ok b]. split; [right; eexists; reflexivity|]. split; reflexivity. Qed.
Lemma acts_quit m n : acts m n (quit m).
Proof. left. split; [reflexivity|]. exists [MExit]. split; [reflexivity|]. cbn. tauto. Qed.
Lemma acts_none m : acts m 0 m.
Proof. right. exists []. split; [left; reflexivity|]. split; reflexivity. Qed.

Lemma main_part_ran r e : (forall ok b bus, e <> VRun ok b bus) -> ran (main_part r e) = 0.
Proof.
  intros N. unfold main_part. destruct (m_stopped _); [reflexivity|]. destruct e; try reflexivity.
  - destruct (rl_done r) as [|[[]|[]] l]; reflexivity.
  - elim (N _ _ _ eq_refl).
Qed.

Lemma step_acts d e d1 : m_stopped (dm_main d) = false -> step d e = Ok d1 -> acts (dm_main d) (handler e) (dm_main d1).
Proof.
  intros St H. unfold daemon_step in H. rewrite St in H. destruct e as [e|w k|x].
  - assert (M : (forall ok b bus, e <> VRun ok b bus) -> acts (dm_main d) 0 (dm_main (set_reload (reload_step (dm_reload d) e) d))).
    { intros N. right. exists (main_part (dm_reload d) e). split; [apply main_part_one|]. split; [apply step_main|apply main_part_ran, N]. }
    destruct e; try (injection H as <-; apply M; discriminate). injection H as <-. apply acts_none.
  - cbn [handler is_run]. unfold run_handler in H. fold (plain d) in H.
    destruct (m_ready (dm_main d)) as [|o r] eqn:R; [injection H as <-; exact (acts_run _ _ _ _ (plain_main d St))|].
    destruct o as [i []|[]|[]]; try (injection H as <-; exact (acts_run _ _ _ _ (plain_main d St))).
    + destruct (index_of i (dm_ids d)) as [n|]; [|injection H as <-; exact (acts_run _ _ _ _ (plain_main d St))].
      destruct (sys_tick f n k (dm_sys d)) as [s|s|s]; [|injection H as <-; exact (acts_run _ _ _ _ (reload_run_main _ _ _ _ St))|discriminate H].
      injection H as <-. exact (acts_run _ _ _ _ (plain_main d St)).
    + destruct (stopControlLoops (set_ready r (dm_main d))) as [[] m]; [|injection H as <-; exact (acts_run _ _ _ _ (plain_main d St))].
      destruct (clear_zones f (wk_write_ok k) m d) as [d'|s|s] eqn:C; [|injection H as <-; apply acts_quit|discriminate H].
      apply bind_ok in H. destruct H as ((b & ex & s) & H1 & H). cbn zeta iota in H. injection H as <-.
      exact (acts_run _ _ _ _ (reload_run_main _ _ _ _ St)).
    + destruct (stopControlLoops (set_ready r (dm_main d))) as [[] m]; [|injection H as <-; exact (acts_run _ _ _ _ (plain_main d St))].
      destruct (clear_zones f (wk_write_ok k) m d) as [d'|s|s] eqn:C; [|injection H as <-; apply acts_quit|discriminate H].
      injection H as <-. destruct (clear_reload _ _ _ _ _ C) as (E & _).
      assert (Em : dm_main d' = dm_main d) by (unfold dm_main; rewrite E; reflexivity).
      apply (acts_run _ true BNotReady). change (dm_main (plain d') = main_step (dm_main d) (ERun true BNotReady)).
      rewrite <- Em. apply plain_main. rewrite Em. exact St.
  - destruct x; try (match type of H with match ?g with _ => _ end = _ => destruct g as [s|s|s] end; try discriminate H; injection H as <-; [apply acts_none|apply acts_quit]).
    injection H as <-. apply acts_none.
Qed.

Lemma stopped_run evs : forall d d1, m_stopped (dm_main d) = true -> run evs d = Ok d1 -> d1 = d.
Proof.
  induction evs as [|e r IH]; intros d d1 St H; [injection H as <-; reflexivity|].
  unfold daemon_run in H. cbn [foldM] in H. apply bind_ok in H. destruct H as (d' & H1 & H). unfold daemon_step in H1. rewrite St in H1.
  injection H1 as <-. exact (IH _ _ St H).
Qed.

(** ** The log *)

Definition grows (m m1 : main_st) : Prop := exists h, m_log m1 = h ++ m_log m /\ (nstarts h <> 0 -> nstops h <> 0).
Lemma grows_refl m : grows m m.
Proof. exists []. split; [reflexivity|]. cbn. tauto. Qed.
Lemma grows_trans a b c : grows a b -> grows b c -> grows a c.
Proof.
  intros (h & E & N) (h' & E' & N'). exists (h' ++ h). rewrite E', E, app_assoc. split; [reflexivity|].
  rewrite nstarts_app, nstops_app. destruct (nstarts h); destruct (nstarts h'); lia.
Qed.
Lemma grows_acts m n m1 : acts m n m1 -> grows m m1.
Proof.
  intros [(_ & H)|(l & L & -> & _)]; [exact H|]. destruct L as [->|(x & ->)]; [apply grows_refl|apply step_log].
Qed.
Lemma grows_step d e d1 : step d e = Ok d1 -> grows (dm_main d) (dm_main d1).
Proof.
  intros H. destruct (m_stopped (dm_main d)) eqn:St; [|exact (grows_acts _ _ _ (step_acts _ _ _ St H))].
  unfold daemon_step in H. rewrite St in H. injection H as <-. apply grows_refl.
Qed.
Lemma grows_run evs : forall d d1, run evs d = Ok d1 -> grows (dm_main d) (dm_main d1).
Proof.
  induction evs as [|e r IH]; intros d d1 H; [injection H as <-; apply grows_refl|].
  unfold daemon_run in H. cbn [foldM] in H. apply bind_ok in H. destruct H as (d' & H1 & H).
  exact (grows_trans _ _ _ (grows_step _ _ _ H1) (IH _ _ H)).
Qed.
Lemma grows_le m m1 : grows m m1 -> nstarts (m_log m) <= nstarts (m_log m1) /\ nstops (m_log m) <= nstops (m_log m1) /\
  (nstops (m_log m1) = nstops (m_log m) -> nstarts (m_log m1) = nstarts (m_log m)).
Proof. intros (h & -> & N). rewrite nstarts_app, nstops_app. destruct (nstarts h); lia. Qed.

(** ** Phases *)

Lemma over_mono r m m1 m2 : over r m m1 -> (m_stopped m1 = true -> m2 = m1) -> grows m1 m2 -> over r m m2.
Proof.
  intros [X|(E & X)] S G; [left; rewrite (S X); exact X|right]. split; [exact E|]. destruct (grows_le _ _ G) as (_ & L & _). lia.
Qed.
Lemma over_le r m m0 m1 : over r m m1 -> grows m0 m -> over r m0 m1.
Proof. intros [X|(E & X)] G; [left; exact X|right]. split; [exact E|]. destruct (grows_le _ _ G) as (_ & L & _). lia. Qed.

Lemma fit_acts m n m1 : fit m -> m_stopped m1 = false -> acts m n m1 -> fit m1.
Proof. intros F St [(X & _)|(l & _ & -> & _)]; [congruence|apply fit_run, F]. Qed.

(** [P n d]: a phase, with at most [n] handlers to come. *)
Lemma phase (r : bool) (P : nat -> main_st -> Prop) :
  (forall n m k m1, fit m -> m_stopped m = false -> P n m -> acts m k m1 -> nstarts (m_log m1) = nstarts (m_log m) -> over r m m1 \/ P (n - k) m1) ->
  forall evs n d d1, fit (dm_main d) -> P n (dm_main d) -> run evs d = Ok d1 -> nstarts (m_log (dm_main d1)) = nstarts (m_log (dm_main d)) ->
    over r (dm_main d) (dm_main d1) \/ fit (dm_main d1) /\ P (n - handlers evs) (dm_main d1).
Proof.
  intros HP. induction evs as [|e evs IH]; intros n d d1 F Pn H Ns.
  - injection H as <-. right. split; [exact F|]. cbn. rewrite Nat.sub_0_r. exact Pn.
  - unfold daemon_run in H. cbn [foldM] in H. apply bind_ok in H. destruct H as (d' & H1 & H). fold (run evs d') in H.
    destruct (m_stopped (dm_main d)) eqn:St.
    { left. left. unfold daemon_step in H1. rewrite St in H1. injection H1 as <-. rewrite (stopped_run _ _ _ St H). exact St. }
    pose proof (step_acts _ _ _ St H1) as A. pose proof (grows_acts _ _ _ A) as G. pose proof (grows_run _ _ _ H) as G2.
    destruct (grows_le _ _ G) as (L1 & L2 & _). destruct (grows_le _ _ G2) as (L3 & L4 & _).
    destruct (HP _ _ _ _ F St Pn A) as [O|P1]; [lia| |].
    + left. apply (over_mono _ _ _ _ O); [|exact G2]. intros X. rewrite (stopped_run _ _ _ X H). reflexivity.
    + destruct (m_stopped (dm_main d')) eqn:St'; [left; left; rewrite (stopped_run _ _ _ St' H); exact St'|].
      destruct (IH _ _ _ (fit_acts _ _ _ F St' A) P1 H) as [O|(F1 & P2)]; [lia|left; exact (over_le _ _ _ _ O G)|right].
      split; [exact F1|]. replace (n - handlers (e :: evs)) with (n - handler e - handlers evs); [exact P2|].
      unfold handlers, handler. cbn [filter]. destruct (is_run e); cbn [List.length]; lia.
Qed.

(** The attempt is on its way, is due, or is queued for the last time. *)
Definition way (r : bool) (n : nat) (m : main_st) : Prop := hushed m /\ pend r m \/ queued_at r n m.
Definition due (r : bool) (n : nat) (m : main_st) : Prop := hushed m /\ pend r m.
Definition last_time (r : bool) (n : nat) (m : main_st) : Prop := hushed m /\ behind r n m.

Lemma acts_step (r : bool) (P : nat -> main_st -> Prop) : (forall n m, P n m -> P (n - 0) m) ->
  (forall n m e, fit m -> m_stopped m = false -> P n m -> nstarts (m_log (main_step m e)) = nstarts (m_log m) ->
     over r m (main_step m e) \/ P (n - runs_of e) (main_step m e)) ->
  forall n m k m1, fit m -> m_stopped m = false -> P n m -> acts m k m1 -> nstarts (m_log m1) = nstarts (m_log m) -> over r m m1 \/ P (n - k) m1.
Proof.
  intros P0 HP n m k m1 F St Pn [(X & _)|(l & L & -> & <-)] Ns; [left; left; exact X|].
  destruct L as [->|(x & ->)]; [right; apply P0, Pn|]. cbn [ran fold_right]. rewrite Nat.add_0_r. exact (HP _ _ _ F St Pn Ns).
Qed.
Lemma due_step r n m e : fit m -> m_stopped m = false -> due r n m -> nstarts (m_log (main_step m e)) = nstarts (m_log m) ->
  over r m (main_step m e) \/ due r (n - runs_of e) (main_step m e).
Proof.
  intros F St (H & Pd) Ns. destruct (stop_step r m e F H St Ns) as [O|(H1 & B & W)]; [left; exact O|].
  destruct Pd as [Pd|(k & Pd)].
  - right. split; [exact H1|]. destruct (W Pd) as [X|X]; [left; exact X|right; eexists; exact X].
  - destruct (B _ Pd) as [X|X]; [left; exact X|right]. split; [exact H1|]. right. eexists. exact X.
Qed.
Lemma way_step r n m e : fit m -> m_stopped m = false -> way r n m -> nstarts (m_log (main_step m e)) = nstarts (m_log m) ->
  over r m (main_step m e) \/ way r (n - runs_of e) (main_step m e).
Proof.
  intros F St [D|Q] Ns.
  - destruct (due_step r n m e F St D Ns) as [X|X]; [left; exact X|right; left; exact X].
  - destruct (first_step r m e n F St Q) as [X|[X|X]]; [left; exact X|right; left; exact X|right; right; exact X].
Qed.
Lemma last_step r n m e : fit m -> m_stopped m = false -> last_time r n m -> nstarts (m_log (main_step m e)) = nstarts (m_log m) ->
  over r m (main_step m e) \/ last_time r (n - runs_of e) (main_step m e).
Proof.
  intros F St (H & B) Ns. destruct (stop_step r m e F H St Ns) as [O|(H1 & B1 & _)]; [left; exact O|].
  destruct (B1 _ B) as [X|X]; [left; exact X|right; split; assumption].
Qed.

(** The timer of the attempt. *)
Definition timer_ev (r : bool) : main_ev := if r then ERetry else ETermRetry.
Lemma timer_step r m : m_stopped m = false -> hushed m -> pend r m ->
  let m1 := main_step m (timer_ev r) in hushed m1 /\ behind r (S (List.length (m_ready m))) m1.
Proof.
  intros St H Pd. assert (Ks : (exists n, behind r n m) -> behind r (S (List.length (m_ready m))) m).
  { intros (n & a & b & R & _ & B). exists a, b. split; [exact R|]. split; [rewrite R, app_length; cbn; lia|exact B]. }
  assert (N : nstarts (m_log (main_step m (timer_ev r))) = nstarts (m_log m)).
  { unfold main_step. rewrite St. destruct r; cbn; [destruct (m_rtimer m)|destruct (m_ttimer m)]; reflexivity. }
  assert (Hm : hushed (main_step m (timer_ev r))).
  { unfold main_step. rewrite St. destruct H as [A R]. destruct r; cbn [timer_ev]; [destruct (m_rtimer m)|destruct (m_ttimer m)]; try (apply Hushed; assumption);
      (apply Hushed; cbn; [exact A|]); destruct R as [R|R]; auto; right; intros i a I X; apply in_app_or in X; destruct X as [X|[X|[]]];
      try discriminate X; exact (R _ _ I X). }
  split; [exact Hm|]. unfold main_step. rewrite St. destruct (waits r m) eqn:W.
  - destruct r; cbn in W |- *; rewrite W; (exists (m_ready m), []; split; [reflexivity|split; [lia|intros i x _ []]]).
  - destruct Pd as [Pd|Pd]; [congruence|]. destruct r; cbn in W |- *; rewrite W; apply Ks, Pd.
Qed.

Definition timer_event (r : bool) : reload_ev := if r then VRetry else VTermRetry.
Lemma timer_daemon r d d1 : m_stopped (dm_main d) = false -> step d (DMove (timer_event r)) = Ok d1 ->
  dm_main d1 = main_step (dm_main d) (timer_ev r).
Proof.
  intros St H. unfold daemon_step in H. rewrite St in H. destruct r; injection H as <-; unfold dm_main at 1; cbn [dm_reload set_reload];
    rewrite step_main; unfold main_part; change (rl_main (dm_reload d)) with (dm_main d); rewrite St; reflexivity.
Qed.

Lemma run_cons e evs d d1 : run (e :: evs) d = Ok d1 -> exists d', step d e = Ok d' /\ run evs d' = Ok d1.
Proof. unfold daemon_run. cbn [foldM]. intros H. apply bind_ok in H. exact H. Qed.

(** Two attempts suffice. *)
Lemma two_attempts r n d0 evs1 d1 evs2 d2 evs3 d3 : fit (dm_main d0) -> queued_at r n (dm_main d0) ->
  run evs1 d0 = Ok d1 -> n <= handlers evs1 -> run evs2 d1 = Ok d2 ->
  run (DMove (timer_event r) :: evs3) d2 = Ok d3 -> queued d2 < handlers evs3 ->
  nstarts (m_log (dm_main d3)) = nstarts (m_log (dm_main d0)) -> over r (dm_main d0) (dm_main d3).
Proof.
  intros F Q H1 L1 H2 H3 L3 Ns. apply run_cons in H3. destruct H3 as (d2' & T & H3).
  pose proof (grows_run _ _ _ H1) as G1. pose proof (grows_run _ _ _ H2) as G2. pose proof (grows_step _ _ _ T) as GT. pose proof (grows_run _ _ _ H3) as G3.
  destruct (grows_le _ _ G1) as (A1 & B1 & _), (grows_le _ _ G2) as (A2 & B2 & _), (grows_le _ _ GT) as (AT & BT & _), (grows_le _ _ G3) as (A3 & B3 & _).
  assert (Fin1 : over r (dm_main d0) (dm_main d1) -> over r (dm_main d0) (dm_main d3)).
  { intros [X|(-> & X)]; [|right; split; [reflexivity|lia]]. pose proof (stopped_run _ _ _ X H2). subst d2.
    unfold daemon_step in T. rewrite X in T. injection T as <-. rewrite (stopped_run _ _ _ X H3). left. exact X. }
  assert (Fin2 : over r (dm_main d0) (dm_main d2) -> over r (dm_main d0) (dm_main d3)).
  { intros [X|(-> & X)]; [|right; split; [reflexivity|lia]].
    unfold daemon_step in T. rewrite X in T. injection T as <-. rewrite (stopped_run _ _ _ X H3). left. exact X. }
  assert (K0 : forall (P : main_st -> Prop) (n : nat) (m : main_st), P m -> P m) by auto.
  destruct (phase r (way r) (acts_step r (way r) ltac:(intros k m; rewrite Nat.sub_0_r; auto) (way_step r)) evs1 n d0 d1 F (or_intror Q) H1) as [O|(F1 & W1)]; [lia|exact (Fin1 O)|].
  assert (D1 : due r 0 (dm_main d1)).
  { destruct W1 as [X|(a & b & _ & L)]; [exact X|]. exfalso. lia. }
  destruct (phase r (due r) (acts_step r (due r) ltac:(auto) (due_step r)) evs2 0 d1 d2 F1 D1 H2) as [O|(F2 & D2)]; [lia|exact (Fin2 (over_le _ _ _ _ O G1))|].
  destruct (m_stopped (dm_main d2)) eqn:St; [apply Fin2; left; exact St|].
  destruct (timer_step r (dm_main d2) St (proj1 D2) (proj2 D2)) as (H & B). pose proof (timer_daemon _ _ _ St T) as Et. rewrite <- Et in H, B.
  assert (F2' : fit (dm_main d2')) by (rewrite Et; apply fit_step, F2).
  destruct (phase r (last_time r) (acts_step r (last_time r) ltac:(intros k m; rewrite Nat.sub_0_r; auto) (last_step r)) evs3 _ d2' d3 F2' (conj H B) H3) as [O|(_ & _ & (a & b & _ & L & _))]; [lia| |].
  - apply (over_le _ _ _ _ O). exact (grows_trans _ _ _ G1 (grows_trans _ _ _ G2 GT)).
  - exfalso. unfold queued in L3. lia.
Qed.

(** ** From the start *)

Lemma fit_daemon evs : forall d d1, fit (dm_main d) -> run evs d = Ok d1 -> m_stopped (dm_main d1) = true \/ fit (dm_main d1).
Proof.
  induction evs as [|e r IH]; intros d d1 F H; [injection H as <-; right; exact F|].
  apply run_cons in H. destruct H as (d' & H1 & H). destruct (m_stopped (dm_main d)) eqn:St.
  - unfold daemon_step in H1. rewrite St in H1. injection H1 as <-. rewrite (stopped_run _ _ _ St H). left. exact St.
  - destruct (m_stopped (dm_main d')) eqn:St'; [left; rewrite (stopped_run _ _ _ St' H); exact St'|].
    exact (IH _ _ (fit_acts _ _ _ F St' (step_acts _ _ _ St H1)) H).
Qed.
Lemma fit_start_daemon first devices : fit (dm_main (daemon_init first devices)).
Proof. exact (fit_step main_init EPostRestart fit_init). Qed.

Lemma run_ended first devices evs d : run evs (daemon_init first devices) = Ok d -> m_stopped (dm_main d) = true -> ended (dm_reload d).
Proof.
  intros H St. assert (X : exit_inv (dm_main d)).
  { eapply run_exits; [|exact H]. apply (step_exit main_init EPostRestart init_exit). }
  unfold exit_inv in X. rewrite St in X. destruct X as (l & X & _). unfold ended, history. rewrite <- in_rev. fold (dm_main d). rewrite X. left. reflexivity.
Qed.
Lemma run_app a b d d1 d2 : run a d = Ok d1 -> run b d1 = Ok d2 -> run (a ++ b) d = Ok d2.
Proof. unfold daemon_run. intros H1 H2. rewrite foldM_app, H1. exact H2. Qed.

Lemma starts_nstarts m : List.length (filter is_start (history m)) = nstarts (m_log m).
Proof.
  unfold history, nstarts. induction (m_log m) as [|e l IH]; [reflexivity|]. cbn [rev]. rewrite filter_app, app_length, IH.
  destruct e; cbn; lia.
Qed.

Lemma C96_lemma first devices evs0 d0 evs1 d1 evs2 d2 evs3 d3 :
  run evs0 (daemon_init first devices) = Ok d0 ->
  run (DMove VTerm :: evs1) d0 = Ok d1 -> queued d0 < handlers evs1 ->
  run evs2 d1 = Ok d2 ->
  run (DMove VTermRetry :: evs3) d2 = Ok d3 -> queued d2 < handlers evs3 ->
  ended (dm_reload d3) \/ loop_starts d3 <> loop_starts d0.
Proof.
  intros H0 H1 L1 H2 H3 L3.
  assert (E : m_stopped (dm_main d3) = true -> ended (dm_reload d3)).
  { apply (run_ended first devices (evs0 ++ (DMove VTerm :: evs1) ++ evs2 ++ DMove VTermRetry :: evs3)).
    eapply run_app; [exact H0|]. eapply run_app; [exact H1|]. eapply run_app; [exact H2|exact H3]. }
  destruct (fit_daemon _ _ _ (fit_start_daemon first devices) H0) as [St|F].
  { left. apply E. rewrite (stopped_run _ _ _ St H1) in *. rewrite (stopped_run _ _ _ St H2) in *. rewrite (stopped_run _ _ _ St H3). exact St. }
  destruct (m_stopped (dm_main d0)) eqn:St.
  { left. apply E. rewrite (stopped_run _ _ _ St H1) in *. rewrite (stopped_run _ _ _ St H2) in *. rewrite (stopped_run _ _ _ St H3). exact St. }
  destruct (Nat.eq_dec (nstarts (m_log (dm_main d3))) (nstarts (m_log (dm_main d0)))) as [Ns|Ns].
  - left. apply E. apply run_cons in H1. destruct H1 as (d0' & T & H1).
    assert (Et : dm_main d0' = main_step (dm_main d0) EPostTerminate).
    { unfold daemon_step in T. rewrite St in T. injection T as <-. unfold dm_main at 1. cbn [dm_reload set_reload].
      rewrite step_main. unfold main_part. change (rl_main (dm_reload d0)) with (dm_main d0). rewrite St. reflexivity. }
    assert (Q : queued_at false (S (queued d0)) (dm_main d0')).
    { rewrite Et. unfold main_step. rewrite St. exists (m_ready (dm_main d0)), []. split; [reflexivity|]. unfold queued. lia. }
    assert (F' : fit (dm_main d0')) by (rewrite Et; apply fit_step, F).
    destruct (two_attempts false _ d0' evs1 d1 evs2 d2 evs3 d3 F' Q H1 ltac:(lia) H2 H3 L3) as [X|(X & _)]; [|exact X|discriminate X].
    rewrite Ns, Et. unfold main_step. rewrite St. reflexivity.
  - right. intros X. apply Ns. rewrite <- !starts_nstarts. unfold loop_starts in X. rewrite X. reflexivity.
Qed.

Lemma C97_lemma first devices evs0 d0 evs1 d1 evs2 d2 evs3 d3 :
  run evs0 (daemon_init first devices) = Ok d0 -> In (ORestart false) (m_ready (dm_main d0)) ->
  run evs1 d0 = Ok d1 -> queued d0 <= handlers evs1 ->
  run evs2 d1 = Ok d2 ->
  run (DMove VRetry :: evs3) d2 = Ok d3 -> queued d2 < handlers evs3 ->
  ended (dm_reload d3) \/ reread_since (dm_reload d0) (dm_reload d3).
Proof.
  intros H0 I H1 L1 H2 H3 L3.
  assert (E : m_stopped (dm_main d3) = true -> ended (dm_reload d3)).
  { apply (run_ended first devices (evs0 ++ evs1 ++ evs2 ++ DMove VRetry :: evs3)).
    eapply run_app; [exact H0|]. eapply run_app; [exact H1|]. eapply run_app; [exact H2|exact H3]. }
  destruct (fit_daemon _ _ _ (fit_start_daemon first devices) H0) as [St|F].
  { left. apply E. rewrite (stopped_run _ _ _ St H1) in *. rewrite (stopped_run _ _ _ St H2) in *. rewrite (stopped_run _ _ _ St H3). exact St. }
  assert (G : grows (dm_main d0) (dm_main d3)).
  { exact (grows_trans _ _ _ (grows_run _ _ _ H1) (grows_trans _ _ _ (grows_run _ _ _ H2) (grows_run _ _ _ H3))). }
  assert (Rr : nstops (m_log (dm_main d0)) < nstops (m_log (dm_main d3)) -> reread_since (dm_reload d0) (dm_reload d3)).
  { destruct G as (h & G & _). intros L. exists (rev h). split.
    - unfold since, history. fold (dm_main d0) (dm_main d3). rewrite G, rev_app_distr. reflexivity.
    - rewrite G, nstops_app in L. rewrite <- in_rev. destruct (filter (fun e => match e with MStopped => true | _ => false end) h) as [|y t] eqn:Fh.
      + exfalso. unfold nstops in L at 2. rewrite Fh in L. cbn in L. lia.
      + assert (Y : In y (y :: t)) by (left; reflexivity). rewrite <- Fh in Y. apply filter_In in Y. destruct Y as (Y & Z). destruct y; try discriminate Z. exact Y. }
  destruct (grows_le _ _ G) as (_ & L & N).
  destruct (Nat.eq_dec (nstops (m_log (dm_main d3))) (nstops (m_log (dm_main d0)))) as [Ns|Ns]; [|right; apply Rr; lia].
  apply in_split in I. destruct I as (a & b & I).
  assert (Q : queued_at true (queued d0) (dm_main d0)).
  { exists a, b. split; [exact I|]. unfold queued. rewrite I, app_length. cbn. lia. }
  destruct (two_attempts true _ d0 evs1 d1 evs2 d2 evs3 d3 F Q H1 L1 H2 H3 L3 (N Ns)) as [X|(_ & X)]; [left; exact (E X)|right; exact (Rr X)].
Qed.

(** ** Without reloads *)

Definition no_reload (r : reload_st) : Prop :=
  rl_timer r = None /\ rl_hup r = None /\ (forall o, In o (rl_done r) -> o = TReload true \/ o = THup true) /\
  m_rtimer (rl_main r) = false /\ ~ In (ORestart false) (m_ready (rl_main r)).

Lemma no_restart_step m e : m_rtimer m = false -> ~ In (ORestart false) (m_ready m) -> e <> EPostRestart ->
  m_rtimer (main_step m e) = false /\ ~ In (ORestart false) (m_ready (main_step m e)) /\ nstarts (m_log (main_step m e)) = nstarts (m_log m).
Proof.
  intros T N Ne. unfold main_step. destruct (m_stopped m); [auto|]. destruct e as [i| | | | |ok b].
  - destruct (imem _ _); [|auto]. cbn. split; [exact T|]. split; [|reflexivity]. intros X. apply in_app_or in X. destruct X as [X|[X|[]]]; [exact (N X)|discriminate X].
  - rewrite T. auto.
  - destruct (m_ttimer m); [|auto]. cbn. split; [exact T|]. split; [|reflexivity]. intros X. apply in_app_or in X. destruct X as [X|[X|[]]]; [exact (N X)|discriminate X].
  - elim (Ne eq_refl).
  - cbn. split; [exact T|]. split; [|reflexivity]. intros X. apply in_app_or in X. destruct X as [X|[X|[]]]; [exact (N X)|discriminate X].
  - destruct (m_ready m) as [|o q] eqn:R; [rewrite R; auto|].
    assert (Nq : ~ In (ORestart false) q) by (intros X; apply N; right; exact X).
    destruct o as [i []|[]|[]]; cbn [run_op]; try (split; [exact T|]; split; [exact Nq|reflexivity]).
    + destruct ok; [destruct (m_canceling _)|]; (split; [exact T|]; split; [exact Nq|reflexivity]).
    + elim N. left. reflexivity.
    + destruct (stopControlLoops (set_ready q m)) as (c & s1) eqn:E. apply stop_cases in E.
      assert (Nc : ~ In (ORestart false) (m_ready (cut (set_ready q m)))).
      { intros X. apply cut_ready in X. destruct X as [X|(i & X & _)]; [exact (Nq X)|discriminate X]. }
      destruct E as [(-> & -> & _)|(-> & ->)].
      * destruct (arm_term_facts (say MStopFailed (cut (set_ready q m)))) as (_ & _ & _ & (l & F4 & F5) & F6 & _ & F8 & _).
        split; [rewrite F6; exact T|]. split; [|rewrite F8; reflexivity]. unfold arm_term. destruct (m_ttimer _); [|exact Nc].
        cbn. intros X. apply in_app_or in X. destruct X as [X|[X|[]]]; [exact (Nc X)|discriminate X].
      * split; [exact T|]. split; [exact Nc|reflexivity].
Qed.

Lemma part_restart r e : no_reload r -> In EPostRestart (main_part r e) -> False.
Proof.
  intros (_ & _ & D & _) X. unfold main_part in X. destruct (m_stopped _); [destruct X|].
  destruct e; cbn in X; try (destruct X as [X|[]]; discriminate X); try contradiction.
  destruct (rl_done r) as [|o l]; [destruct X|]. destruct (D o (or_introl eq_refl)) as [->| ->]; destruct X.
Qed.

Definition asks_ev (e : reload_ev) : Prop := e = VHup \/ exists m, e = VSignal m.
Lemma no_reload_step r e : no_reload r -> ~ asks_ev e ->
  no_reload (reload_step r e) /\ nstarts (m_log (rl_main (reload_step r e))) = nstarts (m_log (rl_main r)).
Proof.
  intros Hn Na. pose proof Hn as (T & U & D & M & N). pose proof (step_main r e) as Sm.
  assert (K : m_rtimer (rl_main (reload_step r e)) = false /\ ~ In (ORestart false) (m_ready (rl_main (reload_step r e))) /\
    nstarts (m_log (rl_main (reload_step r e))) = nstarts (m_log (rl_main r))).
  { rewrite Sm. destruct (main_part_one r e) as [->|(x & E)]; [cbn; auto|]. rewrite E. cbn [main_run fold_left]. apply no_restart_step; auto.
    intros ->. apply (part_restart r e Hn). rewrite E. left. reflexivity. }
  destruct K as (K1 & K2 & K3). split; [|exact K3].
  split; [|split; [|split; [|split; [exact K1|exact K2]]]]; unfold reload_step; destruct (m_stopped _); auto; destruct e; cbn; auto.
  - elim Na. right. eexists. reflexivity.
  - rewrite T. reflexivity || exact T.
  - rewrite U. exact T.
  - destruct (rl_done r) as [|o l]; [exact T|]. destruct (D o (or_introl eq_refl)) as [->| ->]; exact T.
  - elim Na. right. eexists. reflexivity.
  - elim Na. left. reflexivity.
  - rewrite T. exact U.
  - rewrite U. exact U.
  - destruct (rl_done r) as [|o l]; [exact U|]. destruct (D o (or_introl eq_refl)) as [->| ->]; exact U.
  - elim Na. right. eexists. reflexivity.
  - elim Na. left. reflexivity.
  - rewrite T. exact D.
  - rewrite U. exact D.
  - destruct (rl_done r) as [|o l] eqn:Ed; [rewrite Ed; exact D|]. destruct (D o (or_introl eq_refl)) as [->| ->]; cbn; intros x X; apply D; right; exact X.
Qed.

(** Any event of the daemon moves its timers and handlers by some event of ReloadModel.v, or ends it. *)
Lemma step_reload d e d1 : m_stopped (dm_main d) = false -> step d e = Ok d1 ->
  m_stopped (dm_main d1) = true /\ nstarts (m_log (dm_main d1)) = nstarts (m_log (dm_main d)) \/ dm_reload d1 = dm_reload d \/
  exists v, dm_reload d1 = reload_step (dm_reload d) v /\ (e = DMove v \/ exists ok b bus, v = VRun ok b bus).
Proof.
  intros St H. unfold daemon_step in H. rewrite St in H. destruct e as [e|w k|x].
  - destruct e; injection H as <-; try (right; right; eexists; split; [reflexivity|left; reflexivity]). right. left. reflexivity.
  - unfold run_handler in H. fold (plain d) in H.
    assert (P : forall x, dm_reload x = dm_reload (plain d) -> exists v, dm_reload x = reload_step (dm_reload d) v /\ (DRun w k = DMove v \/ exists ok b bus, v = VRun ok b bus)).
    { intros x X. eexists. split; [exact X|]. right. eauto. }
    destruct (m_ready (dm_main d)) as [|o r] eqn:R; [injection H as <-; right; right; apply P; reflexivity|].
    destruct o as [i []|[]|[]]; try (injection H as <-; right; right; apply P; reflexivity).
    + destruct (index_of i (dm_ids d)) as [n|]; [|injection H as <-; right; right; apply P; reflexivity].
      destruct (sys_tick f n k (dm_sys d)) as [s|s|s]; [injection H as <-; right; right; apply P; reflexivity| |discriminate H].
      injection H as <-. right. right. eexists. split; [reflexivity|right; eauto].
    + destruct (stopControlLoops (set_ready r (dm_main d))) as [[] m]; [|injection H as <-; right; right; apply P; reflexivity].
      destruct (clear_zones f (wk_write_ok k) m d) as [d'|s|s] eqn:C; [|injection H as <-; left; split; reflexivity|discriminate H].
      apply bind_ok in H. destruct H as ((b & ex & s) & H1 & H). cbn zeta iota in H. injection H as <-.
      right. right. eexists. split; [reflexivity|right; eauto].
    + destruct (stopControlLoops (set_ready r (dm_main d))) as [[] m]; [|injection H as <-; right; right; apply P; reflexivity].
      destruct (clear_zones f (wk_write_ok k) m d) as [d'|s|s] eqn:C; [|injection H as <-; left; split; reflexivity|discriminate H].
      injection H as <-. destruct (clear_reload _ _ _ _ _ C) as (E & _). right. right. apply P. cbn. rewrite E. reflexivity.
  - destruct x; try (match type of H with match ?g with _ => _ end = _ => destruct g as [s|s|s] end; try discriminate H; injection H as <-;
      [right; left; reflexivity|left; split; reflexivity]).
    injection H as <-. right. left. reflexivity.
Qed.
Lemma no_reload_run evs : forall d d1, no_reload (dm_reload d) -> Forall (fun e => ~ asks_reload e) evs -> run evs d = Ok d1 ->
  (m_stopped (dm_main d1) = true \/ no_reload (dm_reload d1)) /\ nstarts (m_log (dm_main d1)) = nstarts (m_log (dm_main d)).
Proof.
  induction evs as [|e r IH]; intros d d1 N A H; [injection H as <-; auto|]. apply run_cons in H. destruct H as (d' & H1 & H).
  inversion A as [|? ? A1 A2]. subst. destruct (m_stopped (dm_main d)) eqn:St.
  { unfold daemon_step in H1. rewrite St in H1. injection H1 as <-. rewrite (stopped_run _ _ _ St H). auto. }
  destruct (step_reload _ _ _ St H1) as [(X & Y)|[X|(v & X & V)]].
  - rewrite (stopped_run _ _ _ X H). auto.
  - unfold dm_main in *. destruct (IH d' d1) as (I1 & I2); [rewrite X; exact N|exact A2|exact H|]. split; [exact I1|]. rewrite I2, X. reflexivity.
  - assert (Nv : ~ asks_ev v).
    { intros Q. destruct V as [->|(ok & b & bus & ->)]; [|destruct Q as [Q|(m & Q)]; discriminate Q]. apply A1.
      destruct Q as [->|(m & ->)]; [left; reflexivity|right; eexists; reflexivity]. }
    destruct (no_reload_step _ _ N Nv) as (N1 & S1). unfold dm_main in *. destruct (IH d' d1) as (I1 & I2); [rewrite X; exact N1|exact A2|exact H|].
    split; [exact I1|]. rewrite I2, X. exact S1.
Qed.
Lemma C96_ends_lemma first devices evs0 d0 evs1 d1 evs2 d2 evs3 d3 :
  run evs0 (daemon_init first devices) = Ok d0 -> no_reload_pending d0 -> Forall (fun e => ~ asks_reload e) (evs1 ++ evs2 ++ evs3) ->
  run (DMove VTerm :: evs1) d0 = Ok d1 -> queued d0 < handlers evs1 ->
  run evs2 d1 = Ok d2 ->
  run (DMove VTermRetry :: evs3) d2 = Ok d3 -> queued d2 < handlers evs3 ->
  ended (dm_reload d3).
Proof.
  intros H0 N A H1 L1 H2 H3 L3. destruct (C96_lemma _ _ _ _ _ _ _ _ _ _ H0 H1 L1 H2 H3 L3) as [X|X]; [exact X|]. exfalso. apply X.
  apply Forall_app in A. destruct A as (A1 & A2). apply Forall_app in A2. destruct A2 as (A2 & A3).
  assert (Nt : forall v, v = VTerm \/ v = VTermRetry -> ~ asks_reload (DMove v)).
  { intros v V [Q|(m & Q)]; injection Q as ->; destruct V as [V|V]; discriminate V. }
  assert (R : run ((DMove VTerm :: evs1) ++ evs2 ++ DMove VTermRetry :: evs3) d0 = Ok d3).
  { eapply run_app; [exact H1|]. eapply run_app; [exact H2|exact H3]. }
  apply no_reload_run in R; [|exact N|].
  - destruct R as (_ & R). destruct (grows_run _ _ _ (run_app _ _ _ _ _ H1 (run_app _ _ _ _ _ H2 H3))) as (h & G & _).
    rewrite G, nstarts_app in R. assert (Z : nstarts h = 0) by lia. unfold loop_starts, history. rewrite G, rev_app_distr, filter_app.
    assert (E : filter is_start (rev h) = []).
    { apply length_zero_iff_nil. unfold nstarts in Z. rewrite <- Z. clear. induction h as [|e l IH]; [reflexivity|]. cbn [rev]. rewrite filter_app, app_length, IH.
      destruct e; cbn; lia. }
    rewrite E, app_nil_r. reflexivity.
  - apply Forall_app. split; [constructor; [apply Nt; auto|exact A1]|]. apply Forall_app. split; [exact A2|constructor; [apply Nt; auto|exact A3]].
Qed.
End Daemon.
