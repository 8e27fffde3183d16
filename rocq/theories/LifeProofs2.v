(** * Proofs about the life of the daemon: failing sensors (C101). *)
From Coq Require Import ZArith Bool List String Lia Permutation.
From Verif Require Import Base BaseFacts Dbl PidModel ZoneModel LoopModel BuilderModel SpecBuilder SpecZone ZoneProofs LoopProofs ConfigModel SensorModel SpecSensor SensorProofs WriteModel SpecWrite
  SystemModel SpecSystem SystemProofs SystemProofs2 SystemProofs3 SystemProofs4 BuilderProofs BuilderRun JsonModel DbusConfigModel MainModel SpecMain MainProofs MainProofs2 ReloadModel SpecReload StartModel SpecStart StartProofs
  DaemonModel SpecDaemon DaemonProofs DaemonProofs2 DaemonProofs4 StopProofs StopProofs2 SpecLife LifeProofs.
Import ListNotations.

Lemma split_two {A} (a : list A) : forall x b a' x' b', a ++ x :: b = a' ++ x' :: b' ->
  (a = a' /\ x = x' /\ b = b') \/ (exists c, a' = a ++ x :: c) \/ (exists c, a = a' ++ x' :: c).
Proof.
  induction a as [|h r IH]; intros x b [|h' r'] x' b' H; cbn in H; injection H as H1 H2.
  - subst. auto.
  - subst. right. left. exists r'. reflexivity.
  - subst. right. right. exists r. reflexivity.
  - subst. destruct (IH _ _ _ _ _ H2) as [(-> & -> & ->)|[(c & ->)|(c & ->)]]; [auto|right; left|right; right]; exists c; reflexivity.
Qed.

Lemma nodup_left {A} (a b : list A) : NoDup (a ++ b) -> NoDup a.
Proof. induction a as [|x a IH]; intros N; [constructor|]. cbn in N. inversion N as [|y l N1 N2]; subst. constructor; [|auto]. intros I. apply N1, in_or_app. auto. Qed.

Section Life2.
Context (f : flags) (sf : sflags) (pow10 : Z -> dbl) (re : regex) (named : string).
Notation step := (daemon_step f sf pow10 re named).
Notation run := (daemon_run f sf pow10 re named).
Notation passes_on := (passes_on f sf pow10 re named).

Lemma run_cons e evs d d2 : run (e :: evs) d = Ok d2 -> exists d1, step d e = Ok d1 /\ run evs d1 = Ok d2.
Proof. unfold daemon_run. cbn [foldM]. intros H. apply bind_ok in H. exact H. Qed.
Lemma run_parts a b d d2 : run (a ++ b) d = Ok d2 -> exists d1, run a d = Ok d1 /\ run b d1 = Ok d2.
Proof. unfold daemon_run. rewrite foldM_app. intros H. apply bind_ok in H. exact H. Qed.

(** ** The last start is where the loops were last stopped *)

Lemma same_start d0 pre w k post da d1 pre' w' k' post' da' d1' d :
  pre ++ DRun w k :: post = pre' ++ DRun w' k' :: post' ->
  run pre d0 = Ok da -> step da (DRun w k) = Ok d1 -> run post d1 = Ok d ->
  run pre' d0 = Ok da' -> step da' (DRun w' k') = Ok d1' -> run post' d1' = Ok d ->
  loop_stops d1 <> loop_stops da -> loop_stops d1' <> loop_stops da' -> loop_stops d = loop_stops d1 -> loop_stops d = loop_stops d1' ->
  pre = pre' /\ w = w' /\ k = k' /\ post = post'.
Proof.
  intros E H1 H2 H3 H1' H2' H3' N N' S S'.
  assert (Len : forall a b : daemon, loop_stops a = loop_stops b -> nstops (m_log (dm_main a)) = nstops (m_log (dm_main b))) by (intros a b X; rewrite <- !stops_nstops, X; reflexivity).
  assert (Lt : forall a b e, step a e = Ok b -> loop_stops b <> loop_stops a -> nstops (m_log (dm_main a)) < nstops (m_log (dm_main b))).
  { intros a b e H X. destruct (grows_step f sf pow10 re named _ _ _ H) as (h & L & _).
    assert (Y : nstops h <> 0).
    { intros Z. apply X. apply stops_log. rewrite L, filter_app. unfold nstops in Z. apply length_zero_iff_nil in Z.
      assert (Q : filter is_stop h = []) by exact Z. rewrite Q. reflexivity. }
    rewrite L, nstops_app. lia. }
  pose proof (Lt _ _ _ H2 N). pose proof (Lt _ _ _ H2' N'). apply Len in S, S'.
  destruct (split_two _ _ _ _ _ _ E) as [(-> & X & ->)|[(c & ->)|(c & ->)]].
  - injection X as -> ->. auto.
  - exfalso. apply run_parts in H1'. destruct H1' as (x & Q1 & Q2). apply run_cons in Q2. destruct Q2 as (y & Q2 & Q3).
    assert (x = da) by congruence. subst x. assert (y = d1) by congruence. subst y.
    destruct (grows_le _ _ (grows_run f sf pow10 re named _ _ _ Q3)) as (_ & L & _). lia.
  - exfalso. apply run_parts in H1. destruct H1 as (x & Q1 & Q2). apply run_cons in Q2. destruct Q2 as (y & Q2 & Q3).
    assert (x = da') by congruence. subst x. assert (y = d1') by congruence. subst y.
    destruct (grows_le _ _ (grows_run f sf pow10 re named _ _ _ Q3)) as (_ & L & _). lia.
Qed.

(** ** Parts of what reaches the system *)

Lemma passed_run d evs l d' : passes_on d evs l d' -> run evs d = Ok d'.
Proof. induction 1 as [d|d e d1 evs l d2 M H P IH|d w k j z d1 evs l d2 Nx Nz H P IH|d e d1 evs l d2 N1 N2 H P IH]; unfold daemon_run; cbn [foldM]; [reflexivity| | |]; rewrite H; exact IH. Qed.

Lemma passed_parts a : forall b d l d', passes_on d (a ++ b) l d' -> exists l1 l2 d1, l = l1 ++ l2 /\ passes_on d a l1 d1 /\ passes_on d1 b l2 d'.
Proof.
  induction a as [|e a IH]; intros b d l d' P; [exists [], l, d; split; [reflexivity|split; [constructor|exact P]]|].
  cbn [app] in P. inversion P as [|? x d1 ? l0 ? M H Q|? w k n z d1 ? l0 ? Nx Nz H Q|? ? d1 ? l0 ? N1 N2 H Q]; subst; destruct (IH _ _ _ _ Q) as (l1 & l2 & d2 & -> & P1 & P2).
  - exists (x :: l1), l2, d2. split; [reflexivity|]. split; [eapply po_message; eassumption|exact P2].
  - exists (STick n k :: l1), l2, d2. split; [reflexivity|]. split; [eapply po_wake; eassumption|exact P2].
  - exists l1, l2, d2. split; [reflexivity|]. split; [eapply po_other; eassumption|exact P2].
Qed.

Lemma passed_in d evs l d' x : passes_on d evs l d' -> In x l -> message x -> In (DSys x) evs.
Proof.
  induction 1 as [d|d e d1 evs l d2 M H P IH|d w k j z d1 evs l d2 Nx Nz H P IH|d e d1 evs l d2 N1 N2 H P IH]; intros I Mx.
  - destruct I.
  - destruct I as [->|I]; [left; reflexivity|right; auto].
  - destruct I as [<-|I]; [elim (Mx _ _ eq_refl)|right; auto].
  - right. auto.
Qed.

(** The messages that reached the system are the messages of the life. *)
Definition only_messages (l : list sys_event) : list sys_event := filter (fun e => match e with STick _ _ => false | _ => true end) l.
Lemma passed_messages d evs l d' : passes_on d evs l d' -> only_messages l = only_messages (messages evs).
Proof.
  induction 1 as [d|d e d1 evs l d2 M H P IH|d w k j z d1 evs l d2 Nx Nz H P IH|d e d1 evs l d2 N1 N2 H P IH].
  - reflexivity.
  - cbn [messages flat_map app only_messages filter]. fold (messages evs) (only_messages l) (only_messages (messages evs)). rewrite IH. reflexivity.
  - cbn [messages flat_map app only_messages filter]. fold (messages evs) (only_messages l). exact IH.
  - destruct e as [x|w k|x]; [exact IH|exact IH|].
    destruct x as [p m0|n v t|m0|c|j w|j b|j p b]; try (elim (N1 _ eq_refl); intros ? ? X; discriminate X). exact IH.
Qed.
Lemma flat_filter {A} (g : sys_event -> list A) : (forall i w, g (STick i w) = []) -> forall l, flat_map g l = flat_map g (only_messages l).
Proof.
  intros G. induction l as [|e r IH]; [reflexivity|]. cbn [flat_map only_messages filter]. rewrite IH. destruct e; try reflexivity. rewrite G. reflexivity.
Qed.
Lemma bad_same sb failures first name info a b now : only_messages a = only_messages b ->
  bad_at sf pow10 sb failures first name info a now -> bad_at sf pow10 sb failures first name info b now.
Proof.
  intros E. assert (F : forall {A} (g : sys_event -> list A), (forall i w, g (STick i w) = []) -> flat_map g a = flat_map g b).
  { intros A g G. rewrite (flat_filter g G a), (flat_filter g G b), E. reflexivity. }
  assert (Hh : forall p, heard p a = heard p b) by (intros p; apply F; reflexivity).
  assert (Hv : host_values name a = host_values name b) by (apply F; reflexivity).
  assert (Hr : redundancy_news a = redundancy_news b) by (apply F; reflexivity).
  assert (Hc : host_changes a = host_changes b) by (apply F; reflexivity).
  unfold bad_at, bus_failed, updated_at, marked_failed. rewrite Hh, Hv, Hr, Hc. exact (fun x => x).
Qed.

(** ** Runs of a loop *)

Definition is_ran (z : inst) (x : main_event) : bool := match x with MRan i => (fst i =? fst z)%Z && Nat.eqb (snd i) (snd z) | _ => false end.
Definition nran (z : inst) (l : list main_event) : nat := List.length (filter (is_ran z) l).
Lemma cycles_nran z d : cycles_of z d = nran z (m_log (dm_main d)).
Proof. unfold cycles_of, history, nran. rewrite filter_rev, rev_length. reflexivity. Qed.
Lemma nran_app z a b : nran z (a ++ b) = nran z a + nran z b.
Proof. unfold nran. rewrite filter_app, app_length. reflexivity. Qed.

Definition runs_it (z : inst) (m : main_st) (x : main_ev) : nat :=
  match x, m_ready m with ERun _ _, OLoop i false :: _ => if is_ran z (MRan i) then 1 else 0 | _, _ => 0 end.
Lemma start_ran z zs : forall good s q s2, start_loops zs good s = (q, s2) -> nran z (m_log s2) = nran z (m_log s).
Proof.
  induction zs as [|z0 zs IH]; intros good s q s2 H; cbn [start_loops] in H; [injection H as _ <-; reflexivity|].
  destruct good; [injection H as _ <-; reflexivity|]. rewrite (IH _ _ _ _ H). reflexivity.
Qed.
Lemma stop_ran z s q s2 : stopControlLoops s = (q, s2) -> nran z (m_log s2) = nran z (m_log s).
Proof.
  unfold stopControlLoops. cbv zeta. cbn [m_zones set_ready]. destruct (m_zones s) as [|z0 l]; [|destruct (1 <? _)%nat]; intros H; injection H as _ <-; reflexivity.
Qed.
Lemma main_ran z m x : m_stopped m = false -> nran z (m_log (main_step m x)) = nran z (m_log m) + runs_it z m x.
Proof.
  intros St. unfold main_step. rewrite St. unfold runs_it. destruct x as [i| | | | |ok b]; rewrite ?Nat.add_0_r.
  - destruct (imem i (m_armed m)); reflexivity.
  - destruct (m_rtimer m); reflexivity.
  - destruct (m_ttimer m); reflexivity.
  - reflexivity.
  - reflexivity.
  - destruct (m_ready m) as [|o r] eqn:R; [cbn; lia|].
    assert (Ar : forall s, m_log (arm_retry s) = m_log s) by (intros s; unfold arm_retry; destruct (m_rtimer s); reflexivity).
    assert (At : forall s, m_log (arm_term s) = m_log s) by (intros s; unfold arm_term; destruct (m_ttimer s); reflexivity).
    destruct o as [i []|[]|[]]; cbn [run_op]; rewrite ?Nat.add_0_r; try reflexivity.
    + assert (E : m_log (if ok then if m_canceling (say (MRan i) (set_ready r m)) then say (MRan i) (set_ready r m) else set_armed (m_armed (say (MRan i) (set_ready r m)) ++ [i]) (say (MRan i) (set_ready r m))
                  else quit (say (MRan i) (set_ready r m))) = (if ok then [] else [MExit]) ++ MRan i :: m_log m) by (destruct ok; [destruct (m_canceling _)|]; reflexivity).
      cbv zeta. rewrite E, nran_app. change (MRan i :: m_log m) with ([MRan i] ++ m_log m). rewrite nran_app. unfold nran at 2. cbn [filter]. destruct ok; cbn [nran filter is_ran List.length app].
      * destruct (_ && _); cbn; lia.
      * destruct (_ && _); cbn; lia.
    + unfold restartControlLoops. destruct (stopControlLoops (set_ready r m)) as [[] m1] eqn:S; apply (stop_ran z) in S; change (m_log (set_ready r m)) with (m_log m) in S; rewrite <- S.
      * destruct b as [| | |ids good]; cbn [fst snd]; rewrite ?Ar; try reflexivity.
        destruct (nodup Z.eq_dec ids) as [|y zs] eqn:Nz; [reflexivity|]. destruct (start_loops _ _ _) as (q & s2) eqn:Q. apply (start_ran z) in Q.
        destruct q; rewrite ?Ar; exact Q.
      * rewrite Ar. reflexivity.
    + destruct (stopControlLoops (set_ready r m)) as [[] m1] eqn:S; apply (stop_ran z) in S; change (m_log (set_ready r m)) with (m_log m) in S; rewrite <- S.
      * reflexivity.
      * rewrite At. reflexivity.
Qed.

Lemma step_ids d e d1 : step d e = Ok d1 -> m_stopped (dm_main d1) = false -> nstops (m_log (dm_main d1)) = nstops (m_log (dm_main d)) -> dm_ids d1 = dm_ids d.
Proof.
  intros H Sp Q. destruct (m_stopped (dm_main d)) eqn:St.
  { unfold daemon_step in H. rewrite St in H. injection H as <-. reflexivity. }
  pose proof (step_kind f sf pow10 re named d e d1 St H) as K.
  destruct K as [e d1 l K1 K2 K3 K4 K5 K6|x s K1 K2|x K1|w k i m s K1 K2 K3|w k i K1 K2|w k i m t K1 K2 K3|w k r m d' b ex s bus K1 K2 K3 K4|w k o r m K1 K2 K3 K4|w k r m d' K1 K2 K3]; try reflexivity.
  - rewrite K5. reflexivity.
  - exfalso. pose proof (stop_shown _ _ _ _ true b St K1 eq_refl K2) as L.
    unfold dm_main in L at 2. rewrite <- (reload_run_main (dm_reload d) true b bus St) in L. change (dm_main (let rl := reload_step (dm_reload d) (VRun true b bus) in
       Daemon rl s (dm_ids d' ++ firstn (started b) (m_zones (rl_main rl))) ex)) with (rl_main (reload_step (dm_reload d) (VRun true b bus))) in Q. lia.
  - exfalso. pose proof (stop_shown _ _ _ _ true BNotReady St K1 eq_refl K2) as L. destruct (clear_reload _ _ _ _ _ K3) as (X & _).
    unfold dm_main in L at 2. rewrite <- (reload_run_main (dm_reload d) true BNotReady false St) in L.
    change (dm_main (plain d')) with (rl_main (reload_step (dm_reload d') (VRun true BNotReady false))) in Q. rewrite X in Q. lia.
Qed.

Lemma step_ran z d e d1 : step d e = Ok d1 -> m_stopped (dm_main d) = false -> m_stopped (dm_main d1) = false ->
  nran z (m_log (dm_main d1)) = nran z (m_log (dm_main d)) + match e with DRun _ _ => runs_it z (dm_main d) (ERun true BNotReady) | _ => 0 end.
Proof.
  intros H St Sp. destruct (step_acts f sf pow10 re named d e d1 St H) as [(X & _)|(l & Ll & E & Rn)]; [congruence|].
  rewrite E. destruct Ll as [->|(x & ->)].
  - cbn [main_run fold_left ran fold_right] in *. destruct e; cbn in Rn; try discriminate Rn; lia.
  - cbn [main_run fold_left ran fold_right] in *. rewrite (main_ran z _ x St). f_equal. destruct e as [y|w k|y]; cbn in Rn; destruct x; try discriminate Rn; reflexivity.
Qed.

Lemma step_then d e d1 evs l d2 : step d e = Ok d1 -> passes_on d1 evs l d2 -> m_stopped (dm_main d2) = false -> nstops (m_log (dm_main d2)) = nstops (m_log (dm_main d)) ->
  m_stopped (dm_main d) = false /\ m_stopped (dm_main d1) = false /\ nstops (m_log (dm_main d2)) = nstops (m_log (dm_main d1)) /\ dm_ids d1 = dm_ids d.
Proof.
  intros H P Sp Q. apply passed_run in P.
  destruct (grows_le _ _ (grows_step f sf pow10 re named _ _ _ H)) as (_ & L1 & _). destruct (grows_le _ _ (grows_run f sf pow10 re named _ _ _ P)) as (_ & L2 & _).
  assert (Sp1 : m_stopped (dm_main d1) = false).
  { destruct (m_stopped (dm_main d1)) eqn:X; [|reflexivity]. pose proof (stopped_run f sf pow10 re named _ _ _ X P) as Y. congruence. }
  split.
  { destruct (m_stopped (dm_main d)) eqn:X; [|reflexivity]. unfold daemon_step in H. rewrite X in H. congruence. }
  split; [exact Sp1|]. split; [lia|]. apply (step_ids d e d1 H Sp1). lia.
Qed.

Lemma passed_ran d evs l d' i z : passes_on d evs l d' -> m_stopped (dm_main d') = false -> nstops (m_log (dm_main d')) = nstops (m_log (dm_main d)) ->
  NoDup (dm_ids d) -> nth_error (dm_ids d) i = Some z -> dm_ids d' = dm_ids d /\ nran z (m_log (dm_main d')) = nran z (m_log (dm_main d)) + wakes i l.
Proof.
  intros P. induction P as [d|d e d1 evs l d2 M H P IH|d w k j y d1 evs l d2 Nx Nz H P IH|d e d1 evs l d2 N1 N2 H P IH]; intros Sp Q Nd E.
  - split; [reflexivity|]. cbn. lia.
  - destruct (step_then _ _ _ _ _ _ H P Sp Q) as (S0 & S1 & Q1 & I1). pose proof (step_ran z _ _ _ H S0 S1) as R. cbn iota in R.
    rewrite <- I1 in Nd, E. destruct (IH Sp Q1 Nd E) as (I2 & R2). split; [congruence|]. rewrite R2, R.
    assert (W : wakes i (e :: l) = wakes i l) by (destruct e; try reflexivity; elim (M _ _ eq_refl)). rewrite W. lia.
  - destruct (step_then _ _ _ _ _ _ H P Sp Q) as (S0 & S1 & Q1 & I1). pose proof (step_ran z _ _ _ H S0 S1) as R. cbn iota in R.
    assert (Ri : runs_it z (dm_main d) (ERun true BNotReady) = if Nat.eqb j i then 1 else 0).
    { destruct Nx as (r & Nx). unfold runs_it. rewrite Nx. cbn [is_ran]. destruct (Nat.eqb_spec j i) as [->|Nj].
      - rewrite Nz in E. injection E as ->. rewrite Z.eqb_refl, Nat.eqb_refl. reflexivity.
      - destruct (_ && _) eqn:X; [|reflexivity]. exfalso. apply andb_prop in X. destruct X as (X1 & X2). apply Z.eqb_eq in X1. apply Nat.eqb_eq in X2.
        apply Nj. rewrite NoDup_nth_error in Nd. apply Nd; [apply nth_error_Some; congruence|]. rewrite Nz, E. destruct y, z; cbn in *; congruence. }
    rewrite <- I1 in Nd, E. destruct (IH Sp Q1 Nd E) as (I2 & R2). split; [congruence|]. rewrite R2, R, Ri.
    unfold wakes. cbn [filter]. destruct (Nat.eqb j i); cbn [List.length]; lia.
  - destruct (step_then _ _ _ _ _ _ H P Sp Q) as (S0 & S1 & Q1 & I1). pose proof (step_ran z _ _ _ H S0 S1) as R.
    assert (Ri : match e with DRun _ _ => runs_it z (dm_main d) (ERun true BNotReady) | _ => 0 end = 0).
    { destruct e as [x|w k|x]; try reflexivity. unfold runs_it. destruct (m_ready (dm_main d)) as [|[y []|y|y] r] eqn:X; try reflexivity.
      elim (N2 _ _ y eq_refl). exists r. exact X. }
    rewrite Ri in R. rewrite <- I1 in Nd, E. destruct (IH Sp Q1 Nd E) as (I2 & R2). split; [congruence|]. rewrite R2, R. lia.
Qed.

Lemma run_ids evs : forall d d1, run evs d = Ok d1 -> m_stopped (dm_main d1) = false -> nstops (m_log (dm_main d1)) = nstops (m_log (dm_main d)) -> dm_ids d1 = dm_ids d.
Proof.
  induction evs as [|e r IH]; intros d d1 H Sp Q; [injection H as <-; reflexivity|]. apply run_cons in H. destruct H as (d2 & H1 & H).
  destruct (grows_le _ _ (grows_step f sf pow10 re named _ _ _ H1)) as (_ & L1 & _). destruct (grows_le _ _ (grows_run f sf pow10 re named _ _ _ H)) as (_ & L2 & _).
  rewrite (IH _ _ H Sp) by lia. apply (step_ids _ _ _ H1); [|lia].
  destruct (m_stopped (dm_main d2)) eqn:X; [|reflexivity]. pose proof (stopped_run f sf pow10 re named _ _ _ X H). congruence.
Qed.

(** ** The reaction *)

Lemma same_changes a b : only_messages a = only_messages b -> host_changes a = host_changes b.
Proof. intros E. unfold host_changes. rewrite (flat_filter _ (fun _ _ => eq_refl) a), (flat_filter _ (fun _ _ => eq_refl) b), E. reflexivity. Qed.
Lemma only_app a b : only_messages (a ++ b) = only_messages a ++ only_messages b.
Proof. apply filter_app. Qed.
Lemma messages_app a b : messages (a ++ b) = messages a ++ messages b.
Proof. apply flat_map_app. Qed.
Lemma bool_iff (a b : bool) : (a = true <-> b = true) -> a = b.
Proof. destruct a, b; intros (X & Y); auto; discriminate (X eq_refl) + discriminate (Y eq_refl). Qed.

(** What was said since the start, in terms of the host state at the start. *)
Lemma bad_from_start sb failures first first' name info before a since now b :
  only_messages a = only_messages since -> only_messages before = only_messages b ->
  (host_initial first' = true <-> host_on first (host_changes b)) ->
  bad_since sf pow10 sb failures first name info before since now -> bad_at sf pow10 sb failures first' name info a now.
Proof.
  intros E Eb Hi B. apply (bad_same sb failures first' name info since a now (eq_sym E)). unfold bad_at. unfold bad_since in B.
  destruct B as [(B1 & B2 & B3)|[B|B]]; [left|right; left; exact B|right; right; exact B]. split; [exact B1|]. split; [exact B2|].
  intros Ig. specialize (B3 Ig). rewrite <- host_state_lemma in *. unfold host_changes in B3. rewrite flat_map_app in B3.
  fold (host_changes before) (host_changes since) in B3. rewrite (same_changes _ _ Eb), fold_left_app in B3.
  apply bool_iff in Hi. rewrite Hi. exact B3.
Qed.

Lemma passed_tick d evs l d' i k0 q : passes_on d evs l d' -> forall p, l = p ++ STick i k0 :: q ->
  exists m1 w0 m2 dm y, evs = m1 ++ DRun w0 k0 :: m2 /\ passes_on d m1 p dm /\ next_is (OLoop y false) dm /\ nth_error (dm_ids dm) i = Some y /\ exists q', passes_on dm (DRun w0 k0 :: m2) q' d'.
Proof.
  intros P. induction P as [d|d e d1 evs l d2 M H P IH|d w k j y d1 evs l d2 Nx Nz H P IH|d e d1 evs l d2 N1 N2 H P IH]; intros p E.
  - destruct p; discriminate E.
  - destruct p as [|x p]; injection E as -> E; [elim (M _ _ eq_refl)|]. destruct (IH _ E) as (m1 & w0 & m2 & dm & y & -> & Q & R).
    exists (DSys x :: m1), w0, m2, dm, y. split; [reflexivity|]. split; [eapply po_message; eassumption|exact R].
  - destruct p as [|x p]; cbn [app] in E.
    + injection E as -> -> ->. exists [], w, evs, d, y. split; [reflexivity|]. split; [constructor|]. split; [exact Nx|]. split; [exact Nz|]. eexists. eapply po_wake; eassumption.
    + injection E as <- E. destruct (IH _ E) as (m1 & w0 & m2 & dm & y' & -> & Q & R).
      exists (DRun w k :: m1), w0, m2, dm, y'. split; [reflexivity|]. split; [eapply po_wake; eassumption|exact R].
  - destruct (IH _ E) as (m1 & w0 & m2 & dm & y & -> & Q & R).
    exists (e :: m1), w0, m2, dm, y. split; [reflexivity|]. split; [eapply po_other; eassumption|exact R].
Qed.

Lemma zones_found (bus_ok : string -> bool) zp confs (zs rest : list (start_in * zone)) : built_from bus_ok zp confs (zs ++ rest) ->
  exists built, buildZones bus_ok zp confs = Ok built /\ NoDup (map (fun e => z_zoneId (snd e)) zs) /\
    forall st z, In (st, z) zs -> In (z_zoneId z, z) built.
Proof.
  intros (Nd & built & B & P). exists built. split; [exact B|]. destruct (C49_structure _ _ _ _ B) as (Mf & Zo).
  assert (Id : forall id z, In (id, z) built -> z_zoneId z = id).
  { intros id z I. assert (J : In id (map fst zp)) by (rewrite <- Mf; apply (in_map fst) in I; exact I).
    apply in_map_iff in J. destruct J as ((id' & pids) & <- & J). destruct (Zo Nd _ _ _ J I) as (c & _ & Z). exact (zo_id _ _ _ _ Z). }
  split.
  - assert (E : map z_zoneId (map snd built) = map fst zp).
    { rewrite <- Mf, map_map. apply map_ext_in. intros (id & z) I. exact (Id _ _ I). }
    assert (N : NoDup (map z_zoneId (map snd (zs ++ rest)))).
    { apply (Permutation_NoDup (l := map z_zoneId (map snd built))); [apply Permutation_map; symmetry; exact P|]. rewrite E. exact Nd. }
    rewrite map_map, map_app in N. apply nodup_left in N. exact N.
  - intros st z I. assert (J : In z (map snd built)).
    { apply (Permutation_in _ P). apply in_map_iff. exists (st, z). split; [reflexivity|]. apply in_or_app. left. exact I. }
    apply in_map_iff in J. destruct J as ((id & z') & X & J). cbn in X. subst z'. rewrite (Id _ _ J). exact J.
Qed.

Lemma C101_lemma first devices pre w k post mid w' k' da d1 d d2 d3 z i c pids zc name info fan finfo path e v r :
  Forall ordered (pre ++ DRun w k :: post ++ mid ++ [DRun w' k']) ->
  calm f sf pow10 re named (pre ++ DRun w k :: post ++ mid ++ [DRun w' k']) (daemon_init first devices) ->
  run pre (daemon_init first devices) = Ok da -> next_is (ORestart false) da -> step da (DRun w k) = Ok d1 -> loop_stops d1 <> loop_stops da ->
  read_configuration sf re named (su_disk w) (su_config w) = Ok (Loaded c) ->
  run post d1 = Ok d -> run mid d = Ok d2 -> next_is (OLoop z false) d2 -> step d2 (DRun w' k') = Ok d3 -> going d3 -> loop_stops d3 = loop_stops d1 ->
  nth_error (dm_ids d) i = Some z -> In (fst z, pids) (l_pids c) -> zget (fst z) (l_zones c) = Some zc ->
  is_manual i (messages post) = false -> ~ In (DSys (SManual i true)) mid ->
  (1 <= zc_cycleIntervalTimeMS zc <= zc_updateThermalsTimeMS zc)%Z ->
  (zc_updateThermalsTimeMS zc + zc_cycleIntervalTimeMS zc < uint64_mod)%Z ->
  (zc_updateThermalsTimeMS zc <= Z.of_nat (cycles_of z d2 - cycles_of z d) * zc_cycleIntervalTimeMS zc)%Z ->
  tuningEnabled f = false -> dle d0 (zc_failsafePercent zc) ->
  (forall x, In x pids -> dle d0 (ci_failSafePercent (snd x)) /\ dle (ci_failSafePercent (snd x)) (D 100)) ->
  In (name, info) (l_sensors c) -> known_type (sc_type info) ->
  listed_by is_fan_pid pids name \/ listed_by is_thermal_pid pids name -> ~ acceptable_in pids name ->
  (forall m1 wi ki m2 dm, mid ++ [DRun w' k'] = m1 ++ DRun wi ki :: m2 -> run m1 d = Ok dm -> next_is (OLoop z false) dm ->
     let bad := bad_since sf pow10 (seen (dm_exports da) (su_sensors w)) (known_failures w (dm_sys da)) first name info (messages pre) (messages (post ++ m1)) in
     bad (wk_fan_now ki) /\ bad (wk_therm_now ki)) ->
  In (fan, finfo) (l_sensors c) -> sc_type finfo = "fan"%string -> In e pids -> is_fan_pid e = true -> In fan (names_of e) ->
  drives (seen (dm_exports da) (su_sensors w)) finfo path -> own_device (seen (dm_exports da) (su_sensors w)) (l_sensors c) fan path ->
  (0 < sc_max finfo -> usable_range (sc_min finfo) (sc_max finfo))%Z ->
  Forall delivered (post ++ mid ++ [DRun w' k']) ->
  is_max_of v (percents_for pids name) ->
  raw_for finfo (ddiv (if deqb v d0 then zc_failsafePercent zc else v) (D 100)) = Some r -> (0 <= r)%Z ->
  exists x, mget path (sy_devices (dm_sys d3)) = Some x /\ (r <= x)%Z.
Proof.
  intros Or Ca Ha Nx H1 Ns Er H2 H3 Nl H4 G Q Ei Jp Zc Mi Mm Cy Up Wk Tu Pz Pp Inm Kn Li Ac Bad If Tf Ie Fe Fn Dr Ow Ur Dl Mx Rf R0.
  set (mid' := mid ++ [DRun w' k']) in *. set (evs := pre ++ DRun w k :: post ++ mid') in *.
  assert (Hm : run mid' d = Ok d3) by (apply (run_app _ _ _ _ _ _ _ _ _ _ H3); unfold daemon_run; cbn [foldM]; rewrite H4; reflexivity).
  assert (Hp : run (post ++ mid') d1 = Ok d3) by exact (run_app _ _ _ _ _ _ _ _ _ _ H2 Hm).
  assert (Hall : run evs (daemon_init first devices) = Ok d3).
  { apply (run_app _ _ _ _ _ _ _ _ _ _ Ha). unfold daemon_run. cbn [foldM]. rewrite H1. exact Hp. }
  assert (Sp3 : m_stopped (dm_main d3) = false).
  { apply going_iff; [|exact G]. eapply run_exits; [|exact Hall]. apply (step_exit main_init EPostRestart init_exit). }
  assert (Sp0 : m_stopped (dm_main da) = false).
  { destruct (m_stopped (dm_main da)) eqn:X; [|reflexivity]. exfalso. unfold daemon_step in H1. rewrite X in H1. congruence. }
  assert (Ga : going da).
  { apply going_iff; [|exact Sp0]. eapply run_exits; [|exact Ha]. apply (step_exit main_init EPostRestart init_exit). }
  assert (Len : forall a b : daemon, loop_stops a = loop_stops b -> nstops (m_log (dm_main a)) = nstops (m_log (dm_main b))) by (intros a b X; rewrite <- !stops_nstops, X; reflexivity).
  destruct (grows_le _ _ (grows_run f sf pow10 re named _ _ _ H2)) as (_ & L1 & _). destruct (grows_le _ _ (grows_run f sf pow10 re named _ _ _ H3)) as (_ & L2 & _).
  destruct (grows_le _ _ (grows_step f sf pow10 re named _ _ _ H4)) as (_ & L3 & _). apply Len in Q as Qn.
  assert (Back : forall a x, run a x = Ok d3 -> m_stopped (dm_main x) = false).
  { intros a x X. destruct (m_stopped (dm_main x)) eqn:Y; [|reflexivity]. pose proof (stopped_run f sf pow10 re named _ _ _ Y X). congruence. }
  assert (H4' : run [DRun w' k'] d2 = Ok d3) by (unfold daemon_run; cbn [foldM]; rewrite H4; reflexivity).
  assert (I3 : dm_ids d3 = dm_ids d) by (apply (run_ids _ _ _ Hm Sp3); lia).
  assert (I2 : dm_ids d2 = dm_ids d) by (apply (run_ids _ _ _ H3 (Back _ _ H4')); lia).
  destruct (C90_lemma f sf pow10 re named first devices evs d3 Or Ca Hall G) as (_ & [(X & _)|Rn]).
  { exfalso. rewrite I3 in X. rewrite X in Ei. destruct i; discriminate Ei. }
  destruct Rn as (pre2 & wb & kb & post2 & da2 & d12 & c2 & fl & first' & devs & zs & rest & sevs & E & A1 & A2 & A3 & A4 & A5 & A6 & A7 & A8 & A9 & A10 & A11 & A12 & A13).
  destruct (same_start (daemon_init first devices) pre w k (post ++ mid') da d1 pre2 wb kb post2 da2 d12 d3) as (<- & <- & <- & <-); try assumption.
  { exact (passed_run _ _ _ _ A7). }
  { rewrite A12. intros X. apply (f_equal (@List.length _)) in X. rewrite app_length in X. cbn in X. lia. }
  assert (da2 = da) by congruence. subst da2. assert (d12 = d1) by congruence. subst d12. assert (c2 = c) by congruence. subst c2. clear E A1 A2 A3 A4.
  apply passed_parts in A7. destruct A7 as (lp & lm' & dx & -> & Pp1 & Pm'). assert (dx = d) by (apply passed_run in Pp1; congruence). subst dx.
  apply passed_parts in Pm'. destruct Pm' as (lm & ll & dx & -> & Pm & Pl). assert (dx = d2) by (apply passed_run in Pm; congruence). subst dx.
  assert (Fl : fl = known_failures w (dm_sys da)) by (unfold known_failures; destruct A10 as [->|(-> & ->)]; reflexivity). subst fl.
  destruct (zones_found _ _ _ _ _ (proj1 A5)) as (built & Eb & Nd & Iz).
  assert (Nz : NoDup (dm_ids d)).
  { rewrite <- I3. apply (NoDup_map_inv fst). rewrite <- A6. exact Nd. }
  assert (Ez : exists st z0, nth_error zs i = Some (st, z0) /\ z_zoneId z0 = fst z).
  { assert (X : nth_error (map (fun e => z_zoneId (snd e)) zs) i = Some (fst z)) by (rewrite A6, I3; apply map_nth_error, Ei).
    rewrite nth_error_map in X. destruct (nth_error zs i) as [(st & z0)|]; [|discriminate X]. injection X as X. exists st, z0. split; [reflexivity|exact X]. }
  destruct Ez as (st & z0 & Ez & Ezi).
  assert (Hll : ll = [STick i k']).
  { inversion Pl as [|? x dd ? l0 ? M H Q0|? w0 k0 n z1 dd ? l0 ? Nx0 Nz0 H Q0|? ? dd ? l0 ? N1 N2 H Q0]; subst.
    - inversion Q0; subst. f_equal. destruct Nl as (r1 & Nl), Nx0 as (r2 & Nx0). rewrite Nl in Nx0. injection Nx0 as <- _.
      rewrite I2 in Nz0. rewrite NoDup_nth_error in Nz. f_equal. symmetry. apply Nz; [apply nth_error_Some; congruence|congruence].
    - elim (N2 _ _ z eq_refl Nl). }
  subst ll.
  destruct (passed_ran _ _ _ _ i z Pm (Back _ _ H4')) as (_ & Rc); [lia|exact Nz|exact Ei|].
  destruct A8 as [Nk Fr (m0 & s0 & B0 & St0 & R0')].
  unfold sys_run in R0'. rewrite foldM_app in R0'. apply bind_ok in R0'. destruct R0' as (sd & Rd & R0'). rewrite foldM_app in R0'. apply bind_ok in R0'.
  destruct R0' as (sd2 & Rd2 & Rd3). cbn [foldM] in Rd3. apply bind_ok in Rd3. destruct Rd3 as (sd3 & Rd3 & X). injection X as ->.
  assert (Hst : host_initial first' = true <-> host_on first (host_changes (messages pre))).
  { rewrite A9. exact (C90_host_lemma f sf pow10 re named first devices pre da Ha Ga). }
  refine (C62_configured_lemma f sf pow10 (seen (dm_exports da) (su_sensors w)) (l_sensors c) (known_failures w (dm_sys da)) first' devs zs lp sd lm sd2 i k' (dm_sys d3)
    (su_bus_ok w) (l_pids c) (l_zones c) built (fst z) pids zc st z0 name info fan finfo path e v r _ Rd2 Rd3 (proj1 (proj1 A5)) Eb Ez _ Jp Zc _ _ Cy Up _ Tu Pz Pp Inm Kn Li Ac _ If Tf Ie Fe Fn Dr Ow Ur _ Mx Rf R0).
  - constructor; [exact Nk|exact Fr|]. exists m0, s0. split; [exact B0|]. split; [exact St0|exact Rd].
  - rewrite <- Ezi. apply (Iz st). exact (nth_error_In _ _ Ez).
  - rewrite (passed_mode f sf pow10 re named i _ _ _ _ Pp1). exact Mi.
  - intros I. apply Mm. apply (passed_in _ _ _ _ _ Pm I). intros ? ? X. discriminate X.
  - rewrite !cycles_nran, Rc in Wk. replace (nran z (m_log (dm_main d)) + wakes i lm - nran z (m_log (dm_main d))) with (wakes i lm) in Wk by lia. exact Wk.
  - intros p wq q Eq. assert (Pml : passes_on d mid' (lm ++ [STick i k']) d3).
    { exact (po_app f sf pow10 re named _ _ _ _ _ _ _ Pm Pl). }
    destruct (passed_tick _ _ _ _ i wq q Pml p Eq) as (m1 & w0 & m2 & dm & y & Em & Q1 & Ny & Ey & q' & Q2).
    apply passed_run in Q1 as Q1r. apply passed_run in Q2.
    assert (y = z).
    { assert (dm_ids dm = dm_ids d).
      { destruct (grows_le _ _ (grows_run f sf pow10 re named _ _ _ Q1r)) as (_ & L4 & _). destruct (grows_le _ _ (grows_run f sf pow10 re named _ _ _ Q2)) as (_ & L5 & _).
        apply (run_ids _ _ _ Q1r (Back _ _ Q2)). lia. }
      congruence. }
    subst y. destruct (Bad m1 w0 wq m2 dm Em Q1r Ny) as (B1 & B2).
    assert (Eo : only_messages (lp ++ p) = only_messages (messages (post ++ m1))).
    { rewrite messages_app, !only_app, (passed_messages _ _ _ _ Pp1), (passed_messages _ _ _ _ Q1). reflexivity. }
    split; [exact (bad_from_start _ _ _ _ _ _ _ _ _ _ _ Eo eq_refl Hst B1)|exact (bad_from_start _ _ _ _ _ _ _ _ _ _ _ Eo eq_refl Hst B2)].
  - apply (passed_delivered f sf pow10 re named d1 (post ++ mid ++ [DRun w' k']) _ d3); [|exact Dl].
    exact (po_app f sf pow10 re named _ _ _ _ _ _ _ Pp1 (po_app f sf pow10 re named _ _ _ _ _ _ _ Pm Pl)).
Qed.
End Life2.
