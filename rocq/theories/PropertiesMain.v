(** * Property C45: starting, stopping and restarting the control loops.

    Vocabulary: SpecMain.v.  Proofs: MainProofs.v, MainProofs2.v.

    The theorems hold for every schedule in which attempts to stop do not
    overlap, and for every schedule at all if there is one zone.  The [_refuted]
    theorems at the end show what overlapping attempts can do. *)
From Coq Require Import ZArith Bool List Lia.
From Verif Require Import MainModel SpecMain MainProofs MainProofs2.
Import ListNotations.
Local Open Scope Z_scope.

Theorem C45_no_cycle_after_stop : forall evs pre post i,
  no_overlap evs main_init \/ single_zone evs ->
  history (main_run evs main_init) = pre ++ MStopped :: post ->
  In (MRan i) post -> In (MStarted i) post /\ ~ In (MStarted i) pre.
Proof. exact C45_no_cycle_lemma. Qed.
Print Assumptions C45_no_cycle_after_stop.

Theorem C45_one_loop_per_zone : forall evs s,
  no_overlap evs main_init \/ single_zone evs -> s = main_run evs main_init ->
  NoDup (map fst (live s)) /\
  (~ In MExit (history s) -> ~ In MStopFailed (after_last_stop (history s)) ->
   forall i, In i (live s) <-> In (MStarted i) (after_last_stop (history s))).
Proof. exact C45_one_loop_lemma. Qed.
Print Assumptions C45_one_loop_per_zone.

Theorem C45_restart_starts_each_zone_once : forall evs s r ok ids good s' h,
  no_overlap evs main_init \/ single_zone evs -> s = main_run evs main_init ->
  (single_zone evs -> (List.length ids <= 1)%nat) ->
  m_ready s = ORestart false :: r -> s' = main_step s (ERun ok (BZones ids good)) ->
  history s' = history s ++ MStopped :: h -> ids <> [] -> (List.length ids <= good)%nat ->
  map fst (live s') = nodup Z.eq_dec ids /\ forall i, In i (live s') -> ~ In i (live s).
Proof. exact C45_restart_lemma. Qed.
Print Assumptions C45_restart_starts_each_zone_once.

(** While stopping is retried every loop runs at most once more. *)
Theorem C45_at_most_one_cycle_while_stopping : forall evs pre post,
  no_overlap evs main_init \/ single_zone evs ->
  history (main_run evs main_init) = pre ++ MStopFailed :: post -> ~ In MStopped post ->
  forall i p q, post = p ++ MRan i :: q -> ~ In (MRan i) p /\ ~ In (MRan i) q.
Proof. exact C45_failed_lemma. Qed.
Print Assumptions C45_at_most_one_cycle_while_stopping.

Theorem C45_stopping_is_retried_until_done : forall evs s,
  no_overlap evs main_init \/ single_zone evs -> s = main_run evs main_init ->
  In MStopFailed (after_last_stop (history s)) -> ~ In MExit (history s) ->
  (m_rtimer s = true \/ m_ttimer s = true \/ exists o, In o (m_ready s) /\ is_attempt o = true) /\
  m_armed s = [] /\
  (forall o r ok b, m_ready s = o :: r -> is_attempt o = true ->
     (forall i a, ~ In (OLoop i a) r) ->
     exists h, history (main_step s (ERun ok b)) = history s ++ MStopped :: h).
Proof. exact C45_retry_lemma. Qed.
Print Assumptions C45_stopping_is_retried_until_done.

Theorem C45_nothing_after_exit : forall evs pre post,
  history (main_run evs main_init) = pre ++ MExit :: post -> post = [].
Proof. exact C45_exit_lemma. Qed.
Print Assumptions C45_nothing_after_exit.

(** A restart request that finds loops running never succeeds at once: it stops
    the loops and waits for the 10 s timer (50 ms when ending). *)
Theorem C45_running_loops_make_the_first_attempt_fail : forall evs s r o ok b,
  no_overlap evs main_init \/ single_zone evs -> s = main_run evs main_init ->
  ~ In MExit (history s) -> ~ In MStopFailed (after_last_stop (history s)) ->
  live s <> [] -> m_ready s = o :: r -> is_attempt o = true ->
  history (main_step s (ERun ok b)) = history s ++ [MStopFailed] /\
  (o = ORestart false -> m_rtimer (main_step s (ERun ok b)) = true) /\
  (o = OTerminate false -> m_ttimer (main_step s (ERun ok b)) = true).
Proof. exact C45_waits_lemma. Qed.
Print Assumptions C45_running_loops_make_the_first_attempt_fail.

(** Two zones; a reload while zone 2 is about to run. *)
Definition ex_main : list main_ev :=
  [EPostRestart; ERun true (BZones [1; 2] 2); EExpire (1, 1%nat); ERun true BNotReady;
   EPostRestart; EExpire (2, 1%nat); ERun true BNotReady; ERun true BNotReady; ERun true BNotReady;
   ERetry; ERun true (BZones [2; 3] 2); EExpire (3, 2%nat); ERun true BNotReady;
   EPostTerminate; ERun true BNotReady; ERun true BNotReady; ERun true BNotReady; ETermRetry; ERun true BNotReady].
Example C45_example_hypothesis : no_overlap ex_main main_init.
Proof. vm_compute. intuition congruence. Qed.
Example C45_example :
  history (main_run ex_main main_init) =
    [MStopped; MStarted (1, 1%nat); MStarted (2, 1%nat); MRan (1, 1%nat);
     MStopFailed; MRan (2, 1%nat);
     MStopped; MStarted (2, 2%nat); MStarted (3, 2%nat); MRan (3, 2%nat);
     MStopFailed; MStopped; MExit].
Proof. vm_compute. reflexivity. Qed.
Example C45_example_live : live (main_run (firstn 13 ex_main) main_init) = [(2, 2%nat); (3, 2%nat)].
Proof. vm_compute. reflexivity. Qed.

(** Overlapping attempts, two zones.  A restart fails and leaves its 10 s timer
    waiting; a second restart succeeds meanwhile; when that timer fires it meets
    a third request.  The stop then looks at zone 1 only, while zone 2 is queued
    to run: its loop outlives the stop and goes on for ever, unknown to the
    daemon. *)
Definition ex_zombie : list main_ev :=
  [EPostRestart; ERun true (BZones [1; 2] 2);
   EPostRestart; ERun true BNotReady; ERun true BNotReady; ERun true BNotReady;
   EPostRestart; ERun true (BZones [1; 2] 2);
   EPostRestart; EExpire (1, 2%nat); ERetry; EExpire (2, 2%nat);
   ERun true BNotReady; ERun true BNotReady; ERun true BThrow; ERun true BNotReady].
Theorem C45_overlapping_attempts_refuted : exists evs pre post i,
  history (main_run evs main_init) = pre ++ MStopped :: post /\
  In (MRan i) post /\ In (MStarted i) pre /\
  live (main_run evs main_init) = [i] /\ m_zones (main_run evs main_init) = [].
Proof.
  exists ex_zombie,
    [MStopped; MStarted (1, 1%nat); MStarted (2, 1%nat); MStopFailed; MStopped;
     MStarted (1, 2%nat); MStarted (2, 2%nat); MStopFailed; MRan (1, 2%nat)],
    [MRan (2, 2%nat)], (2, 2%nat).
  vm_compute. repeat split; auto 12.
Qed.
Print Assumptions C45_overlapping_attempts_refuted.
