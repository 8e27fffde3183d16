(** * Attempts are asked for or are retries (C45). *)
From Coq Require Import ZArith Bool List Lia.
From Verif Require Import MainModel SpecMain SpecRetry.
Import ListNotations.

Definition one (b : bool) : nat := if b then 1 else 0.
Lemma count_cons {A : Type} (p : A -> bool) x l : count_of p (x :: l) = one (p x) + count_of p l.
Proof. unfold count_of. cbn. destruct (p x); reflexivity. Qed.
Lemma count_app {A : Type} (p : A -> bool) a b : count_of p (a ++ b) = count_of p a + count_of p b.
Proof. unfold count_of. rewrite filter_app, app_length. reflexivity. Qed.
Lemma count_nil {A : Type} (p : A -> bool) : count_of p [] = 0.
Proof. reflexivity. Qed.
Lemma count_rev {A : Type} (p : A -> bool) l : count_of p (rev l) = count_of p l.
Proof. induction l as [|x r IH]; [reflexivity|]. cbn [rev]. rewrite count_app, !count_cons, count_nil, IH. lia. Qed.

Ltac simp :=
  cbn [say quit set_ready set_armed set_retry enqueue m_log m_ready m_rtimer m_ttimer];
  rewrite ?count_app, ?count_cons, ?count_nil;
  cbn [one is_attempt an_attempt a_failed_stop a_request a_failed_build].

(** Attempts made, queued or waiting for a timer; stops that failed. *)
Definition owed (s : main_st) : nat :=
  count_of an_attempt (m_log s) + count_of is_attempt (m_ready s) + one (m_rtimer s) + one (m_ttimer s).
Definition fails (s : main_st) : nat := count_of a_failed_stop (m_log s).

Lemma aborted_none l : count_of is_attempt (map (fun i => OLoop i true) l) = 0.
Proof. induction l as [|x r IH]; [reflexivity|]. cbn [map]. rewrite count_cons, IH. reflexivity. Qed.

Lemma stop_owed s : let (ok, s1) := stopControlLoops s in
  owed s1 = S (owed s) /\ fails s1 = fails s + one (negb ok).
Proof.
  unfold stopControlLoops, owed, fails. cbv zeta. cbn [m_zones].
  assert (L : forall hit, count_of is_attempt (m_ready s ++ map (fun i => OLoop i true) hit) = count_of is_attempt (m_ready s)).
  { intros hit. rewrite count_app, aborted_none. lia. }
  destruct (m_zones s) as [|z r]; [|match goal with |- context [if ?b then _ else _] => destruct b end];
    cbn [say m_log m_ready m_rtimer m_ttimer]; rewrite L, !count_cons; cbn; lia.
Qed.

Lemma start_owed zs : forall good s, let (ok, s1) := start_loops zs good s in
  owed s1 = owed s /\ fails s1 = fails s /\ (ok = false -> (good < List.length zs)%nat).
Proof.
  induction zs as [|z r IH]; intros good s; cbn [start_loops]; [split; [|split]; [reflexivity|reflexivity|discriminate]|].
  cbv zeta. destruct good as [|g]; [cbn; repeat split; lia|].
  match goal with |- let (_, _) := start_loops r g ?t in _ => specialize (IH g t); destruct (start_loops r g t) as [ok s1] end.
  destruct IH as (A & B & C). cbn [List.length]. split; [rewrite A|split; [rewrite B|]].
  - unfold owed. cbn. reflexivity.
  - reflexivity.
  - intros X. specialize (C X). lia.
Qed.

Lemma nodup_le l : (List.length (nodup Z.eq_dec l) <= List.length l)%nat.
Proof. induction l as [|x r IH]; [cbn; lia|]. cbn. destruct (in_dec _ _ _); cbn; lia. Qed.

Lemma quit_owed s : owed (quit s) = owed s /\ fails (quit s) = fails s.
Proof. split; reflexivity. Qed.

Lemma restart_owed ok0 b s : let (ok, s1) := restartControlLoops b s in
  owed s1 = S (owed s) /\ one (negb ok) + fails s <= fails s1 + one (a_failed_build (ERun ok0 b)) /\ fails s <= fails s1.
Proof.
  unfold restartControlLoops. assert (H := stop_owed s). destruct (stopControlLoops s) as [[|] s1]; destruct H as (A & B);
    cbn [negb one] in B; [|cbn [negb one]; lia].
  destruct b as [| | |ids good]; cbn [a_failed_build negb one]; [lia|destruct (quit_owed s1) as (Q1 & Q2); rewrite Q1, Q2; lia|lia|].
  destruct (nodup Z.eq_dec ids) as [|i ids'] eqn:E.
  { cbn [negb one]. destruct (quit_owed s1) as (Q1 & Q2). rewrite Q1, Q2. lia. }
  assert (Le := nodup_le ids). rewrite E in Le. cbv zeta.
  match goal with |- let (_, _) := start_loops ?zs good ?t in _ => assert (H := start_owed zs good t); destruct (start_loops zs good t) as [ok s2] end.
  destruct H as (C & D & F). rewrite map_length in F.
  assert (X : owed s2 = owed s1) by (rewrite C; reflexivity). assert (Y : fails s2 = fails s1) by (rewrite D; reflexivity).
  rewrite X, Y. split; [exact A|]. split; [|lia]. destruct ok; cbn [negb one]; [lia|]. specialize (F eq_refl).
  destruct (Nat.ltb_spec good (List.length ids)); cbn [one]; lia.
Qed.

Lemma run_op_owed o ok b s r : m_ready s = o :: r ->
  owed (run_op o ok b (set_ready r s)) + fails s <= owed s + fails (run_op o ok b (set_ready r s)) + one (a_failed_build (ERun ok b)) /\
  fails s <= fails (run_op o ok b (set_ready r s)).
Proof.
  intros R. set (s0 := set_ready r s).
  assert (O0 : owed s = one (is_attempt o) + owed s0) by (unfold owed, s0; rewrite R, count_cons; cbn [set_ready m_log m_ready m_rtimer m_ttimer]; lia).
  assert (F0 : fails s = fails s0) by reflexivity. rewrite O0, F0. clearbody s0. clear O0 F0 R s r.
  destruct o as [i [|]|[|]|[|]]; cbn [run_op is_attempt one]; try lia.
  - cbv zeta. destruct ok; [destruct (m_canceling _)|]; unfold owed, fails; simp; lia.
  - assert (H := restart_owed ok b s0). destruct (restartControlLoops b s0) as [[|] s1]; destruct H as (A & B & C); cbn [negb one] in B.
    + lia.
    + assert (Ar : owed (arm_retry s1) <= S (owed s1) /\ fails (arm_retry s1) = fails s1).
      { unfold arm_retry, owed, fails. destruct (m_rtimer s1); simp; lia. }
      lia.
  - assert (H := stop_owed s0). destruct (stopControlLoops s0) as [[|] s1]; destruct H as (A & B); cbn [negb one] in B.
    + destruct (quit_owed s1) as (Q1 & Q2). rewrite Q1, Q2. lia.
    + assert (Ar : owed (arm_term s1) <= S (owed s1) /\ fails (arm_term s1) = fails s1).
      { unfold arm_term, owed, fails. destruct (m_ttimer s1); simp; lia. }
      lia.
Qed.

Lemma step_owed s e :
  owed (main_step s e) + fails s <= owed s + fails (main_step s e) + one (a_request e) + one (a_failed_build e) /\
  fails s <= fails (main_step s e).
Proof.
  unfold main_step. destruct (m_stopped s); [lia|].
  destruct e as [i| | | | |ok b].
  - destruct (imem i (m_armed s)); [|lia]. unfold owed, fails. simp. lia.
  - destruct (m_rtimer s) eqn:E; [|lia]. unfold owed, fails. simp. rewrite E. cbn [one]. lia.
  - destruct (m_ttimer s) eqn:E; [|lia]. unfold owed, fails. simp. rewrite E. cbn [one]. lia.
  - unfold owed, fails. simp. lia.
  - unfold owed, fails. simp. lia.
  - destruct (m_ready s) as [|o r] eqn:E; [lia|]. assert (H := run_op_owed o ok b s r E). cbn [a_request one]. lia.
Qed.

Lemma C45_attempts_lemma evs :
  count_of an_attempt (history (main_run evs main_init)) <=
  count_of a_request evs + count_of a_failed_stop (history (main_run evs main_init)) + count_of a_failed_build evs.
Proof.
  unfold history. rewrite !count_rev.
  assert (G : forall l s, owed (main_run l s) + fails s <=
    owed s + fails (main_run l s) + count_of a_request l + count_of a_failed_build l).
  { unfold main_run. induction l as [|e r IH]; intros s; cbn [fold_left]; [rewrite !count_nil; lia|].
    specialize (IH (main_step s e)). assert (H := step_owed s e). rewrite !count_cons. lia. }
  specialize (G evs main_init). unfold owed at 1, fails in G. cbn [owed main_init] in G. unfold owed in G. cbn in G. lia.
Qed.
