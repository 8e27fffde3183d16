(** * Start/stop properties derived from the invariant (C45). *)
From Coq Require Import ZArith Bool List Arith Lia Permutation.
From Verif Require Import MainModel SpecMain MainProofs.
Import ListNotations.

(** ** The end of the daemon is final. *)
Definition exit_inv (s : main_st) : Prop :=
  if m_stopped s then exists l, m_log s = MExit :: l /\ ~ In MExit l else ~ In MExit (m_log s).

Lemma start_exit zs : forall good s, m_stopped s = false -> exit_inv s -> exit_inv (snd (start_loops zs good s)).
Proof.
  induction zs as [|z zs IH]; intros [|g] s St E; cbn; auto. apply IH; [exact St|].
  unfold exit_inv in *. cbn in *. rewrite St in *. intros [X|X]; [discriminate|contradiction].
Qed.
Lemma quit_exit s : m_stopped s = false -> exit_inv s -> exit_inv (quit s).
Proof. unfold exit_inv. intros St. rewrite St. cbn. intro H. eexists. split; [reflexivity|exact H]. Qed.
Lemma stop_exit s : m_stopped s = false -> exit_inv s ->
  exit_inv (snd (stopControlLoops s)) /\ m_stopped (snd (stopControlLoops s)) = false.
Proof.
  unfold exit_inv. intros St. rewrite St. intro H. unfold stopControlLoops. cbn [m_zones].
  destruct (m_zones s); [|match goal with |- context [Nat.ltb ?a ?b] => destruct (Nat.ltb a b) end]; cbn; rewrite St; (split; [|reflexivity]);
    intros [X|X]; try discriminate; contradiction.
Qed.
Lemma arm_retry_exit s : exit_inv s -> exit_inv (arm_retry s).
Proof. unfold exit_inv, arm_retry. destruct (m_rtimer s); exact (fun x => x). Qed.
Lemma arm_term_exit s : exit_inv s -> exit_inv (arm_term s).
Proof. unfold exit_inv, arm_term. destruct (m_ttimer s); exact (fun x => x). Qed.

Lemma step_exit s e : exit_inv s -> exit_inv (main_step s e).
Proof.
  intro H. unfold main_step. destruct (m_stopped s) eqn:St; [exact H|].
  destruct e as [i| | | | |ok b]; try exact H.
  - destruct (imem _ _); exact H.
  - destruct (m_rtimer s); exact H.
  - destruct (m_ttimer s); exact H.
  - destruct (m_ready s) as [|o r]; [exact H|].
    assert (H1 : exit_inv (set_ready r s)) by exact H.
    destruct o as [i []|[]|[]]; try exact H.
    + assert (H2 : exit_inv (say (MRan i) (set_ready r s))).
      { unfold exit_inv in *. cbn in *. rewrite St in *. intros [X|X]; [discriminate|contradiction]. }
      unfold run_op. destruct ok; [destruct (m_canceling _)|]; try exact H2. apply quit_exit; [exact St|exact H2].
    + unfold run_op, restartControlLoops. destruct (stop_exit (set_ready r s) St H1) as [E1 E2].
      destruct (stopControlLoops (set_ready r s)) as [[] s1]; cbn in E1, E2; [|apply arm_retry_exit; exact E1].
      destruct b as [| | |ids good]; [exact E1|apply quit_exit; assumption|apply arm_retry_exit; exact E1|].
      destruct (nodup Z.eq_dec ids) as [|z l]; [apply quit_exit; assumption|].
      match goal with |- context [start_loops ?zs ?g ?t] =>
        pose proof (start_exit zs g t E2 E1) as F; destruct (start_loops zs g t) as [[] s2] end; cbn in F;
        [exact F|apply arm_retry_exit; exact F].
    + unfold run_op. destruct (stop_exit (set_ready r s) St H1) as [E1 E2].
      destruct (stopControlLoops (set_ready r s)) as [[] s1]; cbn in E1, E2; [apply quit_exit; assumption|apply arm_term_exit; exact E1].
Qed.

Lemma run_exit evs : forall s, exit_inv s -> exit_inv (main_run evs s).
Proof. induction evs as [|e evs IH]; intros s H; [exact H|]. cbn. apply IH, step_exit, H. Qed.

Lemma init_exit : exit_inv main_init.
Proof. cbn. tauto. Qed.

Lemma C45_exit_lemma evs pre post :
  history (main_run evs main_init) = pre ++ MExit :: post -> post = [].
Proof.
  pose proof (run_exit evs _ init_exit) as H. unfold history. generalize (main_run evs main_init) H. clear H evs.
  intros s H E. unfold exit_inv in H. apply (f_equal (@rev _)) in E. rewrite rev_involutive, rev_app_distr in E. cbn in E.
  destruct (m_stopped s).
  - destruct H as (l & L & N). rewrite L in E. destruct (rev post) as [|x t] eqn:R.
    + apply (f_equal (@rev _)) in R. rewrite rev_involutive in R. exact R.
    + exfalso. cbn in E. injection E as _ E. apply N. rewrite E. apply in_or_app. left. apply in_or_app. right. left. reflexivity.
  - exfalso. apply H. rewrite E. apply in_or_app. left. apply in_or_app. right. left. reflexivity.
Qed.

(** ** The log, cut at the last stop. *)
Fixpoint until_stop (l : list main_event) : list main_event :=
  match l with
  | [] => []
  | MStopped :: _ => []
  | e :: r => e :: until_stop r
  end.
Lemma after_last_stop_until l : after_last_stop (rev l) = rev (until_stop l).
Proof.
  unfold after_last_stop. induction l as [|e l IH]; [reflexivity|]. cbn. rewrite fold_left_app, IH. destruct e; reflexivity.
Qed.
Lemma starts_until i l : In i (starts l) <-> In (MStarted i) (until_stop l).
Proof.
  induction l as [|e l IH]; cbn; [tauto|]. destruct e; cbn; rewrite ?IH; split; intuition (try discriminate); try congruence.
Qed.
Lemma frans_until l : ~ In MStopFailed (until_stop l) -> frans l = None.
Proof.
  induction l as [|e l IH]; cbn; [reflexivity|]. destruct e; cbn; intro H; try reflexivity; try (exfalso; tauto);
    rewrite IH; try reflexivity; tauto.
Qed.
Lemma until_in e l : In e (until_stop l) -> In e l.
Proof. induction l as [|x l IH]; cbn; [tauto|]. destruct x; cbn; tauto. Qed.

Lemma until_app a b : until_stop (a ++ MStopped :: b) = until_stop a.
Proof. induction a as [|e a IH]; cbn; [reflexivity|]. destruct e; rewrite ?IH; reflexivity. Qed.

Lemma ran_ok_split a i b : ran_ok (a ++ MRan i :: b) -> In i (starts b).
Proof. induction a as [|e a IH]; cbn; [tauto|]. destruct e; cbn; tauto. Qed.

Lemma all_starts_app a b : all_starts (a ++ b) = all_starts a ++ all_starts b.
Proof. induction a as [|e a IH]; cbn; [reflexivity|]. destruct e; cbn; rewrite IH; reflexivity. Qed.

Lemma NoDup_app_disj {A} (a b : list A) x : NoDup (a ++ b) -> In x a -> In x b -> False.
Proof.
  induction a as [|y a IH]; cbn; [tauto|]. intros N [->|X] Y; inversion N; subst; [apply H1, in_or_app; auto|auto].
Qed.

Lemma C45_no_cycle_lemma evs pre post i :
  no_overlap evs main_init \/ single_zone evs ->
  history (main_run evs main_init) = pre ++ MStopped :: post ->
  In (MRan i) post -> In (MStarted i) post /\ ~ In (MStarted i) pre.
Proof.
  intros S H R. pose proof (run_inv1 evs S) as I. revert H I. generalize (main_run evs main_init). intros s H I.
  unfold history in H. apply (f_equal (@rev _)) in H. rewrite rev_involutive, rev_app_distr in H. cbn in H.
  rewrite <- app_assoc in H. cbn in H.
  apply in_rev in R. apply in_split in R. destruct R as (a & b & R).
  pose proof (i_ran s I) as RO. rewrite H, R, <- app_assoc in RO. cbn in RO. apply ran_ok_split in RO.
  apply starts_until in RO. rewrite until_app in RO. apply until_in in RO.
  assert (P : In (MStarted i) (rev post)) by (rewrite R; apply in_or_app; right; right; exact RO).
  split; [apply in_rev; exact P|]. intro Q.
  pose proof (i_allnodup s I) as N. rewrite H, all_starts_app in N.
  apply (NoDup_app_disj _ _ i N); [apply all_starts_In; exact P|apply all_starts_In; right; apply in_rev in Q; exact Q].
Qed.

Lemma C45_one_loop_lemma evs s :
  no_overlap evs main_init \/ single_zone evs -> s = main_run evs main_init ->
  NoDup (map fst (live s)) /\
  (~ In MExit (history s) -> ~ In MStopFailed (after_last_stop (history s)) ->
   forall i, In i (live s) <-> In (MStarted i) (after_last_stop (history s))).
Proof.
  intros S ->. pose proof (run_inv1 evs S) as I. pose proof (run_exit evs _ init_exit) as X.
  revert I X. generalize (main_run evs main_init). intros s I X. split.
  - pose proof (i_nodup s I) as N.
    assert (G : forall i, In i (live s) -> snd i = m_gen s).
    { intros i L. apply (i_zgen s I). apply (i_sub s I) in L. destruct (i_pref s I) as [rest ->]. apply in_or_app. left. apply in_rev. rewrite rev_involutive. exact L. }
    revert N G. generalize (live s). induction l as [|x l IH]; cbn; [constructor|]. intros N G. inversion N as [|? ? N1 N2]; subst.
    constructor; [|apply IH; auto]. intro Y. apply in_map_iff in Y. destruct Y as (y & E & Y). apply N1.
    assert (y = x) as <-; [|exact Y]. destruct x as [x1 x2], y as [y1 y2]. cbn in E. subst.
    pose proof (G _ (or_introl eq_refl)) as G1. pose proof (G _ (or_intror Y)) as G2. cbn in *. congruence.
  - intros NX NF i. unfold history in *. rewrite after_last_stop_until in *.
    assert (F : frans (m_log s) = None) by (apply frans_until; intro Q; apply NF; apply in_rev in Q; exact Q).
    pose proof (i_fail s I) as C. rewrite F in C.
    assert (St : m_stopped s = false).
    { unfold exit_inv in X. destruct (m_stopped s); [|reflexivity]. destruct X as (l & L & _). exfalso. apply NX.
      rewrite L. apply in_rev. rewrite rev_involutive. left. reflexivity. }
    split.
    + intro L. apply (i_sub s I) in L. apply in_rev. rewrite rev_involutive. apply starts_until. exact L.
    + intro L. apply in_rev in L. apply starts_until in L. apply (i_live s I); assumption.
Qed.

Lemma frans_split a b : ~ In MStopped a ->
  exists l l', frans (a ++ MStopFailed :: b) = Some (l ++ l') /\ forall i, In (MRan i) a <-> In i l.
Proof.
  induction a as [|e a IH]; cbn; intro N.
  - destruct (frans b) as [l|]; [exists [], l|exists [], []]; (split; [reflexivity|]); cbn; intuition.
  - destruct IH as (l & l' & E & Q); [tauto|]. destruct e; cbn.
    + exfalso. tauto.
    + exists l, l'. rewrite E. split; [reflexivity|]. intro i. rewrite <- Q. intuition discriminate.
    + exists l, l'. rewrite E. split; [reflexivity|]. intro j. rewrite <- Q. intuition discriminate.
    + exists (i :: l), l'. rewrite E. split; [reflexivity|]. intro j. cbn. rewrite <- Q. intuition congruence.
    + exists l, l'. rewrite E. split; [reflexivity|]. intro i. rewrite <- Q. intuition discriminate.
Qed.

(** While stopping is being retried: at most one more cycle per loop, and no
    loop starts. *)
Fixpoint cycles (l : list main_event) : list inst :=
  match l with
  | [] => []
  | MRan i :: r => i :: cycles r
  | _ :: r => cycles r
  end.
Lemma frans_cycles a b : ~ In MStopped a ->
  exists l', frans (a ++ MStopFailed :: b) = Some (cycles a ++ l').
Proof.
  induction a as [|e a IH]; cbn; intro N.
  - destruct (frans b) as [l|]; [exists l|exists []]; reflexivity.
  - destruct IH as (l' & E); [tauto|]. exists l'. destruct e; cbn; rewrite ?E; try reflexivity. exfalso. tauto.
Qed.
Lemma cycles_app a b : cycles (a ++ b) = cycles a ++ cycles b.
Proof. induction a as [|e a IH]; cbn; [reflexivity|]. destruct e; cbn; rewrite IH; reflexivity. Qed.
Lemma cycles_rev a : cycles (rev a) = rev (cycles a).
Proof. induction a as [|e a IH]; cbn; [reflexivity|]. rewrite cycles_app, IH. destruct e; cbn; rewrite ?app_nil_r; reflexivity. Qed.
Lemma cycles_count a i : NoDup (cycles a) -> forall p q, a = p ++ MRan i :: q -> ~ In (MRan i) p /\ ~ In (MRan i) q.
Proof.
  assert (CI : forall l, In (MRan i) l <-> In i (cycles l)).
  { induction l as [|e l IH]; cbn; [tauto|]. destruct e; cbn; rewrite ?IH; intuition (try discriminate); try congruence. }
  intros N p q ->. rewrite cycles_app in N. cbn in N. rewrite !CI. apply NoDup_remove_2 in N. split; intro X; apply N, in_or_app; auto.
Qed.

Lemma C45_failed_lemma evs pre post :
  no_overlap evs main_init \/ single_zone evs ->
  history (main_run evs main_init) = pre ++ MStopFailed :: post -> ~ In MStopped post ->
  forall i p q, post = p ++ MRan i :: q -> ~ In (MRan i) p /\ ~ In (MRan i) q.
Proof.
  intros S H NS i p q E. pose proof (run_inv1 evs S) as I. revert H I. generalize (main_run evs main_init). intros s H I.
  unfold history in H. apply (f_equal (@rev _)) in H. rewrite rev_involutive, rev_app_distr in H. cbn in H.
  rewrite <- app_assoc in H. cbn in H.
  destruct (frans_cycles (rev post) (rev pre)) as (l' & F); [intro X; apply NS, in_rev; exact X|].
  pose proof (i_fail s I) as G. rewrite H, F in G. destruct G as [_ G].
  apply NoDup_app_l in G. apply NoDup_app_l in G.
  apply (cycles_count post i); [|exact E].
  rewrite cycles_rev in G. apply NoDup_rev in G. rewrite rev_involutive in G. exact G.
Qed.

(** Running loops are never stopped by the first attempt. *)
Lemma C45_waits_lemma evs s r o ok b :
  no_overlap evs main_init \/ single_zone evs -> s = main_run evs main_init ->
  ~ In MExit (history s) -> ~ In MStopFailed (after_last_stop (history s)) ->
  live s <> [] -> m_ready s = o :: r -> is_attempt o = true ->
  history (main_step s (ERun ok b)) = history s ++ [MStopFailed] /\
  (o = ORestart false -> m_rtimer (main_step s (ERun ok b)) = true) /\
  (o = OTerminate false -> m_ttimer (main_step s (ERun ok b)) = true).
Proof.
  intros S -> NX NF L R A. pose proof (run_inv1 evs S) as I. pose proof (run_exit evs _ init_exit) as X.
  revert I X NX NF L R. generalize (main_run evs main_init). intros s I X NX NF L R.
  unfold history in NX, NF. rewrite after_last_stop_until in NF.
  assert (F : frans (m_log s) = None) by (apply frans_until; intro Q; apply NF; apply in_rev in Q; exact Q).
  pose proof (i_fail s I) as C. rewrite F in C.
  assert (St : m_stopped s = false).
  { unfold exit_inv in X. destruct (m_stopped s); [|reflexivity]. destruct X as (l & EL & _). exfalso. apply NX.
    rewrite EL. apply in_rev. rewrite rev_involutive. left. reflexivity. }
  assert (LO : live_op o = []) by (destruct o as [? []|[]|[]]; cbn in A; try discriminate; reflexivity).
  pose proof (pop_inv o r s I R LO) as I1.
  assert (W : fst (stopControlLoops (set_ready r s)) = false).
  { apply stop_waits; [exact I1|exact St|exact C|]. rewrite (live_pop o r s R LO). exact L. }
  unfold main_step. rewrite St, R.
  destruct o as [? []|[]|[]]; cbn in A; try discriminate.
  - unfold run_op, restartControlLoops. destruct (stopControlLoops (set_ready r s)) as [[] s1] eqn:E; cbn in W; [discriminate|].
    apply stop_fail_inv in E; [|exact I1]. destruct E as (_ & _ & ->).
    split; [|split; intro Q; try discriminate]; unfold history, arm_retry; cbn; destruct (m_rtimer s); reflexivity.
  - unfold run_op. destruct (stopControlLoops (set_ready r s)) as [[] s1] eqn:E; cbn in W; [discriminate|].
    apply stop_fail_inv in E; [|exact I1]. destruct E as (_ & _ & ->).
    split; [|split; intro Q; try discriminate]; unfold history, arm_term; cbn; destruct (m_ttimer s); reflexivity.
Qed.

(** A clean restart starts every zone once, and only those. *)
Lemma start_all zs : forall good s, (List.length zs <= good)%nat ->
  fst (start_loops zs good s) = true /\ m_armed (snd (start_loops zs good s)) = m_armed s ++ zs /\
  m_ready (snd (start_loops zs good s)) = m_ready s /\
  m_log (snd (start_loops zs good s)) = rev (map MStarted zs) ++ m_log s.
Proof.
  induction zs as [|z zs IH]; intros good s H; cbn.
  - rewrite app_nil_r. auto.
  - destruct good as [|g]; cbn in H; [lia|].
    match goal with |- context [start_loops zs g ?t] => destruct (IH g t) as (A & B & C & D); [lia|] end.
    rewrite A, B, C, D. cbn. rewrite <- !app_assoc. auto.
Qed.

Lemma C45_restart_lemma evs s r ok ids good s' h :
  no_overlap evs main_init \/ single_zone evs -> s = main_run evs main_init ->
  (single_zone evs -> (List.length ids <= 1)%nat) ->
  m_ready s = ORestart false :: r -> s' = main_step s (ERun ok (BZones ids good)) ->
  history s' = history s ++ MStopped :: h -> ids <> [] -> (List.length ids <= good)%nat ->
  map fst (live s') = nodup Z.eq_dec ids /\ forall i, In i (live s') -> ~ In i (live s).
Proof.
  intros SS -> SZ R -> H NE G.
  assert (CN : clean_next (main_run evs main_init) \/ m_stopped (main_run evs main_init) = true).
  { destruct SS as [S0|S0].
    - destruct (m_stopped (main_run evs main_init)) eqn:St; [right; reflexivity|left]. apply inv_no_clean; [exact St|apply (run_no evs _ init_no S0)].
    - left. apply inv_one_clean. apply (run_one evs main_init); [split; [apply init_inv1|cbn; lia]|exact S0]. }
  pose proof (run_inv1 evs SS) as I. revert I CN R H. generalize (main_run evs main_init). intros s I CN R H.
  assert (St : m_stopped s = false).
  { destruct (m_stopped s) eqn:St; [|reflexivity]. rewrite (stopped_step _ _ St) in H. exfalso.
    apply (f_equal (@List.length _)) in H. rewrite app_length in H. cbn in H. lia. }
  destruct CN as [CN|CN]; [|congruence].
  unfold main_step in *. rewrite St, R in *. unfold run_op, restartControlLoops in *.
  pose proof (pop_inv _ r s I R eq_refl) as I1.
  pose proof (CN _ _ R eq_refl) as CL.
  destruct (stopControlLoops (set_ready r s)) as [[] s1] eqn:E.
  - specialize (CL eq_refl). apply stop_true_state in E; [|exact I1]. subst s1.
    destruct (nodup Z.eq_dec ids) as [|z l] eqn:ND.
    + exfalso. destruct ids as [|y ids]; [congruence|]. assert (X : In y (nodup Z.eq_dec (y :: ids))) by (apply nodup_In; left; reflexivity).
      rewrite ND in X. destruct X.
    + rewrite <- ND in *.
      assert (LL : (List.length (map (fun z0 => (z0, S (m_gen (stop_ok_state (set_ready r s))))) (nodup Z.eq_dec ids)) <= good)%nat).
      { rewrite map_length. pose proof (nodup_length_le ids). lia. }
      match goal with |- context [start_loops ?zs ?g ?t] => destruct (start_all zs g t LL) as (A & B & C & _); destruct (start_loops zs g t) as [q s2] end.
      cbn in A, B, C. subst q.
      assert (LV : live s2 = map (fun z0 => (z0, S (m_gen s))) (nodup Z.eq_dec ids)).
      { unfold live. rewrite B, C. cbn. rewrite flat_live_app, flat_live_aborted, CL. cbn. rewrite app_nil_r. reflexivity. }
      rewrite LV. split.
      * rewrite map_map. cbn. apply map_id.
      * intros i X Y. apply in_map_iff in X. destruct X as (x & <- & _). apply (i_sub s I) in Y. apply starts_all in Y.
        apply (i_gen s I) in Y. cbn in Y. lia.
  - exfalso. apply stop_fail_inv in E; [|exact I1]. destruct E as (_ & _ & ->).
    unfold history, arm_retry in H. cbn in H. destruct (m_rtimer s); cbn in H; apply app_inv_head in H; discriminate.
Qed.

(** ** Progress. *)
Lemma restart_canceling b s : inv1 s -> m_canceling (snd (restartControlLoops b s)) = true -> fst (restartControlLoops b s) = false.
Proof.
  intros I. unfold restartControlLoops. destruct (stopControlLoops s) as [[] s1] eqn:S; [|reflexivity].
  apply stop_true_state in S; [|exact I]. subst. destruct b as [| | |ids good]; try discriminate.
  destruct (nodup Z.eq_dec ids); [discriminate|].
  match goal with |- context [start_loops ?zs ?g ?t] => destruct (start_ready zs g t) as (_ & _ & _ & C) end.
  rewrite C. discriminate.
Qed.

Definition retry_inv (s : main_st) : Prop := m_canceling s = true -> m_stopped s = false -> retry_pending s.

Lemma step_retry s e : inv1 s -> retry_inv s -> retry_inv (main_step s e).
Proof.
  intros I H. destruct (m_stopped s) eqn:St; [rewrite stopped_step; assumption|]. unfold main_step. rewrite St.
  destruct e as [i| | | | |ok b].
  - destruct (imem _ _); [|exact H]. intros C S. destruct (H C S) as [?|[?|?]]; [left|right; left|right; right]; cbn; auto.
    rewrite existsb_app. rewrite H0. reflexivity.
  - destruct (m_rtimer s) eqn:RT; [|exact H]. intros C S. right. right. cbn. rewrite existsb_app. cbn. apply orb_true_r.
  - destruct (m_ttimer s) eqn:RT; [|exact H]. intros C S. right. right. cbn. rewrite existsb_app. cbn. apply orb_true_r.
  - intros C S. right. right. cbn. rewrite existsb_app. cbn. apply orb_true_r.
  - intros C S. right. right. cbn. rewrite existsb_app. cbn. apply orb_true_r.
  - destruct (m_ready s) as [|o r] eqn:R; [exact H|].
    assert (H1 : is_attempt o = false -> retry_inv (set_ready r s)).
    { intros A C S. destruct (H C S) as [?|[?|Q]]; [left|right; left|right; right]; auto. cbn. rewrite R in Q. cbn in Q. rewrite A in Q. exact Q. }
    destruct o as [i []|[]|[]]; try (apply H1; reflexivity).
    + specialize (H1 eq_refl). unfold run_op. cbn [m_canceling say set_ready].
      destruct ok; [destruct (m_canceling s) eqn:C|].
      * exact H1.
      * intros C' S'. cbn in C'. congruence.
      * intros _ S'. discriminate.
    + pose proof (pop_inv _ r s I R eq_refl) as I1. unfold run_op.
      pose proof (restart_canceling b _ I1) as RC. destruct (restartControlLoops b (set_ready r s)) as [[] s1]; cbn in RC.
      * intros C S. specialize (RC C). discriminate.
      * intros C S. left. reflexivity.
    + pose proof (pop_inv _ r s I R eq_refl) as I1. unfold run_op. destruct (stopControlLoops (set_ready r s)) as [[] s1].
      * intros _ S. discriminate.
      * intros C S. right. left. reflexivity.
Qed.

Lemma run_retry_no evs : forall s, inv_no s -> retry_inv s -> no_overlap evs s -> retry_inv (main_run evs s).
Proof.
  induction evs as [|e evs IH]; intros s I H N; [exact H|]. destruct N as [N1 N2]. cbn. apply IH; auto.
  - apply step_no; assumption.
  - apply step_retry; [apply I|exact H].
Qed.
Lemma run_retry_one evs : forall s, inv_one s -> retry_inv s -> single_zone evs -> retry_inv (main_run evs s).
Proof.
  induction evs as [|e evs IH]; intros s I H N; [exact H|]. cbn. apply IH; auto.
  - apply step_one; [exact I|]. intros ok ids good ->. eapply N. left. reflexivity.
  - apply step_retry; [apply I|exact H].
  - intros ok ids good X. eapply N. right. exact X.
Qed.

Definition handlers (s : main_st) : nat :=
  List.length (filter (fun o => match o with OLoop _ _ => true | _ => false end) (m_ready s)).

Lemma C45_retry_lemma evs s :
  no_overlap evs main_init \/ single_zone evs -> s = main_run evs main_init ->
  In MStopFailed (after_last_stop (history s)) -> ~ In MExit (history s) ->
  (* an attempt is on its way *)
  (m_rtimer s = true \/ m_ttimer s = true \/ exists o, In o (m_ready s) /\ is_attempt o = true) /\
  (* no loop handler is waiting for a timer; none is added while the queue drains *)
  m_armed s = [] /\
  (* and an attempt that finds no loop handler ahead of it or behind it succeeds *)
  (forall o r ok b, m_ready s = o :: r -> is_attempt o = true ->
     (forall i a, ~ In (OLoop i a) r) ->
     exists h, history (main_step s (ERun ok b)) = history s ++ MStopped :: h).
Proof.
  intros S -> F NX. pose proof (run_inv1 evs S) as I. pose proof (run_exit evs _ init_exit) as X.
  assert (RI : retry_inv (main_run evs main_init)).
  { destruct S as [S|S]; [apply run_retry_no; [apply init_no|discriminate|exact S]|].
    apply run_retry_one; [split; [apply init_inv1|cbn; lia]|discriminate|exact S]. }
  revert I X NX F RI. generalize (main_run evs main_init). intros s I X NX F RI.
  unfold history in NX, F. rewrite after_last_stop_until in F.
  assert (St : m_stopped s = false).
  { unfold exit_inv in X. destruct (m_stopped s); [|reflexivity]. destruct X as (l & EL & _). exfalso. apply NX.
    rewrite EL. apply in_rev. rewrite rev_involutive. left. reflexivity. }
  assert (C : m_canceling s = true).
  { pose proof (i_fail s I) as G. destruct (frans (m_log s)) eqn:FR; [apply G|]. exfalso.
    apply in_rev in F. clear -F FR. induction (m_log s) as [|e l IH]; [destruct F|]. cbn in *.
    destruct e; cbn in *; try (destruct F as [F|F]; [discriminate|apply IH; [exact F|]]); try exact FR; try contradiction.
    - destruct (frans l); discriminate.
    - destruct (frans l); [discriminate|reflexivity]. }
  split; [|split].
  - destruct (RI C St) as [?|[?|Q]]; auto. right. right. apply existsb_exists in Q. exact Q.
  - apply (i_canc s I C).
  - intros o r ok b R A NL. unfold main_step. rewrite St, R.
    assert (LO : live_op o = []) by (destruct o as [? []|[]|[]]; cbn in A; try discriminate; reflexivity).
    pose proof (pop_inv o r s I R LO) as I1.
    assert (SO : stopControlLoops (set_ready r s) = (true, stop_ok_state (set_ready r s))).
    { rewrite (stop_eq _ I1). cbn [m_zones set_ready]. destruct (m_zones s) as [|z t]; [reflexivity|].
      assert (U : use_count z (cancelled (set_ready r s)) = 1%nat).
      { unfold use_count, cancelled. cbn [set_ready m_ready m_armed m_timers]. rewrite (i_canc s I C). cbn.
        assert (Q : filter (fun i : inst => false) (m_timers s) = []) by (induction (m_timers s); cbn; auto).
        rewrite Q. cbn. rewrite app_nil_r.
        assert (Q2 : filter (is_loop_of z) r = []).
        { clear -NL. induction r as [|x r IH]; cbn; [reflexivity|]. destruct x as [j a| |]; cbn.
          - exfalso. apply (NL j a). left. reflexivity.
          - apply IH. intros i b H. apply (NL i b). right. exact H.
          - apply IH. intros i b H. apply (NL i b). right. exact H. }
        rewrite Q2. reflexivity. }
      rewrite U. reflexivity. }
    destruct o as [? []|[]|[]]; cbn in A; try discriminate.
    + unfold run_op, restartControlLoops. rewrite SO.
      destruct b as [| | |ids good].
      * exists []. unfold history. reflexivity.
      * exists [MExit]. unfold history. cbn. rewrite <- app_assoc. reflexivity.
      * exists []. unfold history, arm_retry. cbn. destruct (m_rtimer s); reflexivity.
      * destruct (nodup Z.eq_dec ids) as [|z0 l].
        -- exists [MExit]. unfold history. cbn. rewrite <- app_assoc. reflexivity.
        -- assert (Q : forall zs g t, exists h, m_log (snd (start_loops zs g t)) = rev h ++ m_log t).
           { clear. induction zs as [|z zs IH]; intros [|g] t; try (exists []; reflexivity). cbn.
             match goal with |- context [start_loops zs g ?u] => destruct (IH g u) as (h & E) end. rewrite E. cbn.
             exists (MStarted z :: h). cbn. rewrite <- app_assoc. reflexivity. }
           match goal with |- context [start_loops ?zs ?g ?t] => destruct (Q zs g t) as (h & E); destruct (start_loops zs g t) as [q s2] end.
           cbn in E. exists h. destruct q.
           ++ unfold history. rewrite E, rev_app_distr, rev_involutive. cbn. rewrite <- app_assoc. reflexivity.
           ++ assert (E2 : m_log (arm_retry s2) = m_log s2) by (unfold arm_retry; destruct (m_rtimer s2); reflexivity).
              unfold history. rewrite E2, E, rev_app_distr, rev_involutive. cbn. rewrite <- app_assoc. reflexivity.
    + unfold run_op. rewrite SO. exists [MExit]. unfold history. cbn. rewrite <- app_assoc. reflexivity.
Qed.
