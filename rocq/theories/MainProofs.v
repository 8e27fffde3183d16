(** * Proofs about starting and stopping (C45). *)
From Coq Require Import ZArith Bool List Arith Lia Permutation.
From Verif Require Import MainModel SpecMain.
Import ListNotations.

Lemma inst_eqb_eq a b : inst_eqb a b = true <-> a = b.
Proof.
  unfold inst_eqb. destruct a, b. cbn. rewrite andb_true_iff, Z.eqb_eq, Nat.eqb_eq.
  split; [intros [-> ->]; reflexivity|intro H; inversion H; auto].
Qed.
Lemma inst_eqb_refl a : inst_eqb a a = true.
Proof. apply inst_eqb_eq. reflexivity. Qed.
Lemma inst_dec (a b : inst) : {a = b} + {a <> b}.
Proof. destruct (inst_eqb a b) eqn:E; [left; apply inst_eqb_eq, E|right; intros ->; rewrite inst_eqb_refl in E; discriminate]. Qed.
Lemma imem_In i l : imem i l = true <-> In i l.
Proof.
  unfold imem. rewrite existsb_exists. split.
  - intros (x & I & E). apply inst_eqb_eq in E. subst. exact I.
  - intro I. exists i. split; [exact I|apply inst_eqb_refl].
Qed.

(** Starts and cycles, from the newest-first log. *)
Fixpoint starts (l : list main_event) : list inst :=
  match l with
  | [] => []
  | MStopped :: _ => []
  | MStarted i :: r => i :: starts r
  | _ :: r => starts r
  end.
Fixpoint all_starts (l : list main_event) : list inst :=
  match l with
  | [] => []
  | MStarted i :: r => i :: all_starts r
  | _ :: r => all_starts r
  end.
Fixpoint ran_ok (l : list main_event) : Prop :=
  match l with
  | [] => True
  | MRan i :: r => In i (starts r) /\ ran_ok r
  | _ :: r => ran_ok r
  end.
(** Cycles since the first failed stop after the last good one. *)
Fixpoint frans (l : list main_event) : option (list inst) :=
  match l with
  | [] => None
  | MStopped :: _ => None
  | MStopFailed :: r => match frans r with None => Some [] | x => x end
  | MRan i :: r => option_map (cons i) (frans r)
  | _ :: r => frans r
  end.

Lemma all_starts_In i l : In i (all_starts l) <-> In (MStarted i) l.
Proof.
  induction l as [|e l IH]; cbn; [tauto|].
  destruct e; cbn; rewrite ?IH; split; intuition (try discriminate); try congruence.
Qed.
Lemma starts_all i l : In i (starts l) -> In i (all_starts l).
Proof. induction l as [|e l IH]; cbn; [tauto|]. destruct e; cbn; intuition. Qed.

Record inv1 (s : main_st) : Prop := Inv1 {
  i_armed : m_canceling s = false -> incl (live s) (m_timers s);
  i_canc : m_canceling s = true -> m_armed s = [];
  i_nodup : NoDup (live s);
  i_zgen : forall i, In i (m_zones s) -> snd i = m_gen s;
  i_znodup : NoDup (m_zones s);
  i_gen : forall i, In i (all_starts (m_log s)) -> (snd i <= m_gen s)%nat;
  i_pref : exists rest, m_zones s = rev (starts (m_log s)) ++ rest;
  i_live : m_canceling s = false -> m_stopped s = false -> incl (starts (m_log s)) (live s);
  i_sub : incl (live s) (starts (m_log s));
  i_allnodup : NoDup (all_starts (m_log s));
  i_ran : ran_ok (m_log s);
  i_fail : match frans (m_log s) with
           | Some l => m_canceling s = true /\ NoDup (l ++ live s)
           | None => m_canceling s = false
           end
}.
Definition retry_pending (s : main_st) : Prop :=
  m_rtimer s = true \/ m_ttimer s = true \/ existsb is_attempt (m_ready s) = true.

Lemma flat_live_app a b : flat_map live_op (a ++ b) = flat_map live_op a ++ flat_map live_op b.
Proof. apply flat_map_app. Qed.
Lemma flat_live_aborted l : flat_map live_op (map (fun i => OLoop i true) l) = [].
Proof. induction l; cbn; auto. Qed.

Lemma init_inv1 : inv1 main_init.
Proof.
  apply Inv1; cbn.
  - intros _ x [].
  - discriminate.
  - constructor.
  - intros i [].
  - constructor.
  - intros i [].
  - exists []. reflexivity.
  - intros _ _ x [].
  - intros x [].
  - constructor.
  - exact I.
  - reflexivity.
Qed.

Lemma cancel_armed s : inv1 s ->
  filter (fun i => negb (imem i (m_timers s))) (m_armed s) = [].
Proof.
  intro I. destruct (m_canceling s) eqn:C.
  - rewrite (i_canc s I C). reflexivity.
  - assert (A : incl (m_armed s) (m_timers s)) by (intros x X; apply (i_armed s I C), in_or_app; left; exact X).
    induction (m_armed s) as [|x l IH]; [reflexivity|]. cbn.
    destruct (imem x (m_timers s)) eqn:E; cbn.
    + apply IH. intros y Y. apply A. right. exact Y.
    + assert (imem x (m_timers s) = true) by (apply imem_In, A; left; reflexivity). congruence.
Qed.

(** The state after the timers are cancelled. *)
Definition cancelled (s : main_st) : main_st :=
  MainSt true (m_zones s) [] [] (m_ready s ++ map (fun i => OLoop i true) (filter (fun i => imem i (m_armed s)) (m_timers s)))
    (m_rtimer s) (m_ttimer s) (m_gen s) (m_stopped s) (m_log s).
Definition stop_ok_state (s : main_st) : main_st :=
  MainSt false [] [] [] (m_ready (cancelled s)) (m_rtimer s) (m_ttimer s) (m_gen s) (m_stopped s) (MStopped :: m_log s).

Lemma stop_eq s : inv1 s ->
  stopControlLoops s =
    match m_zones s with
    | z :: _ => if (1 <? use_count z (cancelled s))%nat then (false, say MStopFailed (cancelled s))
                else (true, stop_ok_state s)
    | [] => (true, stop_ok_state s)
    end.
Proof.
  intro I. unfold stopControlLoops. cbv zeta. rewrite (cancel_armed s I). cbn [m_zones].
  destruct (m_zones s) eqn:Z; unfold stop_ok_state, use_count, cancelled, say; cbn [m_zones m_armed m_ready m_canceling m_timers m_rtimer m_ttimer m_gen m_stopped m_log]; rewrite ?Z; reflexivity.
Qed.

Lemma live_cancelled s : live (cancelled s) = flat_map live_op (m_ready s).
Proof. unfold live, cancelled. cbn. rewrite flat_live_app, flat_live_aborted, app_nil_r. reflexivity. Qed.
Lemma live_stop_ok s : live (stop_ok_state s) = flat_map live_op (m_ready s).
Proof. unfold live, stop_ok_state, cancelled. cbn. rewrite flat_live_app, flat_live_aborted, app_nil_r. reflexivity. Qed.

Lemma NoDup_app_l {A} (a b : list A) : NoDup (a ++ b) -> NoDup a.
Proof. induction a; cbn; [constructor|]. intro H. inversion H; subst. constructor; [intro I; apply H2, in_or_app; auto|auto]. Qed.
Lemma NoDup_app_r {A} (a b : list A) : NoDup (a ++ b) -> NoDup b.
Proof. induction a; cbn; auto. intro H. inversion H; auto. Qed.

Lemma stop_fail_inv s s' : inv1 s -> stopControlLoops s = (false, s') ->
  inv1 s' /\ m_canceling s' = true /\ s' = say MStopFailed (cancelled s).
Proof.
  intros I E. rewrite (stop_eq s I) in E.
  assert (s' = say MStopFailed (cancelled s)) as ->
    by (destruct (m_zones s); [discriminate|destruct (1 <? _)%nat; [congruence|discriminate]]).
  split; [|split; reflexivity].
  assert (L : live (say MStopFailed (cancelled s)) = flat_map live_op (m_ready s)) by (change (live (cancelled s) = flat_map live_op (m_ready s)); apply live_cancelled).
  destruct I. constructor; try rewrite L; cbn; auto; try discriminate.
  - eapply NoDup_app_r; exact i_nodup0.
  - intros x X. apply i_sub0. unfold live. apply in_or_app. right. exact X.
  - destruct (frans (m_log s)) as [l|]; cbn.
    + split; [reflexivity|]. destruct i_fail0 as [C N]. unfold live in N. rewrite (i_canc0 C) in N. exact N.
    + split; [reflexivity|]. eapply NoDup_app_r; exact i_nodup0.
Qed.

Lemma stop_true_state s s' : inv1 s -> stopControlLoops s = (true, s') -> s' = stop_ok_state s.
Proof. intros I E. rewrite (stop_eq s I) in E. destruct (m_zones s); [congruence|]. destruct (1 <? _)%nat; congruence. Qed.

Lemma stop_ok_inv s : inv1 s -> flat_map live_op (m_ready s) = [] -> inv1 (stop_ok_state s).
Proof.
  intros I H. pose proof (live_stop_ok s) as L. rewrite H in L.
  destruct I. constructor; try rewrite L; cbn; auto; try discriminate; try (intros; contradiction).
  - intros _ x [].
  - constructor.
  - constructor.
  - exists []. reflexivity.
  - intros _ _ x [].
  - intros x [].
Qed.

(** Starting loops. *)
Lemma start_inv : forall zs good s b s',
  inv1 s -> m_canceling s = false -> m_stopped s = false ->
  m_zones s = rev (starts (m_log s)) ++ zs ->
  (forall i, In i zs -> ~ In i (all_starts (m_log s))) -> NoDup zs ->
  start_loops zs good s = (b, s') -> inv1 s' /\ m_canceling s' = false.
Proof.
  induction zs as [|z zs IH]; intros good s b s' I C St Z F N E; cbn in E.
  - inversion E; subst. split; assumption.
  - assert (F1 : ~ In z (live s)).
    { intro L. apply (F z (or_introl eq_refl)). apply starts_all. apply (i_sub s I). exact L. }
    assert (P : Permutation (z :: live s) ((m_armed s ++ [z]) ++ flat_map live_op (m_ready s))).
    { rewrite <- app_assoc. cbn. apply Permutation_middle. }
    assert (FR : frans (m_log s) = None).
    { pose proof (i_fail s I) as G. destruct (frans (m_log s)); [destruct G; congruence|reflexivity]. }
    destruct good as [|g].
    + inversion E; subst. split; [|exact C]. destruct I. constructor; cbn; auto.
      intros _ x X. apply in_or_app. left. apply i_armed0; [exact C|exact X].
    + apply IH in E; auto.
      * destruct I. constructor; cbn.
        -- intros _ x X. unfold live in X; cbn in X. apply (Permutation_in _ (Permutation_sym P)) in X.
           apply in_or_app. destruct X as [<-|X]; [right; left; reflexivity|left; apply i_armed0; [exact C|exact X]].
        -- congruence.
        -- unfold live; cbn. eapply Permutation_NoDup; [exact P|]. constructor; assumption.
        -- exact i_zgen0.
        -- exact i_znodup0.
        -- intros i [<-|X]; [rewrite i_zgen0; [lia|rewrite Z; apply in_or_app; right; left; reflexivity]|auto].
        -- exists zs. rewrite Z, <- app_assoc. reflexivity.
        -- intros _ _ x [<-|X]; unfold live; cbn; eapply Permutation_in; try exact P; [left; reflexivity|right; apply i_live0; auto].
        -- intros x X. unfold live in X; cbn in X. apply Permutation_sym in P. apply (Permutation_in _ P) in X. destruct X as [<-|X]; [left; reflexivity|right; apply i_sub0; exact X].
        -- constructor; [apply F; left; reflexivity|assumption].
        -- exact i_ran0.
        -- rewrite FR. exact C.
      * cbn. rewrite Z, <- app_assoc. reflexivity.
      * cbn. intros i X [<-|Y]; [inversion N; contradiction|]. revert Y. apply F. right. exact X.
      * inversion N; assumption.
Qed.

Lemma NoDup_map_pair (ids : list Z) (g : nat) : NoDup ids -> NoDup (map (fun z => (z, g)) ids).
Proof.
  intro N. apply FinFun.Injective_map_NoDup; [|exact N]. intros a b E. inversion E. reflexivity.
Qed.

Lemma quit_inv s : inv1 s -> inv1 (quit s).
Proof. intros []; constructor; cbn; auto; discriminate. Qed.

(** A restart whose stop was clean. *)
Lemma restart_inv b s r s' : inv1 s -> m_stopped s = false ->
  (forall s1, stopControlLoops s = (true, s1) -> flat_map live_op (m_ready s) = []) ->
  restartControlLoops b s = (r, s') -> inv1 s' /\ (m_canceling s' = true -> r = false).
Proof.
  intros I St H E. unfold restartControlLoops in E. destruct (stopControlLoops s) as [[] s1] eqn:S.
  - pose proof (stop_true_state _ _ I S) as ->. specialize (H _ eq_refl).
    pose proof (stop_ok_inv s I H) as I1.
    destruct b as [| | |ids good].
    + inversion E; subst. split; [exact I1|discriminate].
    + inversion E; subst. split; [apply quit_inv; exact I1|discriminate].
    + inversion E; subst. split; [exact I1|reflexivity].
    + destruct (nodup Z.eq_dec ids) as [|z0 zr] eqn:ND.
      * inversion E; subst. split; [apply quit_inv; exact I1|discriminate].
      * rewrite <- ND in E. assert (NN : NoDup (nodup Z.eq_dec ids)) by apply NoDup_nodup.
        revert E NN. generalize (nodup Z.eq_dec ids) as l. intros l E NN.
        apply start_inv in E; cbn; auto.
        -- destruct E as [E1 E2]. split; [exact E1|]. congruence.
        -- pose proof (live_stop_ok s) as L. rewrite H in L.
           match goal with |- inv1 ?t => assert (L' : live t = []) by exact L end.
           destruct I1. constructor; try rewrite L'; cbn in *; auto; try discriminate.
           ++ intros _ x [].
           ++ intros i X. apply in_map_iff in X. destruct X as (x & <- & _). reflexivity.
           ++ apply NoDup_map_pair; exact NN.
           ++ eexists; reflexivity.
           ++ intros _ _ x [].
           ++ intros x [].
        -- intros i X Y. apply in_map_iff in X. destruct X as (x & <- & _).
           pose proof (i_gen s I _ Y) as G. cbn in G. lia.
        -- apply NoDup_map_pair; exact NN.
  - apply stop_fail_inv in S; [|exact I]. destruct S as (I1 & C1 & ->). inversion E; subst. split; [exact I1|reflexivity].
Qed.

Lemma live_pop o r s : m_ready s = o :: r -> live_op o = [] -> live (set_ready r s) = live s.
Proof. intros E L. unfold live. cbn. rewrite E. cbn. rewrite L. reflexivity. Qed.

Lemma pop_inv o r s : inv1 s -> m_ready s = o :: r -> live_op o = [] -> inv1 (set_ready r s).
Proof.
  intros I E L. pose proof (live_pop o r s E L) as H. destruct I. constructor; try rewrite H; assumption.
Qed.

Lemma enqueue_inv o s : inv1 s -> live_op o = [] -> inv1 (enqueue o s).
Proof.
  intros I L. assert (H : live (enqueue o s) = live s).
  { unfold live, enqueue. cbn. rewrite flat_live_app. cbn. rewrite L. rewrite !app_nil_r. reflexivity. }
  destruct I. constructor; try rewrite H; assumption.
Qed.
Lemma set_retry_inv a b s : inv1 s -> inv1 (set_retry a b s).
Proof. intros []. constructor; assumption. Qed.
Lemma arm_retry_inv s : inv1 s -> inv1 (arm_retry s).
Proof. intro I. unfold arm_retry. apply set_retry_inv. destruct (m_rtimer s); [apply enqueue_inv; auto|exact I]. Qed.
Lemma arm_term_inv s : inv1 s -> inv1 (arm_term s).
Proof. intro I. unfold arm_term. apply set_retry_inv. destruct (m_ttimer s); [apply enqueue_inv; auto|exact I]. Qed.

Lemma remove_first_perm i l : In i l -> Permutation l (i :: remove_first i l).
Proof.
  induction l as [|x l IH]; [intros []|]. cbn. intros H. destruct (inst_eqb i x) eqn:E.
  - apply inst_eqb_eq in E. subst. reflexivity.
  - destruct H as [->|H]; [rewrite inst_eqb_refl in E; discriminate|].
    rewrite (IH H) at 1. apply perm_swap.
Qed.

Lemma expire_inv i s : inv1 s -> In i (m_armed s) ->
  inv1 (enqueue (OLoop i false) (set_armed (remove_first i (m_armed s)) s)).
Proof.
  intros I A.
  assert (P : Permutation (live s) (live (enqueue (OLoop i false) (set_armed (remove_first i (m_armed s)) s)))).
  { unfold live, enqueue; cbn. rewrite flat_live_app. cbn. rewrite (remove_first_perm i (m_armed s) A) at 1.
    rewrite app_assoc. cbn. apply Permutation_cons_append. }
  assert (Q : forall x, In x (live s) <-> In x (live (enqueue (OLoop i false) (set_armed (remove_first i (m_armed s)) s)))).
  { intro x. split; apply Permutation_in; [exact P|apply Permutation_sym; exact P]. }
  pose proof (remove_first_perm i (m_armed s) A) as R.
  destruct I. constructor; try (cbn; assumption).
  - cbn. intros C x X. apply (i_armed0 C). apply Q. exact X.
  - cbn. intro C. rewrite (i_canc0 C) in A. destruct A.
  - eapply Permutation_NoDup; [exact P|assumption].
  - cbn. intros C S x X. apply Q. apply i_live0; auto.
  - cbn. intros x X. apply i_sub0, Q, X.
  - cbn. destruct (frans (m_log s)) as [l|]; [|assumption]. destruct i_fail0 as [C N]. rewrite (i_canc0 C) in A. destruct A.
Qed.

Lemma tick_inv i r s ok b : inv1 s -> m_stopped s = false -> m_ready s = OLoop i false :: r ->
  inv1 (run_op (OLoop i false) ok b (set_ready r s)).
Proof.
  intros I St E.
  assert (P : Permutation (live s) (i :: m_armed s ++ flat_map live_op r)).
  { unfold live. rewrite E. cbn. symmetry. apply Permutation_middle. }
  assert (N : NoDup (i :: m_armed s ++ flat_map live_op r)) by (eapply Permutation_NoDup; [exact P|apply I]).
  inversion N as [|? ? N1 N2]; subst.
  assert (Q : forall x, In x (i :: m_armed s ++ flat_map live_op r) -> In x (live s)).
  { intros x X. eapply Permutation_in; [apply Permutation_sym; exact P|exact X]. }
  assert (IS : In i (starts (m_log s))) by (apply (i_sub s I), Q; left; reflexivity).
  assert (FR : forall l, m_canceling s = true /\ NoDup (l ++ live s) -> NoDup ((i :: l) ++ (m_armed s ++ flat_map live_op r))).
  { intros l [_ F]. eapply Permutation_NoDup; [|exact F]. rewrite P. symmetry. apply Permutation_middle. }
  unfold run_op.
  destruct ok; [cbn [m_canceling say set_ready]; destruct (m_canceling s) eqn:C|].
  - destruct I. constructor; cbn; auto; try congruence.
    + intros x X. apply i_sub0, Q. right. exact X.
    + destruct (frans (m_log s)) as [l|]; [|congruence]. cbn. split; [exact C|]. apply FR. split; [reflexivity|apply i_fail0].
  - assert (P2 : Permutation (live s) (live (set_armed (m_armed s ++ [i]) (say (MRan i) (set_ready r s))))).
    { rewrite P. unfold live. cbn. rewrite <- app_assoc. cbn. apply Permutation_middle. }
    destruct I. constructor; try (cbn; solve [auto | congruence]).
    + intros _ x X. apply i_armed0; [exact C|]. eapply Permutation_in; [apply Permutation_sym; exact P2|exact X].
    + eapply Permutation_NoDup; [exact P2|assumption].
    + intros _ S x X. eapply Permutation_in; [exact P2|]. apply i_live0; auto.
    + intros x X. cbn. apply i_sub0. eapply Permutation_in; [apply Permutation_sym; exact P2|exact X].
    + cbn. destruct (frans (m_log s)); [destruct i_fail0; congruence|exact C].
  - destruct I. constructor; cbn; auto; try congruence.
    + intros C x X. apply i_armed0; [exact C|]. apply Q. right. exact X.
    + intros x X. apply i_sub0, Q. right. exact X.
    + destruct (frans (m_log s)) as [l|]; cbn; [|exact i_fail0]. split; [apply i_fail0|]. apply FR. exact i_fail0.
Qed.

(** If a stop passes, nothing live is left (to be discharged for each setting). *)
Definition clean_next (s : main_st) : Prop :=
  forall o r, m_ready s = o :: r -> is_attempt o = true ->
    fst (stopControlLoops (set_ready r s)) = true -> flat_map live_op r = [].

Lemma step_inv s e : inv1 s -> clean_next s -> inv1 (main_step s e).
Proof.
  intros I CN. unfold main_step. destruct (m_stopped s) eqn:St; [exact I|]. destruct e as [i| | | | |ok b].
  - destruct (imem i (m_armed s)) eqn:A; [apply expire_inv; [exact I|apply imem_In; exact A]|exact I].
  - destruct (m_rtimer s); [apply enqueue_inv; [apply set_retry_inv; exact I|reflexivity]|exact I].
  - destruct (m_ttimer s); [apply enqueue_inv; [apply set_retry_inv; exact I|reflexivity]|exact I].
  - apply enqueue_inv; auto.
  - apply enqueue_inv; auto.
  - destruct (m_ready s) as [|o r] eqn:R; [exact I|].
    destruct o as [i []|[]|[]]; try (apply (pop_inv _ r s I R); reflexivity).
    + apply tick_inv; assumption.
    + assert (I1 : inv1 (set_ready r s)) by (apply (pop_inv _ r s I R); reflexivity).
      unfold run_op. destruct (restartControlLoops b (set_ready r s)) as [q s1] eqn:E.
      apply restart_inv in E; auto.
      * destruct q; [apply E|apply arm_retry_inv, E].
      * intros s2 S. apply (CN _ _ R eq_refl). rewrite S. reflexivity.
    + assert (I1 : inv1 (set_ready r s)) by (apply (pop_inv _ r s I R); reflexivity).
      unfold run_op. destruct (stopControlLoops (set_ready r s)) as [[] s1] eqn:E.
      * pose proof (CN _ _ R eq_refl) as CN'. rewrite E in CN'. specialize (CN' eq_refl).
        apply stop_true_state in E; [|exact I1]. subst. apply quit_inv, stop_ok_inv; [exact I1|exact CN'].
      * apply stop_fail_inv in E; [|exact I1]. apply arm_term_inv, E.
Qed.

Lemma in_live_ready i l : In i (flat_map live_op l) -> In (OLoop i false) l.
Proof.
  rewrite in_flat_map. intros (o & O & X). destruct o as [j []| |]; cbn in X; try contradiction.
  destruct X as [->|[]]. exact O.
Qed.

Lemma filter_pos {A} (f : A -> bool) x l : In x l -> f x = true -> (1 <= List.length (filter f l))%nat.
Proof.
  intros I F. assert (In x (filter f l)) by (apply filter_In; auto). destruct (filter f l); [contradiction|cbn; lia].
Qed.

Lemma use_count_ready i s : In i (flat_map live_op (m_ready s)) -> (1 < use_count i (cancelled s))%nat.
Proof.
  intro H. apply in_live_ready in H. unfold use_count, cancelled. cbn.
  pose proof (filter_pos (is_loop_of i) (OLoop i false)
    (m_ready s ++ map (fun i0 => OLoop i0 true) (filter (fun i0 => imem i0 (m_armed s)) (m_timers s)))) as F.
  rewrite <- Nat.succ_lt_mono. apply F; [apply in_or_app; left; exact H|cbn; apply inst_eqb_refl].
Qed.
Lemma use_count_armed i s : In i (m_armed s) -> In i (m_timers s) -> (1 < use_count i (cancelled s))%nat.
Proof.
  intros H T. unfold use_count, cancelled. cbn.
  pose proof (filter_pos (is_loop_of i) (OLoop i true)
    (m_ready s ++ map (fun i0 => OLoop i0 true) (filter (fun i0 => imem i0 (m_armed s)) (m_timers s)))) as F.
  rewrite <- Nat.succ_lt_mono. apply F; [|cbn; apply inst_eqb_refl].
  apply in_or_app. right. apply in_map_iff. exists i. split; [reflexivity|]. apply filter_In. split; [exact T|apply imem_In; exact H].
Qed.

(** While not cancelling, a stop never passes over a live loop. *)
Lemma stop_waits s : inv1 s -> m_stopped s = false -> m_canceling s = false -> live s <> [] ->
  fst (stopControlLoops s) = false.
Proof.
  intros I St C L. rewrite (stop_eq s I). destruct (i_pref s I) as [rest Z].
  destruct (live s) as [|x lx] eqn:LX; [congruence|].
  assert (X : In x (starts (m_log s))) by (apply (i_sub s I); rewrite LX; left; reflexivity).
  destruct (rev (starts (m_log s))) as [|z t] eqn:RV.
  - apply in_rev in X. rewrite RV in X. destruct X.
  - rewrite Z. cbn [app].
    assert (ZL : In z (live s)).
    { apply (i_live s I C St). apply in_rev. rewrite RV. left. reflexivity. }
    assert (U : (1 < use_count z (cancelled s))%nat).
    { pose proof (i_armed s I C z ZL) as T. unfold live in ZL. apply in_app_or in ZL. destruct ZL as [A|R].
      - apply use_count_armed; assumption.
      - apply use_count_ready; assumption. }
    apply Nat.ltb_lt in U. rewrite U. reflexivity.
Qed.

(** ** Setting 1: attempts do not overlap. *)
Definition attempts (s : main_st) : nat := List.length (filter is_attempt (m_ready s)).
Definition inv_no (s : main_st) : Prop :=
  inv1 s /\ (attempts s <= 1)%nat /\
  (m_canceling s = true -> forall pre o post, m_ready s = pre ++ o :: post -> is_attempt o = true ->
     flat_map live_op post = []).

Lemma inv_no_clean s : m_stopped s = false -> inv_no s -> clean_next s.
Proof.
  intros St (I & _ & J) o r R A S. destruct (m_canceling s) eqn:C.
  - apply (J eq_refl [] o r R A).
  - destruct (flat_map live_op r) as [|x l] eqn:F; [reflexivity|].
    assert (L : live_op o = []) by (destruct o as [? []|[]|[]]; cbn in A; try discriminate; reflexivity).
    assert (W : fst (stopControlLoops (set_ready r s)) = false).
    { apply stop_waits; [apply (pop_inv o); assumption|exact St|exact C|].
      unfold live. cbn. rewrite F. destruct (m_armed s); discriminate. }
    congruence.
Qed.

Lemma stopped_step s e : m_stopped s = true -> main_step s e = s.
Proof. intro H. unfold main_step. rewrite H. reflexivity. Qed.

Lemma filter_length_app {A} (f : A -> bool) a b :
  List.length (filter f (a ++ b)) = (List.length (filter f a) + List.length (filter f b))%nat.
Proof. rewrite filter_app, app_length. reflexivity. Qed.

Lemma filter_aborted l : filter is_attempt (map (fun i => OLoop i true) l) = [].
Proof. induction l; cbn; auto. Qed.

Lemma start_ready zs : forall good s, m_ready (snd (start_loops zs good s)) = m_ready s /\
  m_rtimer (snd (start_loops zs good s)) = m_rtimer s /\ m_stopped (snd (start_loops zs good s)) = m_stopped s /\
  m_canceling (snd (start_loops zs good s)) = m_canceling s.
Proof. induction zs as [|z zs IH]; intros [|g] s; cbn; auto. destruct (IH g (say (MStarted z) (set_armed (m_armed s ++ [z])
  (MainSt (m_canceling s) (m_zones s) (m_timers s ++ [z]) (m_armed s) (m_ready s) (m_rtimer s) (m_ttimer s) (m_gen s) (m_stopped s) (m_log s))))) as (A & B & C & D).
  cbn in *. auto. Qed.

Lemma restart_ready b s : inv1 s -> m_ready (snd (restartControlLoops b s)) = m_ready (cancelled s).
Proof.
  intro I. unfold restartControlLoops. destruct (stopControlLoops s) as [[] s1] eqn:S.
  - apply stop_true_state in S; [|exact I]. subst. destruct b as [| | |ids good]; try reflexivity.
    destruct (nodup Z.eq_dec ids); [reflexivity|].
    match goal with |- context [start_loops ?zs ?g ?t] => destruct (start_ready zs g t) as (E & _); rewrite E end. reflexivity.
  - apply stop_fail_inv in S; [|exact I]. destruct S as (_ & _ & ->). reflexivity.
Qed.

Lemma arm_retry_attempts s : attempts (arm_retry s) = attempts s.
Proof. unfold arm_retry, attempts. destruct (m_rtimer s); cbn; [rewrite filter_length_app; cbn; lia|reflexivity]. Qed.
Lemma arm_term_attempts s : attempts (arm_term s) = attempts s.
Proof. unfold arm_term, attempts. destruct (m_ttimer s); cbn; [rewrite filter_length_app; cbn; lia|reflexivity]. Qed.
Lemma attempts_none s : attempts s = 0%nat -> forall pre o post, m_ready s = pre ++ o :: post -> is_attempt o = true -> False.
Proof.
  unfold attempts. intros H pre o post E A. rewrite E, filter_length_app in H. cbn in H. rewrite A in H. cbn in H. lia.
Qed.
Lemma existsb_attempts s : existsb is_attempt (m_ready s) = false -> attempts s = 0%nat.
Proof.
  unfold attempts. induction (m_ready s) as [|o l IH]; cbn; [reflexivity|]. destruct (is_attempt o); cbn; [discriminate|exact IH].
Qed.

Lemma enqueue_attempt_no o s : inv_no s -> is_attempt o = true -> existsb is_attempt (m_ready s) = false ->
  forall a b, inv_no (enqueue o (set_retry a b s)).
Proof.
  intros (I & _ & J) A E a b. apply existsb_attempts in E.
  assert (L : live_op o = []) by (destruct o as [? []|[]|[]]; cbn in A; try discriminate; reflexivity).
  split; [apply enqueue_inv; [apply set_retry_inv; exact I|exact L]|]. split.
  - unfold attempts in *. cbn. rewrite filter_length_app, E. cbn. rewrite A. cbn. lia.
  - cbn. intros C pre o' post R A'.
    destruct post as [|x post _] using rev_ind; [reflexivity|].
    rewrite app_comm_cons, app_assoc in R. apply app_inj_tail in R. destruct R as [R _].
    exfalso. eapply attempts_none; [exact E|exact R|exact A'].
Qed.

Lemma set_retry_id s : set_retry (m_rtimer s) (m_ttimer s) s = s.
Proof. destruct s; reflexivity. Qed.

Lemma step_no s e : inv_no s -> (queues_attempt s e = true -> existsb is_attempt (m_ready s) = false) ->
  inv_no (main_step s e).
Proof.
  intros H NO. destruct (m_stopped s) eqn:St; [rewrite stopped_step; assumption|].
  assert (S1 : inv1 (main_step s e)) by (apply step_inv; [apply H|apply inv_no_clean; assumption]).
  unfold main_step in *. rewrite St in *. destruct e as [i| | | | |ok b].
  - destruct (imem i (m_armed s)) eqn:A; [|exact H]. apply imem_In in A. destruct H as (I & N & J). split; [exact S1|]. split.
    + unfold attempts in *. cbn. rewrite filter_length_app. cbn. lia.
    + cbn. intro C. rewrite (i_canc s I C) in A. destruct A.
  - cbn in NO. destruct (m_rtimer s); [|exact H]. apply enqueue_attempt_no; auto.
  - cbn in NO. destruct (m_ttimer s); [|exact H]. apply enqueue_attempt_no; auto.
  - rewrite <- (set_retry_id s). cbn [set_retry m_rtimer m_ttimer]. apply enqueue_attempt_no; auto.
  - rewrite <- (set_retry_id s). cbn [set_retry m_rtimer m_ttimer]. apply enqueue_attempt_no; auto.
  - destruct (m_ready s) as [|o r] eqn:R; [exact H|]. destruct H as (I & N & J).
    assert (NR : (List.length (filter is_attempt r) <= 1)%nat /\ (is_attempt o = true -> List.length (filter is_attempt r) = 0%nat)).
    { unfold attempts in N. rewrite R in N. cbn in N. destruct (is_attempt o); cbn in N; split; try lia; discriminate. }
    assert (JR : m_canceling s = true -> forall pre o' post, r = pre ++ o' :: post -> is_attempt o' = true -> flat_map live_op post = []).
    { intros C pre o' post E A. apply (J C (o :: pre) o' post); [rewrite R, E; reflexivity|exact A]. }
    destruct NR as [NR NA]. split; [exact S1|].
    destruct o as [i []|[]|[]]; try (split; [exact NR|exact JR]).
    + unfold run_op. cbn [m_canceling say set_ready]. destruct ok; [destruct (m_canceling s) eqn:C|]; (split; [exact NR|]); cbn; intros CC;
        [apply JR; reflexivity|exfalso; congruence|apply JR; exact CC].
    + assert (I1 : inv1 (set_ready r s)) by (apply (pop_inv _ r s I R); reflexivity).
      specialize (NA eq_refl).
      pose proof (restart_ready b _ I1) as RR.
      assert (Z0 : attempts (run_op (ORestart false) ok b (set_ready r s)) = 0%nat).
      { unfold run_op. destruct (restartControlLoops b (set_ready r s)) as [[] s1]; cbn in RR; [|rewrite arm_retry_attempts];
          unfold attempts; rewrite RR, filter_length_app, filter_aborted, NA; reflexivity. }
      split; [lia|]. intros _ pre o post E A. exfalso. eapply attempts_none; [exact Z0|exact E|exact A].
    + assert (I1 : inv1 (set_ready r s)) by (apply (pop_inv _ r s I R); reflexivity).
      specialize (NA eq_refl).
      assert (Z0 : attempts (run_op (OTerminate false) ok b (set_ready r s)) = 0%nat).
      { unfold run_op. destruct (stopControlLoops (set_ready r s)) as [[] s1] eqn:S.
        - apply stop_true_state in S; [|exact I1]. subst. unfold attempts. cbn. rewrite filter_length_app, filter_aborted, NA. reflexivity.
        - apply stop_fail_inv in S; [|exact I1]. destruct S as (_ & _ & ->). rewrite arm_term_attempts.
          unfold attempts. cbn. rewrite filter_length_app, filter_aborted, NA. reflexivity. }
      split; [lia|]. intros _ pre o post E A. exfalso. eapply attempts_none; [exact Z0|exact E|exact A].
Qed.

Lemma init_no : inv_no main_init.
Proof. split; [apply init_inv1|]. split; [cbn; lia|discriminate]. Qed.

Lemma run_no evs : forall s, inv_no s -> no_overlap evs s -> inv_no (main_run evs s).
Proof.
  induction evs as [|e evs IH]; intros s I N; [exact I|]. destruct N as [N1 N2]. cbn.
  apply IH; [apply step_no; assumption|exact N2].
Qed.

(** ** Setting 2: never more than one zone. *)
Definition inv_one (s : main_st) : Prop := inv1 s /\ (List.length (m_zones s) <= 1)%nat.

Lemma inv_one_clean s : inv_one s -> clean_next s.
Proof.
  intros (I & Z) o r R A S.
  assert (L : live_op o = []) by (destruct o as [? []|[]|[]]; cbn in A; try discriminate; reflexivity).
  pose proof (pop_inv o r s I R L) as I1. rewrite (stop_eq _ I1) in S.
  destruct (flat_map live_op r) as [|x l] eqn:F; [reflexivity|]. exfalso.
  assert (X : In x (live (set_ready r s))) by (unfold live; cbn; rewrite F; apply in_or_app; right; left; reflexivity).
  apply (i_sub _ I1) in X. destruct (i_pref _ I1) as [rest P]. cbn in P.
  assert (XZ : In x (m_zones s)) by (rewrite P; apply in_or_app; left; apply in_rev; rewrite rev_involutive; exact X).
  cbn [m_zones set_ready] in S. destruct (m_zones s) as [|z [|]]; cbn in Z; try lia; [destruct XZ|].
  destruct XZ as [->|[]].
  assert (U : (1 < use_count x (cancelled (set_ready r s)))%nat) by (apply use_count_ready; cbn; rewrite F; left; reflexivity).
  apply Nat.ltb_lt in U. rewrite U in S. discriminate.
Qed.

Lemma start_zones zs : forall good s, m_zones (snd (start_loops zs good s)) = m_zones s.
Proof. induction zs as [|z zs IH]; intros [|g] s; cbn; auto. rewrite IH. reflexivity. Qed.

Lemma nodup_length_le (l : list Z) : (List.length (nodup Z.eq_dec l) <= List.length l)%nat.
Proof. induction l; cbn; [lia|]. destruct (in_dec _ _ _); cbn; lia. Qed.

Lemma step_one s e : inv_one s -> (forall ok ids good, e = ERun ok (BZones ids good) -> (List.length ids <= 1)%nat) ->
  inv_one (main_step s e).
Proof.
  intros H HE. split; [apply step_inv; [apply H|apply inv_one_clean; exact H]|]. destruct H as [I Z].
  unfold main_step. destruct (m_stopped s); [exact Z|]. destruct e as [i| | | | |ok b]; try exact Z.
  - destruct (imem _ _); exact Z.
  - destruct (m_rtimer s); exact Z.
  - destruct (m_ttimer s); exact Z.
  - destruct (m_ready s) as [|o r] eqn:R; [exact Z|]. destruct o as [i []|[]|[]]; try exact Z.
    + cbn. destruct ok; [destruct (m_canceling s)|]; exact Z.
    + assert (I1 : inv1 (set_ready r s)) by (apply (pop_inv _ r s I R); reflexivity).
      assert (Q : (List.length (m_zones (snd (restartControlLoops b (set_ready r s)))) <= 1)%nat).
      { unfold restartControlLoops. destruct (stopControlLoops _) as [[] s1] eqn:S.
        - apply stop_true_state in S; [|exact I1]. subst. destruct b as [| | |ids good]; [cbn; lia|cbn; lia|cbn; lia|].
          pose proof (nodup_length_le ids) as NL. specialize (HE _ _ _ eq_refl).
          destruct (nodup Z.eq_dec ids) as [|z l]; [cbn; lia|].
          match goal with |- context [start_loops ?zs ?g ?t] => rewrite (start_zones zs g t) end. cbn [m_zones].
          rewrite map_length. lia.
        - apply stop_fail_inv in S; [|exact I1]. destruct S as (_ & _ & ->). exact Z. }
      unfold run_op. destruct (restartControlLoops b _) as [[] s1]; cbn in Q; [exact Q|].
      unfold arm_retry. destruct (m_rtimer s1); exact Q.
    + assert (I1 : inv1 (set_ready r s)) by (apply (pop_inv _ r s I R); reflexivity).
      unfold run_op. destruct (stopControlLoops _) as [[] s1] eqn:S.
      * apply stop_true_state in S; [|exact I1]. subst. cbn. lia.
      * apply stop_fail_inv in S; [|exact I1]. destruct S as (_ & _ & ->). unfold arm_term. destruct (m_ttimer _); exact Z.
Qed.

Lemma run_one evs : forall s, inv_one s -> single_zone evs -> inv_one (main_run evs s).
Proof.
  induction evs as [|e evs IH]; intros s I N; [exact I|]. cbn. apply IH.
  - apply step_one; [exact I|]. intros ok ids good ->. eapply N. left. reflexivity.
  - intros ok ids good H. eapply N. right. exact H.
Qed.

(** Both settings keep the invariant. *)
Lemma run_inv1 evs : no_overlap evs main_init \/ single_zone evs -> inv1 (main_run evs main_init).
Proof.
  intros [H|H]; [apply (run_no evs _ init_no H)|].
  apply (run_one evs main_init); [split; [apply init_inv1|cbn; lia]|exact H].
Qed.
