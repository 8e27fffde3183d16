(** * Proofs about how long stopping takes (C96, C97). *)
From Coq Require Import ZArith Bool List Lia.
From Verif Require Import MainModel SpecMain MainProofs.
Import ListNotations.

(** ** Counting *)

Definition nstarts (l : list main_event) : nat := List.length (filter (fun e => match e with MStarted _ => true | _ => false end) l).
Definition nstops (l : list main_event) : nat := List.length (filter (fun e => match e with MStopped => true | _ => false end) l).
Definition runs_of (e : main_ev) : nat := match e with ERun _ _ => 1 | _ => 0 end.

(** The attempt: a reload ([true]) or the end, and its timer. *)
Definition att (r : bool) : op := if r then ORestart false else OTerminate false.
Definition waits (r : bool) (s : main_st) : bool := if r then m_rtimer s else m_ttimer s.

(** ** Invariants *)

(** Nothing that is or waits for a zone object is newer than the last build; a
    zone's loop waits only on a timer that stopping cancels. *)
Record fit (s : main_st) : Prop := Fit {
  f_armed : forall i, In i (m_armed s) -> (snd i <= m_gen s)%nat;
  f_ready : forall i a, In (OLoop i a) (m_ready s) -> (snd i <= m_gen s)%nat;
  f_zones : forall i, In i (m_zones s) -> (snd i <= m_gen s)%nat;
  f_timers : m_canceling s = false -> forall i, In i (m_zones s) -> In i (m_armed s) \/ In (OLoop i false) (m_ready s) -> In i (m_timers s);
  f_cancel : m_canceling s = true -> forall i, In i (m_zones s) -> ~ In i (m_armed s)
}.
(** The loops of the zones in force have been cancelled. *)
Record hushed (s : main_st) : Prop := Hushed {
  h_armed : forall i, In i (m_zones s) -> ~ In i (m_armed s);
  h_ready : m_canceling s = true \/ forall i a, In i (m_zones s) -> ~ In (OLoop i a) (m_ready s)
}.
(** The attempt is queued behind all handlers of the zones in force, and behind fewer than [n] handlers. *)
Definition behind (r : bool) (n : nat) (s : main_st) : Prop :=
  exists a b, m_ready s = a ++ att r :: b /\ List.length a < n /\ forall i x, In i (m_zones s) -> ~ In (OLoop i x) b.
(** The attempt is queued behind fewer than [n] handlers. *)
Definition queued_at (r : bool) (n : nat) (s : main_st) : Prop :=
  exists a b, m_ready s = a ++ att r :: b /\ List.length a < n.
Definition pend (r : bool) (s : main_st) : Prop := waits r s = true \/ exists n, behind r n s.

Lemma fit_init : fit main_init.
Proof. apply Fit; cbn; intros; try tauto; try discriminate. Qed.

(** ** The parts of a step *)

Lemma start_spec zs : forall good s b s', start_loops zs good s = (b, s') ->
  m_zones s' = m_zones s /\ m_ready s' = m_ready s /\ m_gen s' = m_gen s /\ m_canceling s' = m_canceling s /\
  m_rtimer s' = m_rtimer s /\ m_ttimer s' = m_ttimer s /\ m_stopped s' = m_stopped s /\
  exists k, m_armed s' = m_armed s ++ firstn k zs /\ incl (m_timers s) (m_timers s') /\ incl (firstn k zs) (m_timers s') /\
    m_log s' = rev (map MStarted (firstn k zs)) ++ m_log s.
Proof.
  induction zs as [|z zs IH]; intros good s b s' H; cbn [start_loops] in H.
  - injection H as <- <-. repeat split; auto. exists 0. cbn. rewrite app_nil_r. repeat split; auto; try apply incl_refl. intros ? [].
  - destruct good as [|g].
    + injection H as <- <-. cbn. repeat split; auto. exists 0. cbn. rewrite app_nil_r. repeat split; auto; intros x X; [apply in_or_app; left; exact X|destruct X].
    + apply IH in H. cbn in H. destruct H as (H1 & H2 & H3 & H4 & H5 & H6 & H7 & k & K1 & K2 & K3 & K4).
      repeat split; auto. exists (S k). cbn [firstn map rev].
      split; [rewrite K1, <- app_assoc; reflexivity|]. split; [intros x X; apply K2, in_or_app; left; exact X|].
      split; [|rewrite K4, <- app_assoc; reflexivity].
      intros x [<-|X]; [apply K2, in_or_app; right; left; reflexivity|apply K3, X].
Qed.

Lemma filter_none_length {A} (g : A -> bool) l : (forall x, In x l -> g x = false) -> List.length (filter g l) = 0.
Proof. induction l as [|x l IH]; cbn; intros H; [reflexivity|]. rewrite (H x) by (left; reflexivity). apply IH. intros y Y. apply H. right. exact Y. Qed.

Definition cut (s : main_st) : main_st :=
  MainSt true (m_zones s) [] (filter (fun i => negb (imem i (m_timers s))) (m_armed s))
    (m_ready s ++ map (fun i => OLoop i true) (filter (fun i => imem i (m_armed s)) (m_timers s)))
    (m_rtimer s) (m_ttimer s) (m_gen s) (m_stopped s) (m_log s).
Definition gone (s : main_st) : main_st :=
  MainSt false [] [] (m_armed (cut s)) (m_ready (cut s)) (m_rtimer s) (m_ttimer s) (m_gen s) (m_stopped s) (m_log s).
Lemma stop_cases s b s' : stopControlLoops s = (b, s') ->
  b = false /\ s' = say MStopFailed (cut s) /\ (exists z zr, m_zones s = z :: zr /\ 1 < use_count z (cut s)) \/ b = true /\ s' = say MStopped (gone s).
Proof.
  unfold stopControlLoops. cbn [m_zones]. fold (cut s). destruct (m_zones s) as [|z zr] eqn:Z.
  - intros H. injection H as <- <-. right. split; [reflexivity|]. unfold gone, cut, say. cbn. reflexivity.
  - destruct (1 <? _) eqn:U; intros H; injection H as <- <-.
    + left. split; [reflexivity|]. split; [unfold cut; rewrite Z; reflexivity|]. exists z, zr. split; [reflexivity|].
      apply Nat.ltb_lt in U. unfold cut. rewrite Z. exact U.
    + right. split; reflexivity.
Qed.

Lemma cut_armed s i : In i (m_armed (cut s)) <-> In i (m_armed s) /\ ~ In i (m_timers s).
Proof.
  cbn. rewrite filter_In. destruct (imem i (m_timers s)) eqn:M; cbn.
  - apply imem_In in M. split; [intros (_ & X); discriminate X|tauto].
  - split; [intros (A & _); split; [exact A|]; intros T; apply imem_In in T; congruence|tauto].
Qed.
Lemma cut_ready s o : In o (m_ready (cut s)) -> In o (m_ready s) \/ exists i, o = OLoop i true /\ In i (m_armed s) /\ In i (m_timers s).
Proof.
  cbn. intros H. apply in_app_or in H. destruct H as [H|H]; [left; exact H|right].
  apply in_map_iff in H. destruct H as (i & <- & H). apply filter_In in H. destruct H as (T & A). apply imem_In in A. exists i. auto.
Qed.

(** ** [fit] *)

Lemma fit_same s s' : fit s -> m_armed s' = m_armed s -> (forall i a, In (OLoop i a) (m_ready s') -> In (OLoop i a) (m_ready s)) ->
  m_zones s' = m_zones s -> m_timers s' = m_timers s -> m_canceling s' = m_canceling s -> m_gen s' = m_gen s -> fit s'.
Proof.
  intros [A R Z T C] Ea Er Ez Et Ec Eg. apply Fit; rewrite ?Ea, ?Ez, ?Et, ?Ec, ?Eg.
  - exact A.
  - intros i a X. exact (R i a (Er _ _ X)).
  - exact Z.
  - intros N i I [X|X]; [apply T; auto|apply T; auto].
  - exact C.
Qed.
Lemma fit_cut s : fit s -> fit (cut s).
Proof.
  intros [A R Z T C]. apply Fit.
  - intros i X. apply cut_armed in X. apply A, X.
  - intros i a X. apply cut_ready in X. destruct X as [X|(j & E & X & _)]; [exact (R _ _ X)|injection E as -> _; apply A, X].
  - exact Z.
  - discriminate.
  - intros _ i I X. apply cut_armed in X. destruct X as (X & N). destruct (m_canceling s) eqn:E; [exact (C eq_refl i I X)|].
    apply N, T; auto.
Qed.
Lemma fit_gone s : fit s -> fit (gone s).
Proof. intros H. apply fit_cut in H. destruct H as [A R Z T C]. apply Fit; cbn; [exact A|exact R|intros ? []|intros _ ? []|discriminate]. Qed.
Lemma fit_say e s : fit s -> fit (say e s).
Proof. intros H. apply (fit_same s); auto. Qed.
Lemma fit_quit s : fit s -> fit (quit s).
Proof. intros H. apply (fit_same s); auto. Qed.
Lemma fit_enqueue o s : fit s -> (forall i a, o <> OLoop i a) -> fit (enqueue o s).
Proof.
  intros H N. apply (fit_same s); auto. cbn. intros i a X. apply in_app_or in X. destruct X as [X|[X|[]]]; [exact X|].
  exfalso. exact (N _ _ X).
Qed.
Lemma fit_retry a b s : fit s -> fit (set_retry a b s).
Proof. intros H. apply (fit_same s); auto. Qed.
Lemma fit_arm_retry s : fit s -> fit (arm_retry s).
Proof. intros H. unfold arm_retry. apply fit_retry. destruct (m_rtimer s); [apply fit_enqueue; [exact H|discriminate]|exact H]. Qed.
Lemma fit_arm_term s : fit s -> fit (arm_term s).
Proof. intros H. unfold arm_term. apply fit_retry. destruct (m_ttimer s); [apply fit_enqueue; [exact H|discriminate]|exact H]. Qed.
Lemma fit_pop o r s : fit s -> m_ready s = o :: r -> fit (set_ready r s).
Proof. intros H R. apply (fit_same s); auto. cbn. intros i a X. rewrite R. right. exact X. Qed.

(** The zones just built. *)
Definition fresh (s : main_st) (zs : list inst) : main_st :=
  MainSt (m_canceling s) zs (m_timers s) (m_armed s) (m_ready s) (m_rtimer s) (m_ttimer s) (S (m_gen s)) (m_stopped s) (m_log s).
Lemma new_zone g ids i : In i (map (fun z : Z => (z, S g)) ids) -> snd i = S g.
Proof. intros H. apply in_map_iff in H. destruct H as (z & <- & _). reflexivity. Qed.
Lemma firstn_in {A} (x : A) k l : In x (firstn k l) -> In x l.
Proof. revert l. induction k as [|k IH]; intros [|y l]; cbn; try tauto. intros [H|H]; auto. Qed.
Lemma fit_start s ids good b s' : fit s -> m_canceling s = false ->
  start_loops (map (fun z => (z, S (m_gen s))) ids) good (fresh s (map (fun z => (z, S (m_gen s))) ids)) = (b, s') -> fit s'.
Proof.
  intros [A R Z T C] Nc H. apply start_spec in H. destruct H as (H1 & H2 & H3 & H4 & _ & _ & _ & k & K1 & _ & K3 & _). cbn in *.
  apply Fit; rewrite ?H1, ?H2, ?H3, ?H4, ?K1.
  - intros i X. apply in_app_or in X. destruct X as [X|X]; [specialize (A i X); lia|]. apply firstn_in, new_zone in X. lia.
  - intros i a X. specialize (R _ _ X). lia.
  - intros i X. apply new_zone in X. lia.
  - intros _ i X Y. apply new_zone in X. destruct Y as [Y|Y].
    + apply in_app_or in Y. destruct Y as [Y|Y]; [specialize (A i Y); lia|]. apply K3, Y.
    + specialize (R _ _ Y). lia.
  - rewrite Nc. discriminate.
Qed.

Lemma remove_first_in j i l : In j (remove_first i l) -> In j l.
Proof. induction l as [|x l IH]; cbn; [tauto|]. destruct (inst_eqb i x); [right; assumption|]. intros [H|H]; auto. Qed.

(** What a restart does, by cases. *)
Lemma restart_cases b s q s' : restartControlLoops b s = (q, s') ->
  (q = false /\ s' = say MStopFailed (cut s) /\ exists x, stopControlLoops s = (false, x)) \/
  s' = say MStopped (gone s) \/ s' = quit (say MStopped (gone s)) \/
  exists ids good, start_loops (map (fun z => (z, S (m_gen s))) ids) good (fresh (say MStopped (gone s)) (map (fun z => (z, S (m_gen s))) ids)) = (q, s').
Proof.
  unfold restartControlLoops. destruct (stopControlLoops s) as (c & s1) eqn:S1. pose proof S1 as S0. apply stop_cases in S1.
  destruct S1 as [(-> & -> & U)|(-> & ->)].
  - intros H. injection H as <- <-. left. eauto.
  - intros H. right. destruct b as [| | |ids good].
    + injection H as _ <-. left. reflexivity.
    + injection H as _ <-. right. left. reflexivity.
    + injection H as _ <-. left. reflexivity.
    + destruct (nodup Z.eq_dec ids) as [|z zr] eqn:N; [injection H as _ <-; right; left; reflexivity|].
      right. right. exists (z :: zr), good. exact H.
Qed.

Lemma fit_step s e : fit s -> fit (main_step s e).
Proof.
  intros H. unfold main_step. destruct (m_stopped s) eqn:St; [exact H|]. destruct e as [i| | | | |ok b].
  - destruct (imem i (m_armed s)) eqn:M; [|exact H]. apply imem_In in M. destruct H as [A R Z T C]. apply Fit; cbn.
    + intros j X. apply A, (remove_first_in _ _ _ X).
    + intros j a X. apply in_app_or in X. destruct X as [X|[X|[]]]; [exact (R _ _ X)|injection X as <- _; apply A, M].
    + exact Z.
    + intros N j I X. apply T; [exact N|exact I|]. destruct X as [X|X]; [left; exact (remove_first_in _ _ _ X)|].
      apply in_app_or in X. destruct X as [X|[X|[]]]; [right; exact X|]. injection X as <-. left. exact M.
    + intros N j I X. exact (C N j I (remove_first_in _ _ _ X)).
  - destruct (m_rtimer s); [|exact H]. apply fit_enqueue; [apply fit_retry, H|discriminate].
  - destruct (m_ttimer s); [|exact H]. apply fit_enqueue; [apply fit_retry, H|discriminate].
  - apply fit_enqueue; [exact H|discriminate].
  - apply fit_enqueue; [exact H|discriminate].
  - destruct (m_ready s) as [|o r] eqn:R; [exact H|]. pose proof (fit_pop _ _ _ H R) as P.
    destruct o as [i []|[]|[]]; try exact P; cbn [run_op].
    + destruct ok; [|apply fit_quit, fit_say, P]. cbn. destruct (m_canceling s) eqn:Cn; [apply fit_say, P|].
      destruct H as [A Rd Z T C]. assert (Gi : (snd i <= m_gen s)%nat) by (apply (Rd i false); rewrite R; left; reflexivity).
      assert (Rr : forall j a, In (OLoop j a) r -> In (OLoop j a) (m_ready s)) by (intros j a X; rewrite R; right; exact X).
      apply Fit; cbn.
      * intros j X. apply in_app_or in X. destruct X as [X|[<-|[]]]; [apply A, X|exact Gi].
      * intros j a X. exact (Rd _ _ (Rr _ _ X)).
      * exact Z.
      * intros _ j I X. apply T; [exact Cn|exact I|]. destruct X as [X|X]; [|right; apply Rr, X].
        apply in_app_or in X. destruct X as [X|[<-|[]]]; [left; exact X|]. right. rewrite R. left. reflexivity.
      * rewrite Cn. discriminate.
    + destruct (restartControlLoops b (set_ready r s)) as (q & s1) eqn:E. assert (F1 : fit s1).
      { apply restart_cases in E. destruct E as [(_ & -> & _)|[->|[->|(ids & good & E)]]].
        - apply fit_say, fit_cut, P.
        - apply fit_say, fit_gone, P.
        - apply fit_quit, fit_say, fit_gone, P.
        - exact (fit_start (say MStopped (gone (set_ready r s))) ids good q s1 (fit_say _ _ (fit_gone _ P)) eq_refl E). }
      destruct q; [exact F1|apply fit_arm_retry, F1].
    + destruct (stopControlLoops (set_ready r s)) as (q & s1) eqn:E. apply stop_cases in E.
      destruct E as [(-> & -> & _)|(-> & ->)]; [apply fit_arm_term, fit_say, fit_cut, P|apply fit_quit, fit_say, fit_gone, P].
Qed.
Lemma fit_run evs : forall s, fit s -> fit (main_run evs s).
Proof. induction evs as [|e r IH]; intros s H; [exact H|]. apply IH, fit_step, H. Qed.

(** ** The log *)

Lemma restart_log b s q s' : restartControlLoops b s = (q, s') -> exists h, m_log s' = h ++ m_log s /\ (nstarts h <> 0 -> nstops h <> 0).
Proof.
  intros E. apply restart_cases in E. destruct E as [(_ & -> & _)|[->|[->|(ids & good & E)]]].
  - exists [MStopFailed]. split; [reflexivity|]. cbn. tauto.
  - exists [MStopped]. split; [reflexivity|]. discriminate.
  - exists [MExit; MStopped]. split; [reflexivity|]. discriminate.
  - apply start_spec in E. destruct E as (_ & _ & _ & _ & _ & _ & _ & k & _ & _ & _ & L). cbn in L.
    eexists (_ ++ [MStopped]). rewrite <- app_assoc. split; [exact L|]. intros _. unfold nstops. rewrite filter_app, app_length. cbn. lia.
Qed.
Lemma arm_retry_log' s : m_log (arm_retry s) = m_log s.
Proof. unfold arm_retry. destruct (m_rtimer s); reflexivity. Qed.
Lemma arm_term_log' s : m_log (arm_term s) = m_log s.
Proof. unfold arm_term. destruct (m_ttimer s); reflexivity. Qed.
Lemma step_log s e : exists h, m_log (main_step s e) = h ++ m_log s /\ (nstarts h <> 0 -> nstops h <> 0).
Proof.
  assert (E0 : exists h, m_log s = h ++ m_log s /\ (nstarts h <> 0 -> nstops h <> 0)) by (exists []; split; [reflexivity|cbn; tauto]).
  unfold main_step. destruct (m_stopped s); [exact E0|]. destruct e as [i| | | | |ok b]; try exact E0.
  - destruct (imem _ _); exact E0.
  - destruct (m_rtimer s); exact E0.
  - destruct (m_ttimer s); exact E0.
  - destruct (m_ready s) as [|o r]; [exact E0|]. destruct o as [i []|[]|[]]; try exact E0; cbn [run_op].
    + destruct ok; [destruct (m_canceling _)|].
      * exists [MRan i]. split; [reflexivity|cbn; tauto].
      * exists [MRan i]. split; [reflexivity|cbn; tauto].
      * exists [MExit; MRan i]. split; [reflexivity|cbn; tauto].
    + destruct (restartControlLoops b (set_ready r s)) as (q & s1) eqn:E. apply restart_log in E. cbn in E.
      destruct q; [exact E|rewrite arm_retry_log'; exact E].
    + destruct (stopControlLoops (set_ready r s)) as (q & s1) eqn:E. apply stop_cases in E.
      destruct E as [(-> & -> & _)|(-> & ->)].
      * rewrite arm_term_log'. exists [MStopFailed]. split; [reflexivity|cbn; tauto].
      * exists [MExit; MStopped]. split; [reflexivity|discriminate].
Qed.

(** ** One step while stopping *)

Lemma nstarts_app a b : nstarts (a ++ b) = nstarts a + nstarts b.
Proof. unfold nstarts. rewrite filter_app, app_length. reflexivity. Qed.
Lemma nstops_app a b : nstops (a ++ b) = nstops a + nstops b.
Proof. unfold nstops. rewrite filter_app, app_length. reflexivity. Qed.

(** The attempt is over: the daemon has ended, or its loops were stopped for a reload. *)
Definition over (r : bool) (s s' : main_st) : Prop := m_stopped s' = true \/ r = true /\ nstops (m_log s) < nstops (m_log s').

(** Appending to the queue. *)
Lemma behind_app r n s s' l : behind r n s -> m_ready s' = m_ready s ++ l -> m_zones s' = m_zones s ->
  (forall i x, In i (m_zones s) -> ~ In (OLoop i x) l) -> behind r n s'.
Proof.
  intros (a & b & R & L & B) E Ez Nl. exists a, (b ++ l). rewrite E, R, <- app_assoc. split; [reflexivity|]. split; [exact L|].
  rewrite Ez. intros i x I X. apply in_app_or in X. destruct X as [X|X]; [exact (B _ _ I X)|exact (Nl _ _ I X)].
Qed.
(** A handler is taken from the queue: it is the attempt itself, or the attempt moves up. *)
Lemma behind_pop r n s o q : behind r n s -> m_ready s = o :: q ->
  o = att r /\ (forall i x, In i (m_zones s) -> ~ In (OLoop i x) q) \/
  forall s' l, m_ready s' = q ++ l -> (forall i, In i (m_zones s') -> In i (m_zones s) \/ forall x, ~ In (OLoop i x) q) ->
    (forall i x, In i (m_zones s') -> ~ In (OLoop i x) l) -> behind r (n - 1) s'.
Proof.
  intros (a & b & R & L & B) R0. rewrite R in R0. destruct a as [|y a]; injection R0 as -> R1.
  - left. subst q. auto.
  - right. intros s' l E Z Nl. exists a, (b ++ l). rewrite E, <- R1, <- app_assoc. split; [reflexivity|]. split; [cbn in L; lia|].
    intros i x I X. apply in_app_or in X. destruct X as [X|X]; [|exact (Nl _ _ I X)].
    destruct (Z _ I) as [Y|Y]; [exact (B _ _ Y X)|]. apply (Y x). rewrite <- R1. apply in_or_app. right. right. exact X.
Qed.
Lemma behind_le r n m s : behind r n s -> n <= m -> behind r m s.
Proof. intros (a & b & R & L & B) H. exists a, b. split; [exact R|]. split; [lia|exact B]. Qed.

(** The attempt succeeds if no handler of a zone is left. *)
Lemma stop_free s : fit s -> (forall i, In i (m_zones s) -> ~ In i (m_armed s)) ->
  (forall i x, In i (m_zones s) -> ~ In (OLoop i x) (m_ready s)) -> stopControlLoops s = (true, say MStopped (gone s)).
Proof.
  intros F A R. destruct (stopControlLoops s) as (c & s1) eqn:E. apply stop_cases in E.
  destruct E as [(-> & -> & (z & zr & Z & U))|(-> & ->)]; [|reflexivity]. exfalso.
  assert (Iz : In z (m_zones s)) by (rewrite Z; left; reflexivity).
  unfold use_count in U. rewrite !filter_none_length in U; [lia| |].
  - intros o O. apply cut_ready in O. destruct o as [j a| |]; try reflexivity. destruct (is_loop_of z (OLoop j a)) eqn:Q; [|reflexivity].
    apply inst_eqb_eq in Q. subst j. destruct O as [O|(j & O & J & _)]; [elim (R _ _ Iz O)|]. injection O as <- _. elim (A _ Iz J).
  - intros j O. apply cut_armed in O. destruct (inst_eqb z j) eqn:Q; [|reflexivity]. apply inst_eqb_eq in Q. subst j. elim (A _ Iz (proj1 O)).
Qed.


(** ** One step *)

(** From [s] to [s'], with [n] handlers run. *)
Definition goes_on (r : bool) (s s' : main_st) (n : nat) : Prop :=
  hushed s' /\ (forall m, behind r m s -> over r s s' \/ behind r (m - n) s') /\
  (waits r s = true -> waits r s' = true \/ behind r (S (List.length (m_ready s))) s').

Lemma goes_append r s s' l : hushed s -> m_zones s' = m_zones s -> m_canceling s' = m_canceling s -> incl (m_armed s') (m_armed s) ->
  m_ready s' = m_ready s ++ l -> (forall i x, In i (m_zones s) -> ~ In (OLoop i x) l) ->
  (waits r s = true -> waits r s' = true \/ l = [att r]) -> goes_on r s s' 0.
Proof.
  intros [A R] Ez Ec Ia Er Nl W. split; [|split].
  - apply Hushed; rewrite Ez, ?Ec, ?Er.
    + intros i I X. exact (A i I (Ia _ X)).
    + destruct R as [R|R]; [left; exact R|right]. intros i a I X. apply in_app_or in X. destruct X as [X|X]; [exact (R _ _ I X)|exact (Nl _ _ I X)].
  - intros m B. right. rewrite Nat.sub_0_r. exact (behind_app _ _ _ _ _ B Er Ez Nl).
  - intros Hw. destruct (W Hw) as [X|X]; [left; exact X|right]. exists (m_ready s), []. subst l. split; [exact Er|]. split; [lia|]. intros i x _ [].
Qed.
Lemma goes_pop r s s' o q l : m_ready s = o :: q -> hushed s' -> m_ready s' = q ++ l ->
  (forall i, In i (m_zones s') -> In i (m_zones s) \/ forall x, ~ In (OLoop i x) q) -> (forall i x, In i (m_zones s') -> ~ In (OLoop i x) l) ->
  (o = att r -> (forall i x, In i (m_zones s) -> ~ In (OLoop i x) q) -> over r s s') ->
  (waits r s = true -> waits r s' = true) -> goes_on r s s' 1.
Proof.
  intros R0 H Er Z Nl Ov W. split; [exact H|]. split; [|intros Hw; left; exact (W Hw)].
  intros m B. destruct (behind_pop _ _ _ _ _ B R0) as [(E & N)|T]; [left; exact (Ov E N)|right; exact (T _ _ Er Z Nl)].
Qed.

(** The handlers that stopping cancels are none of a zone in force. *)
Lemma hits_free s i x : (forall i, In i (m_zones s) -> ~ In i (m_armed s)) -> In i (m_zones s) ->
  ~ In (OLoop i x) (map (fun i => OLoop i true) (filter (fun i => imem i (m_armed s)) (m_timers s))).
Proof.
  intros A I X. apply in_map_iff in X. destruct X as (j & E & X). injection E as -> _. apply filter_In in X. destruct X as (_ & X).
  apply imem_In in X. exact (A _ I X).
Qed.

Lemma arm_retry_facts s : m_zones (arm_retry s) = m_zones s /\ m_canceling (arm_retry s) = m_canceling s /\ m_armed (arm_retry s) = m_armed s /\
  (exists l, m_ready (arm_retry s) = m_ready s ++ l /\ forall i x, ~ In (OLoop i x) l) /\
  m_rtimer (arm_retry s) = true /\ m_ttimer (arm_retry s) = m_ttimer s /\ m_log (arm_retry s) = m_log s /\ m_stopped (arm_retry s) = m_stopped s.
Proof.
  unfold arm_retry. destruct (m_rtimer s); repeat split; cbn.
  - exists [ORestart true]. split; [reflexivity|]. intros i x [X|[]]. discriminate X.
  - exists []. rewrite app_nil_r. split; [reflexivity|]. intros i x [].
Qed.
Lemma arm_term_facts s : m_zones (arm_term s) = m_zones s /\ m_canceling (arm_term s) = m_canceling s /\ m_armed (arm_term s) = m_armed s /\
  (exists l, m_ready (arm_term s) = m_ready s ++ l /\ forall i x, ~ In (OLoop i x) l) /\
  m_rtimer (arm_term s) = m_rtimer s /\ m_ttimer (arm_term s) = true /\ m_log (arm_term s) = m_log s /\ m_stopped (arm_term s) = m_stopped s.
Proof.
  unfold arm_term. destruct (m_ttimer s); repeat split; cbn.
  - exists [OTerminate true]. split; [reflexivity|]. intros i x [X|[]]. discriminate X.
  - exists []. rewrite app_nil_r. split; [reflexivity|]. intros i x [].
Qed.

(** An attempt that fails. *)
Lemma goes_fail r s s' o q l : fit s -> hushed s -> m_ready s = o :: q -> (exists x, stopControlLoops (set_ready q s) = (false, x)) ->
  m_zones s' = m_zones s -> m_canceling s' = true -> m_armed s' = m_armed (cut (set_ready q s)) ->
  m_ready s' = m_ready (cut (set_ready q s)) ++ l -> (forall i x, ~ In (OLoop i x) l) ->
  (waits r s = true -> waits r s' = true) -> goes_on r s s' 1.
Proof.
  intros F H R0 (x0 & U) Ez Ec Ea Er Nl W. pose proof (fit_pop _ _ _ F R0) as Fp. destruct H as [A R].
  apply (goes_pop r s s' o q (map (fun i => OLoop i true) (filter (fun i => imem i (m_armed s)) (m_timers s)) ++ l) R0).
  - apply Hushed; [|left; exact Ec]. rewrite Ez, Ea. exact (f_cancel _ (fit_cut _ Fp) eq_refl).
  - rewrite Er. cbn. rewrite <- app_assoc. reflexivity.
  - intros i I. left. rewrite <- Ez. exact I.
  - intros i x I X. rewrite Ez in I. apply in_app_or in X. destruct X as [X|X]; [exact (hits_free s i x A I X)|exact (Nl _ _ X)].
  - intros _ N. exfalso. rewrite (stop_free (set_ready q s) Fp A N) in U. discriminate U.
  - exact W.
Qed.

(** The loops of a reload: no loop is started. *)
Lemma goes_fresh s s' o q l zs : fit s -> m_ready s = o :: q -> o = ORestart false ->
  (forall i, In i zs -> snd i = S (m_gen s)) -> m_zones s' = zs -> m_armed s' = m_armed (gone (set_ready q s)) ->
  m_ready s' = m_ready (gone (set_ready q s)) ++ l -> (forall i x, ~ In (OLoop i x) l) -> m_ttimer s' = m_ttimer s -> goes_on false s s' 1.
Proof.
  intros F R0 -> Zs Ez Ea Er Nl W. pose proof (fit_gone _ (fit_pop _ _ _ F R0)) as Fg.
  assert (Ng : forall i x, In i zs -> ~ In (OLoop i x) (m_ready s')).
  { intros i x I X. rewrite Er in X. apply in_app_or in X. destruct X as [X|X]; [|exact (Nl _ _ X)].
    pose proof (f_ready _ Fg _ _ X) as L. cbn in L. rewrite (Zs _ I) in L. lia. }
  apply (goes_pop false s s' (ORestart false) q (map (fun i => OLoop i true) (filter (fun i => imem i (m_armed s)) (m_timers s)) ++ l) R0).
  - apply Hushed; rewrite Ez.
    + intros i I X. rewrite Ea in X. pose proof (f_armed _ Fg _ X) as L. cbn in L. rewrite (Zs _ I) in L. lia.
    + right. intros i a I. exact (Ng _ _ I).
  - rewrite Er. cbn. rewrite <- app_assoc. reflexivity.
  - intros i I. right. intros x X. rewrite Ez in I. apply (Ng i x I). rewrite Er. cbn. rewrite <- app_assoc. apply in_or_app. left. exact X.
  - intros i x I X. rewrite Ez in I. apply (Ng i x I). rewrite Er. cbn. rewrite <- app_assoc. apply in_or_app. right. exact X.
  - discriminate.
  - cbn. rewrite W. auto.
Qed.

Lemma stop_step r s e : fit s -> hushed s -> m_stopped s = false -> nstarts (m_log (main_step s e)) = nstarts (m_log s) ->
  over r s (main_step s e) \/ goes_on r s (main_step s e) (runs_of e).
Proof.
  intros F H St Ns. pose proof H as [A R]. unfold main_step in *. rewrite St in *. destruct e as [i| | | | |ok b]; cbn [runs_of].
  - right. destruct (imem i (m_armed s)) eqn:M.
    + apply imem_In in M. apply (goes_append r s _ [OLoop i false]); auto.
      * intros j X. cbn in X. exact (remove_first_in _ _ _ X).
      * intros j x I [X|[]]. injection X as <- _. exact (A _ I M).
    + apply (goes_append r s _ []); auto; [apply incl_refl|rewrite app_nil_r; reflexivity].
  - right. destruct (m_rtimer s) eqn:M.
    + apply (goes_append r s _ [ORestart false]); auto; [apply incl_refl|intros j x _ [X|[]]; discriminate X|].
      destruct r; cbn; auto.
    + apply (goes_append r s _ []); auto; [apply incl_refl|rewrite app_nil_r; reflexivity].
  - right. destruct (m_ttimer s) eqn:M.
    + apply (goes_append r s _ [OTerminate false]); auto; [apply incl_refl|intros j x _ [X|[]]; discriminate X|].
      destruct r; cbn; auto.
    + apply (goes_append r s _ []); auto; [apply incl_refl|rewrite app_nil_r; reflexivity].
  - right. apply (goes_append r s _ [ORestart false]); auto; [apply incl_refl|]. intros j x _ [X|[]]. discriminate X.
  - right. apply (goes_append r s _ [OTerminate false]); auto; [apply incl_refl|]. intros j x _ [X|[]]. discriminate X.
  - destruct (m_ready s) as [|o q] eqn:R0.
    + right. split; [exact H|]. split; [|auto]. intros m (a & b' & E & _). rewrite R0 in E. destruct a; discriminate E.
    + assert (Hp : hushed (set_ready q s)).
      { apply Hushed; [exact A|]. destruct R as [R|R]; [left; exact R|right]. intros i a I X. apply (R i a I). right. exact X. }
      assert (Pop : o <> att r -> goes_on r s (set_ready q s) 1).
      { intros No. apply (goes_pop r s _ o q [] R0 Hp); auto; [cbn; rewrite app_nil_r; reflexivity|]. intros E. elim (No E). }
      destruct o as [i []|[]|[]]; cbn [run_op] in *; try (right; apply Pop; destruct r; discriminate).
      * destruct ok; [|left; left; reflexivity]. right. cbn [m_canceling say set_ready]. destruct (m_canceling s) eqn:C.
        -- apply (goes_pop r s _ (OLoop i false) q [] R0); auto; [apply Hushed; [exact A|left; exact C]|cbn; rewrite app_nil_r; reflexivity|].
           destruct r; discriminate.
        -- destruct R as [R|R]; [discriminate R|]. assert (Ni : ~ In i (m_zones s)) by (intros I; apply (R i false I); left; reflexivity).
           apply (goes_pop r s _ (OLoop i false) q [] R0); auto; [|cbn; rewrite app_nil_r; reflexivity|destruct r; discriminate].
           apply Hushed; cbn.
           ++ intros j I X. apply in_app_or in X. destruct X as [X|[<-|[]]]; [exact (A _ I X)|exact (Ni I)].
           ++ right. intros j a I X. apply (R j a I). right. exact X.
      * destruct (restartControlLoops b (set_ready q s)) as (c & s1) eqn:E. apply restart_cases in E.
        destruct E as [(-> & -> & U)|[->|[->|(ids & good & E)]]].
        -- right. destruct (arm_retry_facts (say MStopFailed (cut (set_ready q s)))) as (F1 & F2 & F3 & (l & F4 & F5) & F6 & F7 & _).
           apply (goes_fail r s _ (ORestart false) q l F H R0 U F1 F2 F3 F4 F5).
           destruct r; cbn [waits]; [intros _; exact F6|rewrite F7; auto].
        -- destruct r; [left; right; split; [reflexivity|]; destruct c; rewrite ?arm_retry_log'; cbn; unfold nstops; cbn; lia|]. right.
           destruct c.
           ++ apply (goes_fresh s _ _ q [] [] F R0 eq_refl); auto; [intros i []|rewrite app_nil_r; reflexivity].
           ++ destruct (arm_retry_facts (say MStopped (gone (set_ready q s)))) as (F1 & F2 & F3 & (l & F4 & F5) & F6 & F7 & _).
              apply (goes_fresh s _ _ q l [] F R0 eq_refl); auto. intros i [].
        -- left. left. destruct c; [reflexivity|]. destruct (arm_retry_facts (quit (say MStopped (gone (set_ready q s))))) as (_ & _ & _ & _ & _ & _ & _ & X). rewrite X. reflexivity.
        -- apply start_spec in E. destruct E as (E1 & E2 & E3 & E4 & E5 & E6 & E7 & k & K1 & _ & _ & K4). cbn in K4.
           destruct r.
           { left. right. split; [reflexivity|]. assert (X : nstops (m_log s) < nstops (m_log s1)).
             { rewrite K4, nstops_app. cbn. unfold nstops. cbn. lia. }
             destruct c; rewrite ?arm_retry_log'; exact X. }
           right. assert (N1 : nstarts (m_log s1) = nstarts (m_log s)) by (destruct c; [exact Ns|rewrite arm_retry_log' in Ns; exact Ns]).
           rewrite K4, nstarts_app in N1. assert (Ek : firstn k (map (fun z => (z, S (m_gen s))) ids) = []).
           { destruct (firstn k _) as [|y t]; [reflexivity|]. exfalso. cbn [map rev] in N1. rewrite nstarts_app in N1. unfold nstarts in N1. cbn in N1. lia. }
           change (m_armed s1 = m_armed (gone (set_ready q s)) ++ firstn k (map (fun z => (z, S (m_gen s))) ids)) in K1. rewrite Ek in K1. assert (Zs : forall i, In i (map (fun z => (z, S (m_gen s))) ids) -> snd i = S (m_gen s)) by (intros i; apply new_zone).
           destruct c.
           ++ apply (goes_fresh s _ _ q [] _ F R0 eq_refl Zs); [exact E1|rewrite K1, app_nil_r; reflexivity|rewrite E2, app_nil_r; reflexivity|auto|exact E6].
           ++ destruct (arm_retry_facts s1) as (F1 & F2 & F3 & (l & F4 & F5) & F6 & F7 & _).
              apply (goes_fresh s _ _ q l _ F R0 eq_refl Zs); [rewrite F1; exact E1|rewrite F3, K1, app_nil_r; reflexivity|rewrite F4, E2; reflexivity|exact F5|rewrite F7; exact E6].
      * destruct (stopControlLoops (set_ready q s)) as (c & s1) eqn:E. pose proof E as U. apply stop_cases in E.
        destruct E as [(-> & -> & _)|(-> & ->)]; [|left; left; reflexivity]. right.
        destruct (arm_term_facts (say MStopFailed (cut (set_ready q s)))) as (F1 & F2 & F3 & (l & F4 & F5) & F6 & F7 & _).
        apply (goes_fail r s _ (OTerminate false) q l F H R0 (ex_intro _ _ U) F1 F2 F3 F4 F5).
        destruct r; cbn [waits]; [rewrite F6; auto|intros _; exact F7].
Qed.

(** Before the first attempt: it moves up the queue, then it runs. *)
Lemma first_step r s e n : fit s -> m_stopped s = false -> queued_at r n s ->
  over r s (main_step s e) \/ hushed (main_step s e) /\ pend r (main_step s e) \/ queued_at r (n - runs_of e) (main_step s e).
Proof.
  intros F St (a & b & E & L). unfold main_step. rewrite St.
  assert (App : forall s' l, m_ready s' = m_ready s ++ l -> queued_at r (n - 0) s').
  { intros s' l E'. exists a, (b ++ l). rewrite E', E, <- app_assoc. split; [reflexivity|lia]. }
  destruct e as [i| | | | |ok bd]; cbn [runs_of].
  - right. right. destruct (imem _ _); [apply (App _ [OLoop i false]); reflexivity|apply (App _ []); rewrite app_nil_r; reflexivity].
  - right. right. destruct (m_rtimer s); [apply (App _ [ORestart false]); reflexivity|apply (App _ []); rewrite app_nil_r; reflexivity].
  - right. right. destruct (m_ttimer s); [apply (App _ [OTerminate false]); reflexivity|apply (App _ []); rewrite app_nil_r; reflexivity].
  - right. right. apply (App _ [ORestart false]). reflexivity.
  - right. right. apply (App _ [OTerminate false]). reflexivity.
  - rewrite E. destruct a as [|o a]; cbn [List.app].
    + pose proof (fit_pop _ _ _ F E) as Fp. destruct r; cbn [att run_op].
      * destruct (restartControlLoops bd (set_ready b s)) as (c & s1) eqn:X. apply restart_cases in X.
        destruct X as [(-> & -> & U)|[->|[->|(ids & good & X)]]].
        -- right. left. destruct (arm_retry_facts (say MStopFailed (cut (set_ready b s)))) as (F1 & F2 & F3 & _ & F6 & _).
           split; [|left; exact F6]. apply Hushed; [|left; exact F2]. rewrite F1, F3. exact (f_cancel _ (fit_cut _ Fp) eq_refl).
        -- left. right. split; [reflexivity|]. destruct c; rewrite ?arm_retry_log'; cbn; unfold nstops; cbn; lia.
        -- left. left. destruct c; [reflexivity|]. destruct (arm_retry_facts (quit (say MStopped (gone (set_ready b s))))) as (_ & _ & _ & _ & _ & _ & _ & Y). rewrite Y. reflexivity.
        -- left. right. split; [reflexivity|]. apply start_spec in X. destruct X as (_ & _ & _ & _ & _ & _ & _ & k & _ & _ & _ & K4). cbn in K4.
           assert (Y : nstops (m_log s) < nstops (m_log s1)) by (rewrite K4, nstops_app; cbn; unfold nstops; cbn; lia).
           destruct c; rewrite ?arm_retry_log'; exact Y.
      * destruct (stopControlLoops (set_ready b s)) as (c & s1) eqn:X. apply stop_cases in X.
        destruct X as [(-> & -> & U)|(-> & ->)]; [|left; left; reflexivity]. right. left.
        destruct (arm_term_facts (say MStopFailed (cut (set_ready b s)))) as (F1 & F2 & F3 & _ & _ & F7 & _).
        split; [|left; exact F7]. apply Hushed; [|left; exact F2]. rewrite F1, F3. exact (f_cancel _ (fit_cut _ Fp) eq_refl).
    + right. right. cbn in L.
      assert (Tl : forall s' l, m_ready s' = (a ++ att r :: b) ++ l -> queued_at r (n - 1) s').
      { intros s' l E'. exists a, (b ++ l). rewrite E', <- app_assoc. split; [reflexivity|lia]. }
      destruct o as [i []|[]|[]]; cbn [run_op]; try (apply (Tl _ []); rewrite app_nil_r; reflexivity).
      * destruct ok; [destruct (m_canceling _)|]; apply (Tl _ []); rewrite app_nil_r; reflexivity.
      * destruct (restartControlLoops bd _) as (c & s1) eqn:X.
        assert (Y : exists l, m_ready s1 = (a ++ att r :: b) ++ l).
        { apply restart_cases in X. destruct X as [(-> & -> & U)|[->|[->|(ids & good & X)]]]; [eexists; reflexivity..|].
          apply start_spec in X. destruct X as (_ & X & _). eexists. exact X. }
        destruct Y as (l & Y). destruct c; [exact (Tl _ _ Y)|]. destruct (arm_retry_facts s1) as (_ & _ & _ & (l' & Z & _) & _).
        apply (Tl _ (l ++ l')). rewrite Z, Y, <- app_assoc. reflexivity.
      * destruct (stopControlLoops _) as (c & s1) eqn:X. apply stop_cases in X. destruct X as [(-> & -> & U)|(-> & ->)].
        -- destruct (arm_term_facts (say MStopFailed (cut (set_ready (a ++ att r :: b) s)))) as (_ & _ & _ & (l' & Z & _) & _).
           apply (Tl _ (map (fun i => OLoop i true) (filter (fun i => imem i (m_armed s)) (m_timers s)) ++ l')). rewrite Z. cbn. rewrite <- !app_assoc. reflexivity.
        -- eapply Tl. reflexivity.
Qed.
