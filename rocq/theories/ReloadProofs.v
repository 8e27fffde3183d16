(** * Proofs about reload requests (C81, C82). *)
From Coq Require Import ZArith Bool List String Ascii Arith Lia.
From Verif Require Import Base BaseFacts MainModel SpecMain MainProofs MainProofs2 ConfigModel DbusConfigModel SpecDbus ReloadModel SpecReload.
Import ListNotations.

(** ** The handlers of MainModel.v *)

Definition restart_pending (m : main_st) : Prop := In (ORestart false) (m_ready m) \/ m_rtimer m = true.
Definition term_pending (m : main_st) : Prop := In (OTerminate false) (m_ready m) \/ m_ttimer m = true.

Definition kept (m m' : main_st) : Prop :=
  (exists l, m_ready m' = m_ready m ++ l) /\ m_rtimer m' = m_rtimer m /\ m_ttimer m' = m_ttimer m.
Lemma kept_refl m : kept m m.
Proof. split; [exists []; rewrite app_nil_r; reflexivity|split; reflexivity]. Qed.
Lemma kept_restart m m' : kept m m' -> restart_pending m -> restart_pending m'.
Proof.
  intros ((l & E) & R & _) [I|P]; [left; rewrite E; apply in_or_app; left; exact I|right; congruence].
Qed.
Lemma kept_term m m' : kept m m' -> term_pending m -> term_pending m'.
Proof.
  intros ((l & E) & _ & R) [I|P]; [left; rewrite E; apply in_or_app; left; exact I|right; congruence].
Qed.
Lemma kept_trans a b c : kept a b -> kept b c -> kept a c.
Proof.
  intros ((l & E) & R & T) ((l' & E') & R' & T'). split; [exists (l ++ l'); rewrite E', E, app_assoc; reflexivity|].
  split; congruence.
Qed.

Lemma stop_kept m : kept m (snd (stopControlLoops m)) /\ m_stopped (snd (stopControlLoops m)) = m_stopped m /\
  m_log (snd (stopControlLoops m)) = (if fst (stopControlLoops m) then MStopped else MStopFailed) :: m_log m.
Proof.
  unfold stopControlLoops. cbn [m_zones].
  destruct (m_zones m); [|match goal with |- context [Nat.ltb ?a ?b] => destruct (Nat.ltb a b) end];
    (split; [split; [eexists; reflexivity|split; reflexivity]|split; reflexivity]).
Qed.
Lemma start_kept zs : forall good m, kept m (snd (start_loops zs good m)) /\
  exists new, m_log (snd (start_loops zs good m)) = new ++ m_log m.
Proof.
  induction zs as [|z zs IH]; intros good m; cbn; [split; [apply kept_refl|exists []; reflexivity]|].
  destruct good as [|g]; cbn; [split; [split; [exists []; rewrite app_nil_r; reflexivity|split; reflexivity]|exists []; reflexivity]|].
  match goal with |- context [start_loops zs g ?t] => destruct (IH g t) as (K & new & L) end.
  split.
  - apply (kept_trans _ _ _) with (2 := K). split; [exists []; rewrite app_nil_r; reflexivity|split; reflexivity].
  - rewrite L. cbn. exists (new ++ [MStarted z]). rewrite <- app_assoc. reflexivity.
Qed.
Lemma arm_retry_pending m : restart_pending (arm_retry m).
Proof. right. unfold arm_retry. destruct (m_rtimer m); reflexivity. Qed.
Lemma arm_term_pending m : term_pending (arm_term m).
Proof. right. unfold arm_term. destruct (m_ttimer m); reflexivity. Qed.
Lemma arm_retry_term m : term_pending m -> term_pending (arm_retry m).
Proof.
  intros [I|T]; unfold arm_retry; destruct (m_rtimer m); [left|left|right|right]; cbn; try assumption.
  apply in_or_app. left. exact I.
Qed.
Lemma arm_term_restart m : restart_pending m -> restart_pending (arm_term m).
Proof.
  intros [I|T]; unfold arm_term; destruct (m_ttimer m); [left|left|right|right]; cbn; try assumption.
  apply in_or_app. left. exact I.
Qed.
Lemma arm_retry_log m : m_log (arm_retry m) = m_log m.
Proof. unfold arm_retry. destruct (m_rtimer m); reflexivity. Qed.
Lemma arm_term_log m : m_log (arm_term m) = m_log m.
Proof. unfold arm_term. destruct (m_ttimer m); reflexivity. Qed.

Definition step_facts (m m' : main_st) : Prop :=
  exists new, m_log m' = new ++ m_log m /\
    (restart_pending m -> m_stopped m' = true \/ In MStopped new \/ restart_pending m') /\
    (term_pending m -> m_stopped m' = true \/ term_pending m').
Lemma kept_facts m m' : kept m m' -> m_log m' = m_log m -> step_facts m m'.
Proof.
  intros K L. exists []. split; [exact L|]. split; intros P; right; [right; exact (kept_restart _ _ K P)|exact (kept_term _ _ K P)].
Qed.

Lemma restart_facts b m : m_stopped m = false ->
  (fst (restartControlLoops b m) = true ->
    exists new, m_log (snd (restartControlLoops b m)) = new ++ m_log m /\ In MStopped new /\
      (term_pending m -> term_pending (snd (restartControlLoops b m)))) /\
  (fst (restartControlLoops b m) = false ->
    exists new, m_log (snd (restartControlLoops b m)) = new ++ m_log m /\
      (term_pending m -> term_pending (snd (restartControlLoops b m)))).
Proof.
  intros St. unfold restartControlLoops. destruct (stop_kept m) as (K & S1 & L).
  destruct (stopControlLoops m) as [[] s1]; cbn [fst snd] in *.
  - assert (Q : exists new, m_log s1 = new ++ m_log m /\ In MStopped new) by (exists [MStopped]; split; [exact L|left; reflexivity]).
    destruct Q as (n1 & L1 & I1). pose proof (kept_term _ _ K) as KT.
    destruct b as [| | |ids good]; cbn [fst snd].
    + split; [|discriminate]. intros _. exists n1. auto.
    + split; [|discriminate]. intros _. exists (MExit :: n1). split; [cbn; rewrite L1; reflexivity|]. split; [right; exact I1|]. exact KT.
    + split; [discriminate|]. intros _. exists n1. auto.
    + destruct (nodup Z.eq_dec ids) as [|z l]; cbn [fst snd].
      { split; [|discriminate]. intros _. exists (MExit :: n1). split; [cbn; rewrite L1; reflexivity|]. split; [right; exact I1|]. exact KT. }
      match goal with |- context [start_loops ?zs ?g ?t] => destruct (start_kept zs g t) as (K2 & n2 & L2); destruct (start_loops zs g t) as [r s2] end.
      cbn [fst snd] in *.
      assert (L3 : m_log s2 = (n2 ++ n1) ++ m_log m) by (rewrite L2; cbn; rewrite L1, app_assoc; reflexivity).
      assert (T3 : term_pending m -> term_pending s2) by (intros T; exact (kept_term _ _ K2 (KT T))).
      split; intros _; exists (n2 ++ n1); (split; [exact L3|]); [split; [apply in_or_app; right; exact I1|exact T3]|exact T3].
  - split; [discriminate|]. intros _. exists [MStopFailed]. split; [exact L|]. apply kept_term, K.
Qed.

Lemma main_step_facts m e : m_stopped m = false -> step_facts m (main_step m e).
Proof.
  intros St. unfold main_step. rewrite St.
  assert (KE : forall o, kept m (enqueue o m)) by (intros o; split; [eexists; reflexivity|split; reflexivity]).
  destruct e as [i| | | | |ok b].
  - destruct (imem i (m_armed m)); [|apply kept_facts; [apply kept_refl|reflexivity]].
    apply kept_facts; [split; [eexists; reflexivity|split; reflexivity]|reflexivity].
  - destruct (m_rtimer m) eqn:R; [|apply kept_facts; [apply kept_refl|reflexivity]].
    exists []. split; [reflexivity|]. split.
    + intros _. right. right. left. cbn. apply in_or_app. right. left. reflexivity.
    + intros [I|T]; right; [left; cbn; apply in_or_app; left; exact I|right; exact T].
  - destruct (m_ttimer m) eqn:R; [|apply kept_facts; [apply kept_refl|reflexivity]].
    exists []. split; [reflexivity|]. split.
    + intros [I|T]; right; right; [left; cbn; apply in_or_app; left; exact I|right; exact T].
    + intros _. right. left. cbn. apply in_or_app. right. left. reflexivity.
  - apply kept_facts; [apply KE|reflexivity].
  - apply kept_facts; [apply KE|reflexivity].
  - destruct (m_ready m) as [|o r] eqn:Rd; [apply kept_facts; [apply kept_refl|reflexivity]|].
    assert (RP : restart_pending m -> o = ORestart false \/ restart_pending (set_ready r m)).
    { unfold restart_pending. rewrite Rd. intros [[E|I]|T]; [left; exact E|right; left; exact I|right; right; exact T]. }
    assert (TP : term_pending m -> o = OTerminate false \/ term_pending (set_ready r m)).
    { unfold term_pending. rewrite Rd. intros [[E|I]|T]; [left; exact E|right; left; exact I|right; right; exact T]. }
    assert (St' : m_stopped (set_ready r m) = false) by exact St.
    destruct o as [i a|a|a].
    + assert (RP' : restart_pending m -> restart_pending (set_ready r m)) by (intros P; destruct (RP P) as [X|X]; [discriminate X|exact X]).
      assert (TP' : term_pending m -> term_pending (set_ready r m)) by (intros P; destruct (TP P) as [X|X]; [discriminate X|exact X]).
      destruct a; cbn [run_op]; [exists []; split; [reflexivity|]; split; intros P; right; [right; exact (RP' P)|exact (TP' P)]|].
      destruct ok; [destruct (m_canceling _)|].
      * exists [MRan i]. split; [reflexivity|]. split; intros P; right; [right; exact (RP' P)|exact (TP' P)].
      * exists [MRan i]. split; [reflexivity|]. split; intros P; right; [right; exact (RP' P)|exact (TP' P)].
      * exists [MExit; MRan i]. split; [reflexivity|]. split; intros P; left; reflexivity.
    + assert (TP' : term_pending m -> term_pending (set_ready r m)) by (intros P; destruct (TP P) as [X|X]; [discriminate X|exact X]).
      destruct a; cbn [run_op].
      * exists []. split; [reflexivity|]. split; intros P; right; [right|exact (TP' P)]. destruct (RP P) as [X|X]; [discriminate X|exact X].
      * destruct (restart_facts b _ St') as (H1 & H2). destruct (restartControlLoops b (set_ready r m)) as [[] s1]; cbn [fst snd] in *.
        -- destruct (H1 eq_refl) as (new & L & I & T). exists new. split; [exact L|]. split; [intros _; right; left; exact I|].
           intros P. right. exact (T (TP' P)).
        -- destruct (H2 eq_refl) as (new & L & T). exists new. rewrite arm_retry_log. split; [exact L|].
           split; [intros _; right; right; apply arm_retry_pending|]. intros P. right. apply arm_retry_term, T, TP', P.
    + assert (RP' : restart_pending m -> restart_pending (set_ready r m)) by (intros P; destruct (RP P) as [X|X]; [discriminate X|exact X]).
      destruct a; cbn [run_op].
      * exists []. split; [reflexivity|]. split; intros P; right; [right; exact (RP' P)|]. destruct (TP P) as [X|X]; [discriminate X|exact X].
      * destruct (stop_kept (set_ready r m)) as (K & S1 & L). destruct (stopControlLoops (set_ready r m)) as [[] s1]; cbn [fst snd] in *.
        -- exists [MExit; MStopped]. split; [cbn; rewrite L; reflexivity|]. split; intros P; left; reflexivity.
        -- exists [MStopFailed]. rewrite arm_term_log. split; [exact L|]. split; intros P; right; [right|].
           ++ apply arm_term_restart. exact (kept_restart _ _ K (RP' P)).
           ++ apply arm_term_pending.
Qed.

(** ** Steps of the whole *)

(** What a step does to the rest of the daemon. *)
Definition main_part (s : reload_st) (e : reload_ev) : list main_ev :=
  if m_stopped (rl_main s) then [] else
  match e with
  | VWait _ | VSignal _ | VHup | VExpire | VHupExpire => []
  | VTerm => [EPostTerminate]
  | VHandler => match rl_done s with TReload false :: _ | THup false :: _ => [EPostRestart] | _ => [] end
  | VLoopExpire i => [EExpire i]
  | VRetry => [ERetry]
  | VTermRetry => [ETermRetry]
  | VRun ok b _ => [ERun ok b]
  end.
Lemma deliver_frame m s : rl_main (deliver m s) = rl_main s /\ rl_matches (deliver m s) = rl_matches s /\
  rl_hup (deliver m s) = rl_hup s /\ rl_now (deliver m s) = rl_now s /\ rl_log (deliver m s) = rl_log s /\
  (exists n, rl_done (deliver m s) = rl_done s ++ repeat (TReload true) n) /\
  rl_timer (deliver m s) =
    if existsb (fun r => rule_matches r m) reload_rules && handler_goes_on m then Some (rl_now s + 2000)%Z else rl_timer s.
Proof.
  unfold deliver. generalize reload_rules as l. intros l. revert s.
  induction l as [|r l IH]; intros s; cbn [fold_left existsb].
  - (split; [|split; [|split; [|split; [|split; [|split]]]]]); try reflexivity. exists 0%nat. rewrite app_nil_r. reflexivity.
  - unfold eventHandler in *. destruct (rule_matches r m), (handler_goes_on m) eqn:G; cbn [orb andb]; try apply IH.
    + destruct (IH (arm_reload s)) as (A & B & C & D & E & (n & F) & H). rewrite A, B, C, D, E, H.
      (split; [|split; [|split; [|split; [|split; [|split]]]]]); try reflexivity.
      * rewrite F. cbn. destruct (rl_timer s); [exists (S n); rewrite <- app_assoc; reflexivity|exists n; reflexivity].
      * destruct (existsb _ l); reflexivity.
    + destruct (IH s) as (A & B & C & D & E & F & H). rewrite andb_false_r in H.
      (split; [|split; [|split; [|split; [|split; [|split]]]]]); assumption.
Qed.
Lemma step_main s e : rl_main (reload_step s e) = main_run (main_part s e) (rl_main s).
Proof.
  unfold reload_step, main_part. destruct (m_stopped (rl_main s)); [reflexivity|].
  destruct e as [ms|m| | | | | |i| | |ok b bus]; try reflexivity.
  - destruct (rl_matches s); [|reflexivity]. unfold note_signal.
    destruct (existsb _ _ && _); apply deliver_frame.
  - destruct (rl_timer s) as [t|]; [destruct (t <=? rl_now s)%Z|]; reflexivity.
  - destruct (rl_hup s) as [t|]; [destruct (t <=? rl_now s)%Z|]; reflexivity.
  - destruct (rl_done s) as [|[[]|[]] r]; reflexivity.
Qed.

(** ** Nothing is lost *)

Definition coming (s : reload_st) : Prop :=
  rl_timer s <> None \/ rl_hup s <> None \/ In (TReload false) (rl_done s) \/ In (THup false) (rl_done s) \/
  restart_pending (rl_main s).
Definition owed (l0 : list main_event) (s : reload_st) : Prop :=
  exists new, m_log (rl_main s) = new ++ l0 /\ (m_stopped (rl_main s) = true \/ In MStopped new \/ coming s).

Lemma coming_step l0 s e : owed l0 s -> owed l0 (reload_step s e).
Proof.
  intros (new & L & H). unfold owed.
  destruct (m_stopped (rl_main s)) eqn:St.
  { unfold reload_step. rewrite St. exists new. split; [exact L|left; exact St]. }
  assert (F : exists n2, m_log (rl_main (reload_step s e)) = n2 ++ m_log (rl_main s) /\
    (restart_pending (rl_main s) -> m_stopped (rl_main (reload_step s e)) = true \/ In MStopped n2 \/
       restart_pending (rl_main (reload_step s e)))).
  { rewrite step_main. unfold main_part. rewrite St.
    assert (Z : exists n2, m_log (rl_main s) = n2 ++ m_log (rl_main s) /\
      (restart_pending (rl_main s) -> m_stopped (rl_main s) = true \/ In MStopped n2 \/ restart_pending (rl_main s)))
      by (exists []; split; [reflexivity|intros P; right; right; exact P]).
    assert (O : forall e', exists n2, m_log (main_step (rl_main s) e') = n2 ++ m_log (rl_main s) /\
      (restart_pending (rl_main s) -> m_stopped (main_step (rl_main s) e') = true \/ In MStopped n2 \/
         restart_pending (main_step (rl_main s) e'))).
    { intros e'. destruct (main_step_facts (rl_main s) e' St) as (n2 & A & B & _). exists n2. auto. }
    destruct e; cbn [main_run fold_left]; try exact Z; try apply O.
    destruct (rl_done s) as [|[[]|[]] r]; cbn [fold_left]; try exact Z; apply O. }
  destruct F as (n2 & L2 & P2). exists (n2 ++ new). split; [rewrite L2, L, app_assoc; reflexivity|].
  destruct H as [X|[I|C]]; [discriminate X|right; left; apply in_or_app; right; exact I|].
  assert (G : coming (reload_step s e) \/ (restart_pending (rl_main s))).
  { destruct C as [C|[C|[C|[C|C]]]]; [| | | |right; exact C]; left; unfold reload_step; rewrite St; unfold coming.
    - destruct e as [ms|m| | | | | |i| | |ok b bus]; try (left; exact C).
      + destruct (rl_matches s); [|left; exact C]. left. unfold note_signal.
        assert (T : rl_timer (deliver m s) <> None).
        { destruct (deliver_frame m s) as (_ & _ & _ & _ & _ & _ & ->). destruct (_ && _); [discriminate|exact C]. }
        destruct (existsb _ _ && _); exact T.
      + destruct (rl_timer s) as [t|] eqn:Et; [|congruence]. destruct (t <=? rl_now s)%Z.
        * right. right. left. cbn. apply in_or_app. right. left. reflexivity.
        * left. rewrite Et. discriminate.
      + destruct (rl_hup s) as [t|]; [destruct (t <=? rl_now s)%Z|]; left; exact C.
      + destruct (rl_done s) as [|[[]|[]] r]; left; exact C.
    - destruct e as [ms|m| | | | | |i| | |ok b bus]; try (right; left; exact C).
      + destruct (rl_matches s); [|right; left; exact C]. right. left. unfold note_signal.
        assert (T : rl_hup (deliver m s) <> None) by (destruct (deliver_frame m s) as (_ & _ & -> & _); exact C).
        destruct (existsb _ _ && _); exact T.
      + right. left. discriminate.
      + destruct (rl_timer s) as [t|]; [destruct (t <=? rl_now s)%Z|]; right; left; exact C.
      + destruct (rl_hup s) as [t|] eqn:Et; [|congruence]. destruct (t <=? rl_now s)%Z.
        * right. right. right. left. cbn. apply in_or_app. right. left. reflexivity.
        * right. left. rewrite Et. discriminate.
      + destruct (rl_done s) as [|[[]|[]] r]; right; left; exact C.
    - destruct e as [ms|m| | | | | |i| | |ok b bus]; try (right; right; left; exact C).
      + destruct (rl_matches s); [|right; right; left; exact C]. right. right. left. unfold note_signal.
        assert (T : In (TReload false) (rl_done (deliver m s))).
        { destruct (deliver_frame m s) as (_ & _ & _ & _ & _ & (n & ->) & _). apply in_or_app. left. exact C. }
        destruct (existsb _ _ && _); exact T.
      + right. right. left. cbn. destruct (rl_hup s); [apply in_or_app; left|]; exact C.
      + destruct (rl_timer s) as [t|]; [destruct (t <=? rl_now s)%Z|]; right; right; left; cbn; try exact C.
        apply in_or_app. left. exact C.
      + destruct (rl_hup s) as [t|]; [destruct (t <=? rl_now s)%Z|]; right; right; left; cbn; try exact C.
        apply in_or_app. left. exact C.
      + destruct (rl_done s) as [|o r]; [destruct C|]. destruct C as [->|C].
        * right. right. right. right. left. unfold timer_handler, main_step. cbn [rl_main]. rewrite St. cbn. apply in_or_app. right. left. reflexivity.
        * destruct o as [[]|[]]; right; right; left; exact C.
    - destruct e as [ms|m| | | | | |i| | |ok b bus]; try (right; right; right; left; exact C).
      + destruct (rl_matches s); [|right; right; right; left; exact C]. right. right. right. left. unfold note_signal.
        assert (T : In (THup false) (rl_done (deliver m s))).
        { destruct (deliver_frame m s) as (_ & _ & _ & _ & _ & (n & ->) & _). apply in_or_app. left. exact C. }
        destruct (existsb _ _ && _); exact T.
      + right. right. right. left. cbn. destruct (rl_hup s); [apply in_or_app; left|]; exact C.
      + destruct (rl_timer s) as [t|]; [destruct (t <=? rl_now s)%Z|]; right; right; right; left; cbn; try exact C.
        apply in_or_app. left. exact C.
      + destruct (rl_hup s) as [t|]; [destruct (t <=? rl_now s)%Z|]; right; right; right; left; cbn; try exact C.
        apply in_or_app. left. exact C.
      + destruct (rl_done s) as [|o r]; [destruct C|]. destruct C as [->|C].
        * right. right. right. right. left. unfold timer_handler, main_step. cbn [rl_main]. rewrite St. cbn. apply in_or_app. right. left. reflexivity.
        * destruct o as [[]|[]]; right; right; right; left; exact C. }
  destruct G as [G|P]; [right; right; exact G|]. destruct (P2 P) as [X|[X|X]]; [left; exact X|right; left; apply in_or_app; left; exact X|].
  right. right. right. right. right. right. exact X.
Qed.
Lemma owed_run l0 evs : forall s, owed l0 s -> owed l0 (reload_run evs s).
Proof. induction evs as [|e evs IH]; intros s H; [exact H|]. apply IH, coming_step, H. Qed.

Lemma reload_run_app a b s : reload_run (a ++ b) s = reload_run b (reload_run a s).
Proof. apply fold_left_app. Qed.

(** The rest of the daemon follows MainModel.v. *)
Fixpoint main_parts (evs : list reload_ev) (s : reload_st) : list main_ev :=
  match evs with
  | [] => []
  | e :: r => main_part s e ++ main_parts r (reload_step s e)
  end.
Lemma run_main evs : forall s, rl_main (reload_run evs s) = main_run (main_parts evs s) (rl_main s).
Proof.
  induction evs as [|e evs IH]; intros s; [reflexivity|]. cbn [reload_run fold_left main_parts].
  change (fold_left reload_step evs (reload_step s e)) with (reload_run evs (reload_step s e)).
  rewrite IH, step_main. unfold main_run. rewrite fold_left_app. reflexivity.
Qed.
Lemma init_main evs : rl_main (reload_run evs reload_init) = main_run (EPostRestart :: main_parts evs reload_init) main_init.
Proof. rewrite run_main. reflexivity. Qed.
Lemma ended_iff evs : ended (reload_run evs reload_init) <-> m_stopped (rl_main (reload_run evs reload_init)) = true.
Proof.
  unfold ended. rewrite init_main. set (l := EPostRestart :: main_parts evs reload_init).
  pose proof (run_exit l _ init_exit) as H. unfold exit_inv, history in *. rewrite <- in_rev.
  destruct (m_stopped (main_run l main_init)); [|split; [contradiction|discriminate]].
  destruct H as (r & -> & _). split; [reflexivity|intros _; left; reflexivity].
Qed.
Lemma not_ended evs : ~ ended (reload_run evs reload_init) -> m_stopped (rl_main (reload_run evs reload_init)) = false.
Proof. intros H. destruct (m_stopped _) eqn:E; [|reflexivity]. exfalso. apply H, ended_iff, E. Qed.
Lemma stopped_stays evs : forall s, m_stopped (rl_main s) = true -> reload_run evs s = s.
Proof.
  induction evs as [|e evs IH]; intros s H; [reflexivity|]. cbn [reload_run fold_left].
  assert (E : reload_step s e = s) by (unfold reload_step; rewrite H; reflexivity). rewrite E. apply IH, H.
Qed.

Lemma settled_not_coming s : settled s -> ~ coming s.
Proof.
  intros (A & B & C & D & _ & F) [X|[X|[X|[X|[X|X]]]]]; try congruence; try (rewrite C in X; destruct X).
  discriminate (F _ X).
Qed.

(** ** Which signals count *)
Local Open Scope string_scope.
Lemma prefix_iff p : forall x, prefix p x = true <-> exists r, x = p ++ r.
Proof.
  induction p as [|c p IH]; intros x.
  - split; [intros _; exists x; destruct x; reflexivity|intros _; destruct x; reflexivity].
  - destruct x as [|d x]; [split; [discriminate|intros (r & E); discriminate E]|].
    cbn [prefix append]. destruct (ascii_dec c d) as [->|N].
    + split; [intros P; apply IH in P; destruct P as (r & ->); exists r; reflexivity|].
      intros (r & E). apply IH. exists r. injection E as E. exact E.
    + split; [discriminate|intros (r & E)]. injection E as E _. congruence.
Qed.
Lemma sapp_assoc a b c : (a ++ b) ++ c = a ++ (b ++ c).
Proof. induction a as [|x a IH]; cbn; [reflexivity|rewrite IH; reflexivity]. Qed.
Lemma ns_iff ns x : (String.eqb x ns || prefix (ns ++ ".") x) = true <-> within ns x.
Proof.
  unfold within. rewrite orb_true_iff, String.eqb_eq, prefix_iff.
  split; (intros [E|(r & E)]; [left; exact E|right; exists r]); rewrite E, ?sapp_assoc; reflexivity.
Qed.
Definition sensors_path : string := "/xyz/openbmc_project/sensors/".
Fixpoint starts_of (p : string) : list string :=
  match p with
  | "" => [""]
  | String c r => "" :: map (String c) (starts_of r)
  end.
Lemma starts_of_all r : forall x p, p = x ++ r -> In x (starts_of p).
Proof.
  induction x as [|c x IH]; intros p E.
  - destruct p; left; reflexivity.
  - subst p. right. apply in_map, IH. reflexivity.
Qed.
Lemma path_iff x : (String.eqb x sensors_path || (ends_slash sensors_path && prefix sensors_path x)
    || (ends_slash x && prefix x sensors_path)) = true <-> sensor_object x.
Proof.
  unfold sensor_object. fold sensors_path.
  change (ends_slash sensors_path) with true. cbn [andb].
  rewrite !orb_true_iff, andb_true_iff, String.eqb_eq, !prefix_iff. split.
  - intros [[E|E]|(S & r & E)]; [left; exists ""; rewrite E; reflexivity|left; exact E|].
    assert (I : In x (filter ends_slash (starts_of sensors_path))) by (apply filter_In; split; [exact (starts_of_all r x _ E)|exact S]).
    vm_compute in I. destruct I as [<-|[<-|[<-|[<-|[]]]]]; [right; left; reflexivity|right; right; left; reflexivity|
      right; right; right; left; reflexivity|left; exists ""; reflexivity].
  - intros [E|I]; [left; right; exact E|right]. destruct I as [<-|[<-|[<-|[]]]]; (split; [reflexivity|]).
    + exists "xyz/openbmc_project/sensors/". reflexivity.
    + exists "openbmc_project/sensors/". reflexivity.
    + exists "sensors/". reflexivity.
Qed.

Lemma skipped_iff data : all_skipped skip_list data = true <->
  data <> [] /\ forall i, In i data -> i = association \/ i = association_definitions.
Proof.
  unfold skip_list. fold association association_definitions.
  assert (NE : forall k i, (In i (filter (fun d => negb (String.eqb k d)) data) <-> In i data /\ i <> k)).
  { intros k i. rewrite filter_In, negb_true_iff, String.eqb_neq. intuition congruence. }
  assert (EX : forall k l, existsb (String.eqb k) l = true <-> In k l).
  { intros k l. rewrite existsb_exists. split; [intros (x & I & E); apply String.eqb_eq in E; subst; exact I|
      intros I; exists k; split; [exact I|apply String.eqb_refl]]. }
  cbn [all_skipped].
  destruct (existsb (String.eqb association) data) eqn:A.
  - apply EX in A. destruct (filter (fun d => negb (association =? d)) data) as [|x l] eqn:F.
    + split; [intros _|reflexivity]. split; [intros ->; destruct A|]. intros i I.
      destruct (string_dec i association) as [E|N]; [left; exact E|].
      assert (X : In i (filter (fun d => negb (association =? d)) data)) by (apply NE; split; assumption). rewrite F in X. destruct X.
    + rewrite <- F. set (l1 := filter _ data) in *.
      destruct (existsb (String.eqb association_definitions) l1) eqn:B.
      * destruct (filter (fun d => negb (association_definitions =? d)) l1) as [|y l2] eqn:G.
        -- split; [intros _|reflexivity]. split; [intros ->; destruct A|]. intros i I.
           destruct (string_dec i association) as [E|N]; [left; exact E|].
           destruct (string_dec i association_definitions) as [E|N2]; [right; exact E|].
           assert (X : In i (filter (fun d => negb (association_definitions =? d)) l1)).
           { apply filter_In. split; [apply NE; split; assumption|]. apply negb_true_iff, String.eqb_neq. congruence. }
           rewrite G in X. destruct X.
        -- split; [discriminate|]. intros (_ & H). exfalso.
           assert (X : In y (filter (fun d => negb (association_definitions =? d)) l1)) by (rewrite G; left; reflexivity).
           apply filter_In in X. destruct X as (X & Y). apply NE in X. destruct X as (X & Z).
           apply negb_true_iff, String.eqb_neq in Y. destruct (H y X) as [E|E]; congruence.
      * split; [discriminate|]. intros (_ & H). exfalso.
        assert (X : In x l1) by (rewrite F; left; reflexivity). pose proof X as X'. apply NE in X. destruct X as (X & Z).
        destruct (H x X) as [E|E]; [congruence|]. subst x. apply EX in X'. congruence.
  - destruct (existsb (String.eqb association_definitions) data) eqn:B.
    + apply EX in B. destruct (filter (fun d => negb (association_definitions =? d)) data) as [|x l] eqn:F.
      * split; [intros _|reflexivity]. split; [intros ->; destruct B|]. intros i I.
        destruct (string_dec i association_definitions) as [E|N]; [right; exact E|].
        assert (X : In i (filter (fun d => negb (association_definitions =? d)) data)) by (apply NE; split; assumption). rewrite F in X. destruct X.
      * split; [discriminate|]. intros (_ & H). exfalso.
        assert (X : In x (filter (fun d => negb (association_definitions =? d)) data)) by (rewrite F; left; reflexivity).
        apply NE in X. destruct X as (X & Z). destruct (H x X) as [E|E]; [|congruence]. subst x. apply EX in X. congruence.
    + split; [discriminate|]. intros (NN & H). exfalso. destruct data as [|x l]; [congruence|].
      destruct (H x (or_introl eq_refl)) as [E|E]; subst x; cbn [existsb] in A, B; rewrite String.eqb_refl in *; discriminate.
Qed.

Definition counts (m : bus_signal) : bool := existsb (fun r => rule_matches r m) reload_rules && handler_goes_on m.
Lemma counts_iff m : counts m = true <-> about_configuration m.
Proof.
  unfold counts, handler_goes_on, reload_rules. cbn [existsb rule_matches]. fold sensors_path.
  fold thermal_mode pid_config stepwise_config.
  assert (Pz : forall x, within (pid_config ++ ".Zone") x -> within pid_config x).
  { intros x [->|(r & ->)]; right; [exists "Zone"; reflexivity|exists ("Zone." ++ r); reflexivity]. }
  change "xyz.openbmc_project.Configuration.Pid.Zone" with (pid_config ++ ".Zone").
  destruct m as [mem a l]; cbn [sg_member sg_arg0 sg_interfaces]. unfold about_configuration. cbn [sg_member sg_arg0 sg_interfaces].
  rewrite andb_true_iff, !orb_true_iff, !andb_true_iff, !ns_iff, !path_iff, !String.eqb_eq.
  assert (L : (if mem =? "InterfacesAdded" then negb (all_skipped skip_list l) else true) = true <->
    (mem = "InterfacesAdded" -> l = [] \/ exists i, In i l /\ i <> association /\ i <> association_definitions)).
  { destruct (String.eqb mem "InterfacesAdded") eqn:E.
    - apply String.eqb_eq in E. rewrite negb_true_iff. split.
      + intros K _. destruct l as [|x l']; [left; reflexivity|right].
        destruct (existsb (fun i => negb (String.eqb i association) && negb (String.eqb i association_definitions)) (x :: l')) eqn:X.
        * apply existsb_exists in X. destruct X as (i & I & Y). apply andb_true_iff in Y. destruct Y as (Y & Z).
          apply negb_true_iff, String.eqb_neq in Y. apply negb_true_iff, String.eqb_neq in Z. exists i. auto.
        * exfalso. assert (K' : all_skipped skip_list (x :: l') = true); [|congruence].
          apply skipped_iff. split; [discriminate|]. intros i I.
          destruct (string_dec i association) as [?|N1]; [left; assumption|].
          destruct (string_dec i association_definitions) as [?|N2]; [right; assumption|]. exfalso.
          assert (Y : existsb (fun i => negb (String.eqb i association) && negb (String.eqb i association_definitions)) (x :: l') = true).
          { apply existsb_exists. exists i. split; [exact I|]. apply andb_true_iff.
            split; apply negb_true_iff, String.eqb_neq; assumption. }
          congruence.
      + intros K. destruct (all_skipped skip_list l) eqn:S; [|reflexivity]. exfalso. apply skipped_iff in S. destruct S as (NN & H).
        destruct (K E) as [X|(i & I & A & B)]; [congruence|]. destruct (H i I); congruence.
    - apply String.eqb_neq in E. split; [intros _ K; contradiction|reflexivity]. }
  rewrite L. clear L. specialize (Pz a). clear -Pz.
  split.
  - intros (H & K). decompose [or and] H; try discriminate; subst mem; auto 10.
    all: try (right; right; split; [reflexivity|split; [assumption|apply K; reflexivity]]).
  - intros H. decompose [or and] H; subst mem; (split; [auto 12|]); try (intros X; discriminate X); auto.
Qed.

Lemma signal_counts s m : m_stopped (rl_main s) = false -> rl_matches s = true -> about_configuration m ->
  rl_timer (reload_step s (VSignal m)) = Some (rl_now s + 2000)%Z /\
  rl_log (reload_step s (VSignal m)) = LSignal (rl_now s) :: rl_log s.
Proof.
  intros St M A. apply counts_iff in A. unfold reload_step. rewrite St, M. unfold note_signal. unfold counts in A. rewrite A.
  cbn [rl_timer rl_log]. destruct (deliver_frame m s) as (_ & _ & _ & N & L & _ & T). rewrite T, A, N, L. split; reflexivity.
Qed.
Lemma signal_ignored s m : ~ about_configuration m -> reload_step s (VSignal m) = s.
Proof.
  intros N. unfold reload_step. destruct (m_stopped (rl_main s)); [reflexivity|]. destruct (rl_matches s); [|reflexivity].
  assert (C : counts m = false) by (destruct (counts m) eqn:C; [exfalso; apply N, counts_iff, C|reflexivity]).
  unfold note_signal. fold (counts m). rewrite C. unfold deliver, counts in *.
  apply andb_false_iff in C. destruct C as [C|C].
  - revert C. generalize reload_rules as l. intros l. induction l as [|r l IH]; intros C; [reflexivity|].
    cbn in C |- *. apply orb_false_iff in C. destruct C as (-> & C). exact (IH C).
  - unfold eventHandler. rewrite C. induction reload_rules as [|r l IH]; [reflexivity|]. cbn. destruct (rule_matches r m); exact IH.
Qed.
Local Close Scope string_scope.
Lemma hup_counts s : m_stopped (rl_main s) = false -> rl_hup (reload_step s VHup) = Some (rl_now s + 1000)%Z.
Proof. intros St. unfold reload_step. rewrite St. reflexivity. Qed.

Lemma split_run evs pre e post : evs = (pre ++ e :: post)%list ->
  reload_run evs reload_init = reload_run post (reload_step (reload_run pre reload_init) e).
Proof. intros ->. rewrite reload_run_app. reflexivity. Qed.
Lemma run_stopped_back evs s : m_stopped (rl_main (reload_run evs s)) = false -> m_stopped (rl_main s) = false.
Proof. intros H. destruct (m_stopped (rl_main s)) eqn:E; [|reflexivity]. rewrite stopped_stays in H; congruence. Qed.

Lemma lost_lemma evs pre e post s :
  evs = (pre ++ e :: post)%list -> s = reload_run evs reload_init -> ~ ended s -> settled s ->
  (m_stopped (rl_main (reload_run pre reload_init)) = false -> coming (reload_step (reload_run pre reload_init) e)) ->
  reread_since (reload_run pre reload_init) s.
Proof.
  intros E -> NE Se C. pose proof (not_ended _ NE) as St. rewrite (split_run _ _ _ _ E) in *.
  set (s1 := reload_run pre reload_init) in *.
  assert (S1 : m_stopped (rl_main s1) = false).
  { apply run_stopped_back in St. destruct (m_stopped (rl_main s1)) eqn:X; [|reflexivity].
    unfold reload_step in St. rewrite X in St. congruence. }
  specialize (C S1).
  assert (O : owed (m_log (rl_main s1)) (reload_step s1 e)).
  { assert (F : step_facts (rl_main s1) (rl_main (reload_step s1 e)) \/ rl_main (reload_step s1 e) = rl_main s1).
    { rewrite step_main. unfold main_part. rewrite S1.
      destruct e; cbn [main_run fold_left]; try (right; reflexivity); try (left; apply main_step_facts, S1).
      destruct (rl_done s1) as [|[[]|[]] r]; cbn [fold_left]; try (right; reflexivity); left; apply main_step_facts, S1. }
    destruct F as [(n & L & _)|L]; [exists n; split; [exact L|]|exists []; split; [rewrite L; reflexivity|]]; right; right; exact C. }
  apply (owed_run _ post) in O. destruct O as (new & L & [X|[I|X]]); [congruence| |destruct (settled_not_coming _ Se X)].
  exists (rev new). split; [unfold since, history; rewrite L, rev_app_distr; reflexivity|apply in_rev; rewrite rev_involutive; exact I].
Qed.

Lemma C81_lost_lemma evs pre m post s :
  evs = (pre ++ VSignal m :: post)%list -> s = reload_run evs reload_init ->
  about_configuration m -> rl_matches (reload_run pre reload_init) = true -> ~ ended s -> settled s ->
  reread_since (reload_run pre reload_init) s.
Proof.
  intros E Es A M NE Se. apply (lost_lemma _ _ _ _ _ E Es NE Se).
  - intros St. left. destruct (signal_counts _ _ St M A) as (-> & _). discriminate.
Qed.
Lemma C81_hup_lemma evs pre post s :
  evs = (pre ++ VHup :: post)%list -> s = reload_run evs reload_init -> ~ ended s -> settled s ->
  reread_since (reload_run pre reload_init) s.
Proof.
  intros E Es NE Se. apply (lost_lemma _ _ _ _ _ E Es NE Se).
  - intros St. right. left. rewrite (hup_counts _ St). discriminate.
Qed.

(** ** SIGTERM *)
Definition term_owed (s : reload_st) : Prop := m_stopped (rl_main s) = true \/ term_pending (rl_main s).
Lemma term_step s e : term_owed s -> term_owed (reload_step s e).
Proof.
  intros [St|P].
  { left. unfold reload_step. rewrite St. exact St. }
  destruct (m_stopped (rl_main s)) eqn:St; [left; unfold reload_step; rewrite St; exact St|].
  unfold term_owed. rewrite step_main. unfold main_part. rewrite St.
  assert (O : forall e', m_stopped (main_step (rl_main s) e') = true \/ term_pending (main_step (rl_main s) e')).
  { intros e'. destruct (main_step_facts (rl_main s) e' St) as (n2 & _ & _ & B). exact (B P). }
  destruct e; cbn [main_run fold_left]; try (right; exact P); try apply O.
  destruct (rl_done s) as [|[[]|[]] r]; cbn [fold_left]; try (right; exact P); apply O.
Qed.
Lemma term_run evs : forall s, term_owed s -> term_owed (reload_run evs s).
Proof. induction evs as [|e evs IH]; intros s H; [exact H|]. apply IH, term_step, H. Qed.
Lemma C82_term_lemma evs s : In VTerm evs -> s = reload_run evs reload_init -> settled s -> ended s.
Proof.
  intros I -> (_ & _ & _ & _ & T & F). apply in_split in I. destruct I as (pre & post & E).
  apply ended_iff. rewrite (split_run _ _ _ _ E) in *. set (s1 := reload_run pre reload_init) in *.
  assert (O : term_owed (reload_step s1 VTerm)).
  { destruct (m_stopped (rl_main s1)) eqn:St; [left; unfold reload_step; rewrite St; exact St|].
    right. left. unfold reload_step. rewrite St. unfold set_main, main_step. rewrite St. cbn. apply in_or_app. right. left. reflexivity. }
  apply (term_run post) in O. destruct O as [O|[O|O]]; [exact O|discriminate (F _ O)|congruence].
Qed.

(** ** No reload without a cause *)
Definition nreload (l : list timer_op) : nat :=
  List.length (filter (fun o => match o with TReload false => true | _ => false end) l).
Lemma nreload_app a b : nreload (a ++ b) = (nreload a + nreload b)%nat.
Proof. unfold nreload. rewrite filter_app, app_length. reflexivity. Qed.
Lemma nreload_aborted n : nreload (repeat (TReload true) n) = 0%nat.
Proof. induction n; [reflexivity|exact IHn]. Qed.

Definition armed (s : reload_st) : nat := match rl_timer s with Some _ => 1 | None => 0 end.
Record cause_inv (s : reload_st) : Prop := CauseInv {
  ci_count : (reloads (rl_log s) + nreload (rl_done s) + armed s <= signals (rl_log s))%nat;
  ci_timer : forall t, rl_timer s = Some t -> exists t0, In (LSignal t0) (rl_log s) /\ t = (t0 + 2000)%Z;
  ci_done : In (TReload false) (rl_done s) -> exists t0, In (LSignal t0) (rl_log s) /\ (t0 + 2000 <= rl_now s)%Z;
  ci_log : forall a n b, rl_log s = (a ++ LReload n :: b)%list -> exists t0, In (LSignal t0) b /\ (t0 + 2000 <= n)%Z
}.
Lemma log_cons {A} (x y : A) l a b : (x :: l)%list = (a ++ y :: b)%list -> (a = [] /\ x = y /\ l = b) \/ exists a', a = x :: a' /\ l = (a' ++ y :: b)%list.
Proof. destruct a as [|z a]; cbn; intros E; injection E as E1 E2; subst; [left; auto|right; eexists; eauto]. Qed.
Lemma cause_other s s' e : cause_inv s -> rl_log s' = e :: rl_log s -> is_reload e = false ->
  rl_timer s' = rl_timer s -> nreload (rl_done s') = nreload (rl_done s) ->
  (In (TReload false) (rl_done s') -> In (TReload false) (rl_done s)) -> rl_now s' = rl_now s -> cause_inv s'.
Proof.
  intros [C T D G] L R Et N Dn Nw. constructor.
  - unfold reloads, signals, armed in *. rewrite L, Et, N. cbn [filter]. rewrite R. destruct (is_signal e); cbn [List.length]; lia.
  - rewrite Et, L. intros t H. destruct (T t H) as (t0 & I & E). exists t0. split; [right; exact I|exact E].
  - rewrite Nw, L. intros H. destruct (D (Dn H)) as (t0 & I & E). exists t0. split; [right; exact I|exact E].
  - rewrite L. intros a n b E. apply log_cons in E. destruct E as [(_ & -> & _)|(a' & _ & E)]; [discriminate R|exact (G _ _ _ E)].
Qed.
Lemma cause_step s e : cause_inv s -> cause_inv (reload_step s e).
Proof.
  intros H. unfold reload_step. destruct (m_stopped (rl_main s)) eqn:St; [exact H|].
  destruct e as [ms|m| | | | | |i| | |ok b bus]; try (destruct H as [C T D G]; constructor; assumption).
  - destruct H as [C T D G]. constructor; try assumption. intros I. destruct (D I) as (t0 & J & E). exists t0.
    split; [exact J|]. cbn. lia.
  - destruct (rl_matches s) eqn:M; [|exact H].
    assert (Q : cause_inv (reload_step s (VSignal m))); [|unfold reload_step in Q; rewrite St, M in Q; exact Q].
    destruct (counts m) eqn:K.
    + pose proof (signal_counts s m St M (proj1 (counts_iff m) K)) as (Tm & L).
      assert (Dn : exists n, rl_done (reload_step s (VSignal m)) = rl_done s ++ repeat (TReload true) n /\
                    rl_now (reload_step s (VSignal m)) = rl_now s).
      { unfold reload_step. rewrite St, M. unfold note_signal. fold (counts m). rewrite K. cbn [rl_done rl_now].
        destruct (deliver_frame m s) as (_ & _ & _ & N & _ & (n & Dn) & _). exists n. split; assumption. }
      destruct Dn as (n & Dn & Nw). destruct H as [C T D G]. constructor.
      * unfold armed in *. rewrite Tm, L, Dn, nreload_app, nreload_aborted. unfold reloads, signals in *. cbn [filter is_reload is_signal List.length].
        destruct (rl_timer s); lia.
      * rewrite Tm, L. intros t E. injection E as <-. exists (rl_now s). split; [left; reflexivity|reflexivity].
      * rewrite Dn, Nw, L. intros I. apply in_app_or in I. destruct I as [I|I]; [|apply repeat_spec in I; discriminate I].
        destruct (D I) as (t0 & J & E). exists t0. split; [right; exact J|exact E].
      * rewrite L. intros a n' b E. apply log_cons in E. destruct E as [(_ & X & _)|(a' & _ & E)]; [discriminate X|exact (G _ _ _ E)].
    + rewrite signal_ignored; [exact H|]. intros A. apply counts_iff in A. congruence.
  - apply (cause_other s _ (LHup (rl_now s)) H); try reflexivity.
    + cbn [arm_hup rl_done]. destruct (rl_hup s); [rewrite nreload_app; cbn; lia|reflexivity].
    + cbn. destruct (rl_hup s); [|exact (fun x => x)]. intros I. apply in_app_or in I. destruct I as [I|[I|[]]]; [exact I|discriminate I].
  - destruct (rl_timer s) as [t|] eqn:Et; [|exact H]. destruct (t <=? rl_now s)%Z eqn:Le; [|exact H]. apply Z.leb_le in Le.
    destruct H as [C T D G]. rewrite Et in T. destruct (T t eq_refl) as (t0 & I & E). constructor; cbn [rl_timer rl_hup rl_done rl_now rl_log].
    + unfold armed in *. rewrite Et in C. cbn [rl_done rl_timer rl_log rl_hup]. rewrite nreload_app. cbn in *. lia.
    + discriminate.
    + intros _. exists t0. split; [exact I|lia].
    + exact G.
  - destruct (rl_hup s) as [t|] eqn:Et; [|exact H]. destruct (t <=? rl_now s)%Z eqn:Le; [|exact H].
    destruct H as [C T D G]. constructor; cbn [rl_timer rl_hup rl_done rl_now rl_log]; try assumption.
    + unfold armed in *. cbn [rl_done rl_timer rl_log rl_hup]. rewrite nreload_app. cbn in *. lia.
    + intros I. apply in_app_or in I. destruct I as [I|[I|[]]]; [exact (D I)|discriminate I].
  - destruct (rl_done s) as [|o r] eqn:Ed; [exact H|].
    assert (P : cause_inv (ReloadSt (rl_main s) (rl_matches s) (rl_timer s) (rl_hup s) r (rl_now s) (rl_log s)) /\
      (o = TReload false -> (reloads (rl_log s) + nreload r + armed s < signals (rl_log s))%nat /\
         exists t0, In (LSignal t0) (rl_log s) /\ (t0 + 2000 <= rl_now s)%Z)).
    { destruct H as [C T D G]. rewrite Ed in *. split.
      - constructor; cbn [rl_timer rl_hup rl_done rl_now rl_log]; try assumption.
        + unfold armed in *. cbn [rl_timer]. unfold nreload in *. cbn [filter] in C. destruct o as [[]|[]]; cbn [List.length] in C; lia.
        + intros I. apply D. right. exact I.
      - intros ->. split; [unfold nreload in *; cbn [filter List.length] in C; lia|]. apply D. left. reflexivity. }
    destruct P as (P & P2). destruct o as [[]|[]]; cbn [timer_handler rl_main rl_matches rl_timer rl_hup rl_done rl_now rl_log]; try exact P.
    + destruct (P2 eq_refl) as (Q & t0 & I & E). destruct P as [C T D G]. cbn [rl_timer rl_hup rl_done rl_now rl_log] in C, T, D, G. constructor; cbn [rl_timer rl_hup rl_done rl_now rl_log].
      * unfold armed in *. cbn [rl_timer] in *. unfold reloads, signals in *. cbn [filter is_reload is_signal List.length]. lia.
      * intros t X. destruct (T t X) as (t1 & J & K). exists t1. split; [right; exact J|exact K].
      * intros X. destruct (D X) as (t1 & J & K). exists t1. split; [right; exact J|exact K].
      * intros a n b X. apply log_cons in X. destruct X as [(_ & X & <-)|(a' & _ & X)]; [injection X as <-; exists t0; split; assumption|exact (G _ _ _ X)].
    + apply (cause_other _ _ (LHupReload (rl_now s)) P); try reflexivity. exact (fun x => x).
Qed.
Lemma cause_run evs : forall s, cause_inv s -> cause_inv (reload_run evs s).
Proof. induction evs as [|e evs IH]; intros s H; [exact H|]. apply IH, cause_step, H. Qed.
Lemma cause_init : cause_inv reload_init.
Proof.
  constructor; cbn; try discriminate; try lia; try tauto. intros a n b E. destruct a; discriminate E.
Qed.
Lemma C81_cause_lemma evs s : s = reload_run evs reload_init ->
  (reloads (rl_log s) <= signals (rl_log s))%nat /\
  forall a n b, rl_log s = (a ++ LReload n :: b)%list -> exists t, In (LSignal t) b /\ (t + 2000 <= n)%Z.
Proof.
  intros ->. destruct (cause_run evs _ cause_init) as [C _ _ G]. split; [lia|exact G].
Qed.

(** ** Bursts *)
Definition calm_log (new : list reload_event) : Prop := reloads new = 0%nat.
(** [k]: reloads since the beginning of the burst; [last]: time since the last signal. *)
Definition burst_inv (last : option Z) (k : nat) (s : reload_st) : Prop :=
  m_stopped (rl_main s) = false -> rl_matches s = true /\
  match last with
  | None => rl_timer s = None /\ nreload (rl_done s) = 0%nat /\ k = 0%nat
  | Some d => (0 <= d)%Z /\
      ((rl_timer s = Some (rl_now s - d + 2000)%Z /\ nreload (rl_done s) = 0%nat /\ k = 0%nat) \/
       (rl_timer s = None /\ (2000 <= d)%Z /\ (nreload (rl_done s) + k = 1)%nat))
  end.
Lemma burst_frame last k s s' : burst_inv last k s -> m_stopped (rl_main s) = false ->
  (rl_matches s = true -> rl_matches s' = true) -> rl_timer s' = rl_timer s -> rl_now s' = rl_now s ->
  nreload (rl_done s') = nreload (rl_done s) -> burst_inv last k s'.
Proof.
  intros H St M T N D _. destruct (H St) as (A & B). split; [exact (M A)|]. rewrite T, N, D. exact B.
Qed.
Definition is_vsignal (e : reload_ev) : Prop := exists m, e = VSignal m /\ about_configuration m.
Lemma about_dec m : {about_configuration m} + {~ about_configuration m}.
Proof. destruct (counts m) eqn:C; [left; apply counts_iff, C|right; intros A; apply counts_iff in A; congruence]. Qed.

Definition next_last (last : option Z) (e : reload_ev) : option Z :=
  match e with
  | VSignal m => if about_dec m then Some 0%Z else last
  | VWait ms => option_map (Z.add (Z.of_N ms)) last
  | _ => last
  end.
Lemma burst_cons last e r : burst last (e :: r) ->
  burst (next_last last e) r /\ (is_vsignal e -> forall d, last = Some d -> (d < 2000)%Z).
Proof.
  unfold next_last, is_vsignal.
  destruct e as [ms|m| | | | | |i| | |ok b bus]; cbn [burst]; intros H;
    try (split; [exact H|intros (m & X & _); discriminate X]).
  destruct H as (H1 & H2). destruct (about_dec m) as [A|N].
  - destruct (H1 A) as (H3 & H4). split; [exact H4|]. intros _. exact H3.
  - split; [exact (H2 N)|]. intros (m' & X & A). injection X as <-. contradiction.
Qed.

Lemma burst_step last k s e : burst_inv last k s -> m_stopped (rl_main s) = false ->
  (is_vsignal e -> forall d, last = Some d -> (d < 2000)%Z) ->
  exists new, rl_log (reload_step s e) = (new ++ rl_log s)%list /\ burst_inv (next_last last e) (k + reloads new) (reload_step s e).
Proof.
  intros H St SP.
  assert (Z0 : forall s', rl_log s' = rl_log s -> next_last last e = last -> burst_inv last k s' ->
     exists new, rl_log s' = (new ++ rl_log s)%list /\ burst_inv (next_last last e) (k + reloads new) s').
  { intros s' L E B. exists []. split; [exact L|]. rewrite E. cbn. rewrite Nat.add_0_r. exact B. }
  destruct (H St) as (M & B). unfold reload_step. rewrite St.
  destruct e as [ms|m| | | | | |i| | |ok b bus].
  - exists []. split; [reflexivity|]. intros _. split; [exact M|]. unfold reloads. cbn [filter List.length rl_timer rl_now rl_done next_last]. rewrite Nat.add_0_r.
    destruct last as [d|]; cbn [option_map]; [|exact B]. destruct B as (P & B). split; [lia|].
    destruct B as [(T & B)|(T & L & B)]; [left; split; [rewrite T; f_equal; lia|exact B]|right; split; [exact T|split; [lia|exact B]]].
  - rewrite M. destruct (about_dec m) as [A|N].
    + pose proof (signal_counts s m St M A) as (Tm & Lg).
      assert (Dn : exists n, rl_done (reload_step s (VSignal m)) = rl_done s ++ repeat (TReload true) n /\
                    rl_now (reload_step s (VSignal m)) = rl_now s /\ rl_matches (reload_step s (VSignal m)) = true).
      { unfold reload_step. rewrite St, M. unfold note_signal. fold (counts m). rewrite (proj2 (counts_iff m) A). cbn [rl_done rl_now rl_matches].
        destruct (deliver_frame m s) as (_ & Mm & _ & N & _ & (n & Dn) & _). exists n. split; [assumption|split; [assumption|congruence]]. }
      destruct Dn as (n & Dn & Nw & Mm).
      assert (Es : reload_step s (VSignal m) = note_signal m (deliver m s)) by (unfold reload_step; rewrite St, M; reflexivity).
      rewrite Es in *. exists [LSignal (rl_now s)]. split; [exact Lg|]. intros _. split; [exact Mm|].
      unfold next_last. destruct (about_dec m) as [_|X]; [|contradiction]. unfold reloads. cbn [filter is_reload List.length]. rewrite Nat.add_0_r.
      split; [lia|]. left. split; [rewrite Tm, Nw; f_equal; lia|]. rewrite Dn, nreload_app, nreload_aborted, Nat.add_0_r.
      specialize (SP (ex_intro _ m (conj eq_refl A))). destruct last as [d|]; [|tauto].
      specialize (SP d eq_refl). destruct B as (_ & [B|(_ & B & _)]); [tauto|lia].
    + assert (Es : note_signal m (deliver m s) = s).
      { pose proof (signal_ignored s m N) as X. unfold reload_step in X. rewrite St, M in X. exact X. }
      rewrite Es. apply Z0; [reflexivity| |exact H]. unfold next_last. destruct (about_dec m); [contradiction|reflexivity].
  - exists [LHup (rl_now s)]. split; [reflexivity|]. unfold reloads. cbn [filter is_reload List.length]. rewrite Nat.add_0_r.
    apply (burst_frame last k s _ H St); try reflexivity; [intros X; exact X|].
    cbn [arm_hup rl_done]. destruct (rl_hup s); [rewrite nreload_app; cbn; lia|reflexivity].
  - apply Z0; [reflexivity|reflexivity|]. apply (burst_frame last k s _ H St); try reflexivity. intros X; exact X.
  - destruct (rl_timer s) as [t|] eqn:Et; [|apply Z0; [reflexivity|reflexivity|exact H]].
    destruct (t <=? rl_now s)%Z eqn:Le; [|apply Z0; [reflexivity|reflexivity|exact H]]. apply Z.leb_le in Le.
    apply Z0; [reflexivity|reflexivity|]. intros _. split; [exact M|]. cbn [rl_timer rl_done rl_now].
    destruct last as [d|]; [|destruct B as (X & _); discriminate X].
    destruct B as (P & [(T & D & K)|(T & _)]); [|discriminate T]. injection T as T. split; [exact P|]. right.
    split; [reflexivity|]. split; [lia|]. rewrite nreload_app. cbn. lia.
  - destruct (rl_hup s) as [t|] eqn:Et; [|apply Z0; [reflexivity|reflexivity|exact H]].
    destruct (t <=? rl_now s)%Z eqn:Le; [|apply Z0; [reflexivity|reflexivity|exact H]].
    apply Z0; [reflexivity|reflexivity|]. apply (burst_frame last k s _ H St); try reflexivity; [intros X; exact X|].
    cbn [rl_done rl_timer rl_log rl_hup]. rewrite nreload_app. cbn in *. lia.
  - destruct (rl_done s) as [|o r] eqn:Ed; [apply Z0; [reflexivity|reflexivity|exact H]|].
    destruct o as [[]|[]]; unfold timer_handler.
    + apply Z0; [reflexivity|reflexivity|]. apply (burst_frame last k s _ H St); try reflexivity; [intros X; exact X|]. rewrite Ed. reflexivity.
    + exists [LReload (rl_now s)]. split; [reflexivity|]. intros _. split; [exact M|]. unfold reloads. cbn [filter is_reload List.length next_last rl_timer rl_done rl_now].
      unfold nreload in *. cbn [filter List.length] in B.
      destruct last as [d|]; [|lia]. destruct B as (P & [(T & D & K)|(T & L & K)]); [lia|]. split; [exact P|]. right.
      split; [exact T|]. split; [exact L|lia].
    + apply Z0; [reflexivity|reflexivity|]. apply (burst_frame last k s _ H St); try reflexivity; [intros X; exact X|]. rewrite Ed. reflexivity.
    + exists [LHupReload (rl_now s)]. split; [reflexivity|]. unfold reloads. cbn [filter is_reload List.length]. rewrite Nat.add_0_r.
      apply (burst_frame last k s _ H St); try reflexivity; [intros X; exact X|]. rewrite Ed. reflexivity.
  - apply Z0; [reflexivity|reflexivity|]. apply (burst_frame last k s _ H St); try reflexivity. intros X; exact X.
  - apply Z0; [reflexivity|reflexivity|]. apply (burst_frame last k s _ H St); try reflexivity. intros X; exact X.
  - apply Z0; [reflexivity|reflexivity|]. apply (burst_frame last k s _ H St); try reflexivity. intros X; exact X.
  - apply Z0; [reflexivity|reflexivity|]. apply (burst_frame last k s _ H St); try reflexivity. cbn. intros ->. reflexivity.
Qed.

Lemma burst_run : forall evs last k s, burst last evs -> burst_inv last k s -> (k <= 1)%nat ->
  exists new last', rl_log (reload_run evs s) = (new ++ rl_log s)%list /\ (k + reloads new <= 1)%nat /\
    burst_inv last' (k + reloads new) (reload_run evs s) /\
    (m_stopped (rl_main (reload_run evs s)) = false ->
     (last <> None \/ exists m, In (VSignal m) evs /\ about_configuration m) -> last' <> None).
Proof.
  induction evs as [|e evs IH]; intros last k s B I K.
  - exists [], last. split; [reflexivity|]. cbn. rewrite Nat.add_0_r. split; [exact K|]. split; [exact I|].
    intros _ [X|(m & [] & _)]. exact X.
  - destruct (m_stopped (rl_main s)) eqn:St.
    { rewrite stopped_stays by exact St. exists [], last. split; [reflexivity|]. cbn. rewrite Nat.add_0_r. split; [exact K|].
      split; [intros X; congruence|]. intros X. congruence. }
    apply burst_cons in B. destruct B as (B & SP). destruct (burst_step last k s e I St SP) as (n1 & L1 & I1).
    assert (K1 : (k + reloads n1 <= 1)%nat).
    { destruct (m_stopped (rl_main (reload_step s e))) eqn:S1.
      - (* ended in this step: no reload was printed, the handler only posts *)
        assert (R : reloads n1 = 0%nat); [|lia].
        unfold reload_step in L1, S1. rewrite St in L1, S1.
        assert (Q : forall l, rl_log s = (l ++ rl_log s)%list -> l = []).
        { intros l E. apply (f_equal (@List.length _)) in E. rewrite app_length in E. destruct l; [reflexivity|cbn in E; lia]. }
        destruct e as [ms|m| | | | | |i| | |ok b bus]; cbn [rl_log] in L1; try (rewrite (Q _ L1); reflexivity).
        + destruct (rl_matches s) eqn:M; [|rewrite (Q _ L1); reflexivity]. unfold note_signal in L1, S1.
          destruct (deliver_frame m s) as (Dm & _ & _ & _ & Dl & _).
          destruct (existsb _ _ && _); cbn [rl_log rl_main] in L1, S1; congruence.
        + cbn in S1. congruence.
        + destruct (rl_timer s) as [t|]; [destruct (t <=? rl_now s)%Z|]; cbn [rl_log] in L1; rewrite (Q _ L1); reflexivity.
        + destruct (rl_hup s) as [t|]; [destruct (t <=? rl_now s)%Z|]; cbn [rl_log] in L1; rewrite (Q _ L1); reflexivity.
        + destruct (rl_done s) as [|[[]|[]] r]; cbn [timer_handler rl_log rl_main] in L1, S1; try (rewrite (Q _ L1); reflexivity);
            unfold main_step in S1; rewrite St in S1; cbn in S1; congruence.
      - destruct (I1 S1) as (_ & X). destruct (next_last last e) as [d|]; [|lia]. destruct X as (_ & [X|X]); lia. }
    destruct (IH _ _ _ B I1 K1) as (n2 & last' & L2 & K2 & I2 & N2).
    exists (n2 ++ n1)%list, last'. cbn [reload_run fold_left]. fold (reload_run evs (reload_step s e)).
    split; [rewrite L2, L1, app_assoc; reflexivity|].
    assert (R : reloads (n2 ++ n1) = (reloads n1 + reloads n2)%nat) by (unfold reloads; rewrite filter_app, app_length; lia).
    rewrite R, Nat.add_assoc. split; [exact K2|]. split; [exact I2|]. intros S2 Hy. apply (N2 S2).
    destruct Hy as [Hy|(m & [->|Im] & A)].
    + left. destruct last as [d|]; [|congruence]. unfold next_last. destruct e; cbn; try discriminate. destruct (about_dec m); discriminate.
    + left. unfold next_last. destruct (about_dec m); [discriminate|contradiction].
    + right. exists m. split; assumption.
Qed.

Lemma C81_burst_lemma evs0 evs s s' : s = reload_run evs0 reload_init -> s' = reload_run evs s ->
  rl_matches s = true -> no_reload_coming s -> burst None evs ->
  exists new, rl_log s' = (new ++ rl_log s)%list /\ (reloads new <= 1)%nat /\
    (~ ended s' -> no_reload_coming s' -> (exists m, In (VSignal m) evs /\ about_configuration m) -> reloads new = 1%nat).
Proof.
  intros Es Es' M (T & D) B.
  assert (ND : forall l, ~ In (TReload false) l -> nreload l = 0%nat).
  { intros l N. unfold nreload. induction l as [|o l IH]; [reflexivity|]. cbn. destruct o as [[]|[]]; try (apply IH; intros X; apply N; right; exact X).
    exfalso. apply N. left. reflexivity. }
  assert (I : burst_inv None 0 s) by (intros _; split; [exact M|]; split; [exact T|]; split; [apply ND, D|reflexivity]).
  destruct (burst_run evs None 0 s B I (Nat.le_0_l 1)) as (new & last & L & K & I' & N). rewrite <- Es' in *.
  exists new. split; [exact L|]. split; [exact K|]. intros NE (T' & D') Hy.
  assert (St : m_stopped (rl_main s') = false).
  { rewrite Es', Es, <- reload_run_app in NE. rewrite Es', Es, <- reload_run_app. apply not_ended, NE. }
  specialize (N St (or_intror Hy)). destruct (I' St) as (_ & X). destruct last as [d|]; [|congruence].
  destruct X as (_ & [(X & _)|(_ & _ & X)]); [congruence|]. rewrite (ND _ D') in X. exact X.
Qed.

(** ** Running zones *)
Lemma parts_single evs : forall s, one_zone evs -> single_zone (main_parts evs s).
Proof.
  induction evs as [|e evs IH]; intros s O ok ids good I; [destruct I|].
  cbn in I. apply in_app_or in I. destruct I as [I|I].
  - unfold main_part in I. destruct (m_stopped (rl_main s)); [destruct I|].
    destruct e as [ms|m| | | | | |i| | |ok' b bus]; cbn in I; try contradiction;
      try (destruct I as [I|[]]; discriminate I).
    + destruct (rl_done s) as [|[[]|[]] r]; cbn in I; try (destruct I as [I|[]]; discriminate I); destruct I.
    + destruct I as [I|[]]. injection I as -> ->. apply (O ok ids good bus). left. reflexivity.
  - apply (IH _ (fun ok ids good bus J => O ok ids good bus (or_intror J)) _ _ _ I).
Qed.
Lemma filter_none l : (List.length (filter is_attempt l) <= 0)%nat -> existsb is_attempt l = false.
Proof.
  induction l as [|o l IH]; cbn; [reflexivity|]. destruct (is_attempt o); cbn; [lia|exact IH].
Qed.
Lemma queue_adds m e : m_stopped m = false -> queues_attempt m e = true ->
  List.length (filter is_attempt (m_ready (main_step m e))) = S (List.length (filter is_attempt (m_ready m))).
Proof.
  intros St Q. unfold main_step. rewrite St.
  destruct e as [i| | | | |ok b]; cbn in Q; try discriminate Q; try rewrite Q; cbn; rewrite filter_app, app_length; cbn; lia.
Qed.
Lemma main_part_one s e : main_part s e = [] \/ exists x, main_part s e = [x].
Proof.
  unfold main_part. destruct (m_stopped (rl_main s)); [left; reflexivity|].
  destruct e as [ms|m| | | | | |i| | |ok b bus]; try (left; reflexivity); try (right; eexists; reflexivity).
  destruct (rl_done s) as [|[[]|[]] r]; try (left; reflexivity); right; eexists; reflexivity.
Qed.
Lemma parts_no_overlap evs : forall s,
  (forall pre post, evs = (pre ++ post)%list -> (List.length (filter is_attempt (m_ready (rl_main (reload_run pre s)))) <= 1)%nat) ->
  no_overlap (main_parts evs s) (rl_main s).
Proof.
  induction evs as [|e evs IH]; intros s H; [exact Logic.I|]. cbn [main_parts].
  assert (H' : no_overlap (main_parts evs (reload_step s e)) (rl_main (reload_step s e))).
  { apply IH. intros pre post E. apply (H (e :: pre) post). rewrite E. reflexivity. }
  pose proof (step_main s e) as SM. pose proof (H [e] evs eq_refl) as H1. cbn [reload_run fold_left] in H1.
  destruct (main_part_one s e) as [E|(x & E)]; rewrite E in *; cbn [app] in *.
  - cbn in SM. rewrite <- SM. exact H'.
  - cbn in SM. cbn [no_overlap]. rewrite <- SM. split; [|exact H'].
    intros Q. apply filter_none. destruct (m_stopped (rl_main s)) eqn:St.
    + unfold main_part in E. rewrite St in E. discriminate E.
    + rewrite SM, (queue_adds _ _ St Q) in H1. lia.
Qed.

Lemma in_after_last_stop e a h : In MStopped h -> In e (after_last_stop (a ++ h)) -> In e h.
Proof.
  intros I. assert (X : forall l acc e, In e (fold_left (fun acc e => match e with MStopped => [] | _ => acc ++ [e] end) l acc) ->
    In e l \/ (In e acc /\ ~ In MStopped l)).
  { intros l. induction l as [|x l IH]; intros acc y H; [right; split; [exact H|intros []]|]. cbn in H. apply IH in H.
    destruct H as [H|(H & N)]; [left; right; exact H|].
    destruct x; try (apply in_app_or in H; destruct H as [H|[H|[]]]; [right; split; [exact H|intros [Y|Y]; [discriminate Y|contradiction]]|left; left; exact H]).
    destruct H. }
  unfold after_last_stop. rewrite fold_left_app. intros H. apply X in H. destruct H as [H|(_ & N)]; [exact H|contradiction].
Qed.

Lemma C81_current_lemma evs pre m post s :
  one_attempt evs \/ one_zone evs -> evs = (pre ++ VSignal m :: post)%list -> s = reload_run evs reload_init ->
  about_configuration m -> rl_matches (reload_run pre reload_init) = true -> ~ ended s -> settled s ->
  exists h, since (reload_run pre reload_init) s h /\ forall i, In i (live (rl_main s)) -> In (MStarted i) h.
Proof.
  intros O E Es A M NE Se. destruct (C81_lost_lemma _ _ _ _ _ E Es A M NE Se) as (h & Si & I).
  exists h. split; [exact Si|]. intros i Li.
  assert (O' : no_overlap (EPostRestart :: main_parts evs reload_init) main_init \/ single_zone (EPostRestart :: main_parts evs reload_init)).
  { destruct O as [O|O].
    - left. split; [reflexivity|]. apply (parts_no_overlap evs reload_init O).
    - right. intros ok ids good [X|X]; [discriminate X|]. exact (parts_single evs reload_init O _ _ _ X). }
  pose proof (init_main evs) as EM. rewrite <- Es in EM.
  destruct (C45_one_loop_lemma _ (rl_main s) O' EM) as (_ & H).
  assert (NF : ~ In MStopFailed (after_last_stop (history (rl_main s)))).
  { intros X. destruct (C45_retry_lemma _ (rl_main s) O' EM X NE) as (Y & _).
    destruct Se as (_ & _ & _ & R & T & F). destruct Y as [Y|[Y|(o & J & Y)]]; [congruence|congruence|]. rewrite (F _ J) in Y. discriminate Y. }
  apply (H NE NF) in Li. unfold since in Si. rewrite Si in Li. exact (in_after_last_stop _ _ _ I Li).
Qed.

(** ** Profiles *)
Lemma profiles_lemma objects current :
  match getSelectedProfiles (Some objects) current with
  | Ok selected => (forall path owners owner, In (path, owners) objects -> In owner owners -> current owner path <> None) /\
      forall p, In p selected <-> currently objects current p
  | _ => exists path owners owner, In (path, owners) objects /\ In owner owners /\ current owner path = None
  end.
Proof.
  unfold getSelectedProfiles. set (pairs := flat_map _ objects).
  assert (P : forall path owner, In (path, owner) pairs <-> exists owners, In (path, owners) objects /\ In owner owners).
  { intros path owner. unfold pairs. rewrite in_flat_map. split.
    - intros ((p & os) & I & J). apply in_map_iff in J. destruct J as (x & E & K). injection E as <- <-. exists os. split; assumption.
    - intros (os & I & J). exists (path, os). split; [exact I|]. apply in_map_iff. exists owner. split; [reflexivity|exact J]. }
  assert (G : forall l acc, match foldM (fun ret po => match current (snd po) (fst po) with
        | None => Throw "Failure getting profile"%string | Some mode => Ok (ret ++ [mode])%list end) l acc with
      | Ok sel => (forall po, In po l -> current (snd po) (fst po) <> None) /\
                  forall p, In p sel <-> In p acc \/ exists po, In po l /\ current (snd po) (fst po) = Some p
      | _ => exists po, In po l /\ current (snd po) (fst po) = None
      end).
  { induction l as [|po l IH]; intros acc; cbn [foldM].
    - split; [intros po []|]. intros p. split; [intros I; left; exact I|intros [I|(po & [] & _)]; exact I].
    - destruct (current (snd po) (fst po)) as [mode|] eqn:C; cbn [bind].
      + specialize (IH (acc ++ [mode])%list). destruct (foldM _ l (acc ++ [mode])%list) as [sel|e|e].
        * destruct IH as (A & B). split; [intros q [<-|I]; [congruence|exact (A q I)]|].
          intros p. rewrite B, in_app_iff. cbn. split.
          -- intros [[I|[<-|[]]]|(q & I & E)]; [left; exact I|right; exists po; split; [left; reflexivity|exact C]|right; exists q; split; [right; exact I|exact E]].
          -- intros [I|(q & [<-|I] & E)]; [left; left; exact I|left; right; left; congruence|right; exists q; split; assumption].
        * destruct IH as (q & I & E). exists q. split; [right; exact I|exact E].
        * destruct IH as (q & I & E). exists q. split; [right; exact I|exact E].
      + exists po. split; [left; reflexivity|exact C]. }
  specialize (G pairs []). destruct (foldM _ pairs []) as [sel|e|e].
  - destruct G as (A & B). split.
    + intros path owners owner I J. apply (A (path, owner)). apply P. exists owners. split; assumption.
    + intros p. rewrite B. split.
      * intros [[]|((path & owner) & I & E)]. apply P in I. destruct I as (owners & I & J). exists path, owners, owner. auto.
      * intros (path & owners & owner & I & J & E). right. exists (path, owner). split; [apply P; exists owners; split; assumption|exact E].
  - destruct G as ((path & owner) & I & E). apply P in I. destruct I as (owners & I & J). exists path, owners, owner. auto.
  - destruct G as ((path & owner) & I & E). apply P in I. destruct I as (owners & I & J). exists path, owners, owner. auto.
Qed.

Lemma C83_selects_lemma objects current selected props :
  getSelectedProfiles (Some objects) current = Ok selected ->
  (in_profile selected props <-> in_force objects current props).
Proof.
  intros E. pose proof (profiles_lemma objects current) as H. rewrite E in H. destruct H as (A & B).
  unfold in_profile, in_force.
  assert (N : selected = [] <-> (forall path owners, In (path, owners) objects -> owners = [])).
  { split.
    - intros -> path owners I. destruct owners as [|o os]; [reflexivity|exfalso].
      destruct (current o path) as [p|] eqn:C; [|exact (A _ _ o I (or_introl eq_refl) C)].
      apply (proj2 (B p)). exists path, (o :: os), o. split; [exact I|]. split; [left; reflexivity|exact C].
    - intros X. destruct selected as [|p l]; [reflexivity|exfalso].
      destruct (proj1 (B p) (or_introl eq_refl)) as (path & owners & owner & I & J & _). rewrite (X _ _ I) in J. destruct J. }
  rewrite N. split; (intros [X|[X|[X|(l & p & X & I & J)]]]; [left; exact X|right; left; exact X|right; right; left; exact X|
    right; right; right; exists l, p; split; [exact X|split; [exact I|apply B; exact J]]]).
Qed.
Lemma C83_unreadable_lemma objects current :
  (exists selected, getSelectedProfiles objects current = Ok selected) <->
  exists l, objects = Some l /\
    forall path owners owner, In (path, owners) l -> In owner owners -> current owner path <> None.
Proof.
  destruct objects as [l|]; [|split; [intros (? & X); discriminate X|intros (? & X & _); discriminate X]].
  pose proof (profiles_lemma l current) as H.
  destruct (getSelectedProfiles (Some l) current) as [sel|e|e]; split.
  - intros _. exists l. split; [reflexivity|apply H].
  - intros _. exists sel. reflexivity.
  - intros (? & X). discriminate X.
  - intros (l' & X & Y). injection X as <-. destruct H as (path & owners & owner & I & J & C). destruct (Y _ _ _ I J C).
  - intros (? & X). discriminate X.
  - intros (l' & X & Y). injection X as <-. destruct H as (path & owners & owner & I & J & C). destruct (Y _ _ _ I J C).
Qed.

Lemma same_smem l l' : (forall p, In p l <-> In p l') -> forall p, smem p l = smem p l'.
Proof.
  intros H p. apply eq_true_iff_eq. rewrite !smem_In. apply H.
Qed.
Lemma same_interfaces l l' o : (forall p, In p l <-> In p l') -> select_interfaces l o = select_interfaces l' o.
Proof.
  intros H. induction o as [|(i & props) o IH]; [reflexivity|]. cbn [select_interfaces]. rewrite IH.
  assert (E : profile_selected l props = profile_selected l' props); [|rewrite E; reflexivity].
  unfold profile_selected. destruct (mget "Profiles" props) as [v|]; [|reflexivity]. destruct (get_strs v) as [[|q qs]|e|e]; cbn [bind]; try reflexivity.
  f_equal. cbn [existsb]. rewrite (same_smem _ _ H q). f_equal. induction qs as [|x qs IHq]; [reflexivity|]. cbn [existsb].
  rewrite (same_smem _ _ H x), IHq. reflexivity.
Qed.
Lemma same_objects l l' confs : (forall p, In p l <-> In p l') -> select_objects l confs = select_objects l' confs.
Proof.
  intros H. induction confs as [|(path & o) confs IH]; [reflexivity|]. cbn [select_objects].
  rewrite IH, (same_interfaces _ _ o H). reflexivity.
Qed.
Lemma C83_order_lemma sf re cb l l' : cb_profiles cb = Some l -> (forall p, In p l <-> In p l') ->
  dbus_init sf re (with_profiles l' cb) = dbus_init sf re cb.
Proof.
  intros E H. unfold dbus_init, with_profiles. cbn [cb_subtree cb_managed cb_profiles cb_thresholds]. rewrite E.
  destruct (cb_subtree cb) as [[|x resp]|]; [reflexivity| |reflexivity].
  destruct (scan (x :: resp)) as [owners sensors]. destruct (gather (cb_managed cb) owners) as [confs|e|e]; cbn [bind]; [|reflexivity|reflexivity].
  assert (A : apply_profiles l' confs = apply_profiles l confs); [|rewrite A; reflexivity].
  unfold apply_profiles. rewrite (same_objects l l' confs H).
  destruct l as [|p l], l' as [|p' l']; try reflexivity.
  - destruct (proj2 (H p') (or_introl eq_refl)).
  - destruct (proj1 (H p) (or_introl eq_refl)).
Qed.

Lemma C81_which_lemma s m : rl_matches s = true -> m_stopped (rl_main s) = false ->
  (about_configuration m -> rl_timer (reload_step s (VSignal m)) = Some (rl_now s + 2000)%Z) /\
  (~ about_configuration m -> reload_step s (VSignal m) = s).
Proof. intros M St. split; [intros A; apply (signal_counts _ _ St M A)|apply signal_ignored]. Qed.
