(** * Proofs about the PID core log and the routing of failsafe messages. *)
From Coq Require Import ZArith Bool List String Ascii Lia.
From Verif Require Import Base BaseFacts Dbl DblFacts DblOrder PidModel LogModel SpecLog LogProofs.
Import ListNotations.
Local Open Scope string_scope.
Local Open Scope Z_scope.

(** ** Comparing contexts *)
Lemma ctx_eqb_iff a b : ctx_eqb a b = true <-> same_numbers a b.
Proof. unfold ctx_eqb, same_numbers, deq. rewrite !andb_true_iff. tauto. Qed.
Lemma same_trans a b c : same_numbers a b -> same_numbers b c -> same_numbers a c.
Proof.
  unfold same_numbers. intuition (eapply deq_trans; eassumption).
Qed.
Lemma same_sym a b : same_numbers a b -> same_numbers b a.
Proof. unfold same_numbers. intuition (apply deq_sym; assumption). Qed.

(** ** The two logger calls, field by field *)

Lemma lines_act name n p x w :
  lines name (act n p x w) =
    match x with AContext t c => if String.eqb n name then (t, c) :: lines name w else lines name w
    | _ => lines name w end.
Proof. unfold lines, act. cbn. destruct x; cbn; try reflexivity. destruct (String.eqb n name); reflexivity. Qed.
Lemma lines_logs name m acts : lines name (CoreWorld m acts) = lines name (CoreWorld [] acts).
Proof. reflexivity. Qed.

(** Every log after LogInit: untouched, or the one of [name], freshly reset. *)
Lemma LogInit_spec cc opens now name info w :
  let w' := LogInit cc opens now name info w in
  (forall n, lines n w' = lines n w) /\
  (forall n, n <> name -> mget n (cw_logs w') = mget n (cw_logs w)) /\
  (mget name (cw_logs w') = None \/
   exists l, mget name (cw_logs w') = Some l /\ pl_lastLog l = 0) \/
  w' = w.
Proof.
  unfold LogInit. cbv zeta.
  destruct (negb (coreLoggingEnabled cc)); [right; reflexivity|].
  destruct (String.eqb name ""); [right; reflexivity|].
  destruct (String.eqb (StrClean name) ""); [right; reflexivity|].
  destruct (mget name (cw_logs w)) as [l|] eqn:G.
  { left. split; [intro n; unfold lines; cbn; reflexivity|]. split.
    - intros n N. cbn. rewrite mget_mset_other by congruence. reflexivity.
    - right. cbn. rewrite mget_mset_same. eexists. split; reflexivity. }
  destruct (existsb _ _); [right; reflexivity|].
  destruct (negb (opens (loggingPath cc ++ "/pidcore." ++ StrClean name))); [right; reflexivity|].
  destruct (negb (opens _)).
  - left. split; [intro n; unfold lines; cbn; reflexivity|]. split; [reflexivity|].
    left. cbn. exact G.
  - left. split; [intro n; unfold lines; cbn; reflexivity|]. split.
    + intros n N. cbn. rewrite !mget_mset_other by congruence. reflexivity.
    + right. cbn. rewrite mget_mset_same. eexists. split; reflexivity.
Qed.

(** When logging works for [name] at all, LogInit resets its log. *)
Lemma LogInit_resets cc opens now name info w l :
  mget name (cw_logs (LogInit cc opens now name info w)) = Some l ->
  coreLoggingEnabled cc = true -> name <> "" -> StrClean name <> "" ->
  pl_lastLog l = 0.
Proof.
  unfold LogInit. intros H E N C.
  rewrite E in H. cbn [negb] in H. apply String.eqb_neq in N, C. rewrite N, C in H.
  destruct (mget name (cw_logs w)) as [l0|] eqn:G.
  - cbn in H. rewrite mget_mset_same in H. injection H as <-. reflexivity.
  - destruct (existsb _ _); [congruence|]. destruct (negb (opens _)); [congruence|]. destruct (negb (opens _)); cbn in H.
    + congruence.
    + rewrite mget_mset_same in H. injection H as <-. reflexivity.
Qed.

Lemma LogContext_spec now name c w :
  let w' := LogContext now name c w in
  match mget name (cw_logs w) with
  | None => w' = w
  | Some l =>
      (forall n, n <> name -> mget n (cw_logs w') = mget n (cw_logs w) /\ lines n w' = lines n w) /\
      if should_log l now c
      then lines name w' = (now, c) :: lines name w /\
           mget name (cw_logs w') = Some (CoreLog (pl_nameClean l) (pl_fileContext l) (pl_fileCoeffs l) now c)
      else w' = w
  end.
Proof.
  unfold LogContext. cbv zeta. destruct (mget name (cw_logs w)) as [l|] eqn:G; [|reflexivity].
  destruct (should_log l now c); [|auto]. split.
  - intros n N. split; [cbn; rewrite mget_mset_other by congruence; reflexivity|].
    rewrite lines_act. apply not_eq_sym, String.eqb_neq in N. rewrite N. reflexivity.
  - split; [rewrite lines_act, String.eqb_refl; reflexivity|cbn; apply mget_mset_same].
Qed.

(** ** C40 *)

Lemma last_eval_snoc name ops o :
  last_eval name (ops ++ [o]) = if String.eqb (co_name o) name then Some (context_of o) else last_eval name ops.
Proof. unfold last_eval. rewrite fold_left_app. reflexivity. Qed.
Lemma core_run_snoc cc ops o : core_run cc (ops ++ [o]) = core_step cc (core_run cc ops) o.
Proof. unfold core_run. rewrite fold_left_app. reflexivity. Qed.

Definition core_inv (cc : core_conf) (ops : list core_op) (w : core_world) : Prop :=
  forall name l, mget name (cw_logs w) = Some l ->
    coreLoggingEnabled cc = true /\ name <> "" /\ StrClean name <> "" /\
    pl_lastLog l <> 0 /\
    (exists rest, lines name w = (pl_lastLog l, pl_lastContext l) :: rest) /\
    exists c, last_eval name ops = Some c /\ (pl_lastContext l = c \/ same_numbers (pl_lastContext l) c).

Lemma LogInit_usable cc opens now name info w l :
  mget name (cw_logs (LogInit cc opens now name info w)) = Some l ->
  mget name (cw_logs w) = None ->
  coreLoggingEnabled cc = true /\ name <> "" /\ StrClean name <> "".
Proof.
  unfold LogInit. intros H G.
  destruct (coreLoggingEnabled cc); cbn [negb] in H; [|congruence].
  destruct (String.eqb_spec name ""); [congruence|].
  destruct (String.eqb_spec (StrClean name) ""); [congruence|]. auto.
Qed.

(** What one evaluation does to the lines of its own PID. *)
Lemma core_step_spec cc ops w o :
  core_inv cc ops w -> w = core_run cc ops -> co_now o > 0 ->
  let w' := core_step cc w o in
  core_inv cc (ops ++ [o]) w' /\
  (logged (co_name o) w' ->
     (line_due cc ops o -> lines (co_name o) w' = (co_now o, context_of o) :: lines (co_name o) w) /\
     (~ line_due cc ops o -> lines (co_name o) w' = lines (co_name o) w)) /\
  (forall n, n <> co_name o -> lines n w' = lines n w).
Proof.
  intros I W P. cbv zeta. unfold core_step, pid_logged.
  set (w1 := if initialized (co_info o) then w
             else LogInit cc (co_opens o) (co_init_now o) (co_name o) (co_info o) w).
  assert (EC : snd (pid_eval (co_info o) (co_input o) (co_setpoint o)) = context_of o) by reflexivity.
  destruct (pid_eval (co_info o) (co_input o) (co_setpoint o)) as [info' c]. cbn [snd] in EC. subst c. cbn [fst].
  set (c := context_of o) in *. set (nm := co_name o) in *.
  assert (W1 : (forall n, lines n w1 = lines n w) /\ (forall n, n <> nm -> mget n (cw_logs w1) = mget n (cw_logs w)) /\
    forall l, mget nm (cw_logs w1) = Some l ->
      (coreLoggingEnabled cc = true /\ nm <> "" /\ StrClean nm <> "") /\
      if initialized (co_info o) then mget nm (cw_logs w) = Some l else pl_lastLog l = 0).
  { unfold w1. destruct (initialized (co_info o)).
    - split; [reflexivity|]. split; [reflexivity|]. intros l G. split; [|exact G].
      destruct (I nm l G) as (H1 & H2 & H3 & _). auto.
    - pose proof (LogInit_spec cc (co_opens o) (co_init_now o) nm (co_info o) w) as S. cbv zeta in S.
      assert (U : forall l, mget nm (cw_logs (LogInit cc (co_opens o) (co_init_now o) nm (co_info o) w)) = Some l ->
        (coreLoggingEnabled cc = true /\ nm <> "" /\ StrClean nm <> "") /\ pl_lastLog l = 0).
      { intros l G. assert (H : coreLoggingEnabled cc = true /\ nm <> "" /\ StrClean nm <> "").
        { destruct (mget nm (cw_logs w)) as [l0|] eqn:G0.
          - destruct (I nm l0 G0) as (H1 & H2 & H3 & _). auto.
          - exact (LogInit_usable _ _ _ _ _ _ _ G G0). }
        split; [exact H|]. destruct H as (H1 & H2 & H3). exact (LogInit_resets _ _ _ _ _ _ _ G H1 H2 H3). }
      destruct S as [(S1 & S2 & _)|S]; [auto|]. rewrite S in *. auto. }
  destruct W1 as (L1 & O1 & G1). clearbody w1.
  pose proof (LogContext_spec (co_now o) nm c w1) as S. cbv zeta in S.
  set (w' := LogContext (co_now o) nm c w1) in *. clearbody w'.
  destruct (mget nm (cw_logs w1)) as [l|] eqn:G.
  2:{ subst w'. split; [|split].
      - intros n l Gn. destruct (String.eqb_spec nm n) as [<-|NE]; [congruence|].
        rewrite O1 in Gn by congruence. destruct (I n l Gn) as (A1 & A2 & A3 & A4 & A5 & A6).
        rewrite L1, last_eval_snoc. fold nm. apply String.eqb_neq in NE. rewrite NE. auto 10.
      - intro LG. unfold logged in LG. rewrite G in LG. congruence.
      - intros n _. apply L1. }
  destruct S as [SO S]. destruct (G1 l eq_refl) as [U G2].
  (* the decision is the right one *)
  assert (DUE : should_log l (co_now o) c = true <-> line_due cc ops o).
  { unfold should_log, line_due. fold nm c. destruct (initialized (co_info o)) eqn:IN.
    - destruct (I nm l G2) as (_ & _ & _ & NZ & (rest & HL) & (c0 & HC & HS)).
      apply Z.eqb_neq in NZ. rewrite NZ, orb_true_iff, negb_true_iff, Z.leb_le. rewrite <- W, HL, HC. split.
      + intros [T|NS].
        * right. right. exists (pl_lastLog l), (pl_lastContext l), rest. auto.
        * right. left. intros c1 E1 SN. injection E1 as <-. rewrite <- not_true_iff_false, ctx_eqb_iff in NS.
          apply NS. destruct HS as [->|HS]; [exact SN|exact (same_trans _ _ _ HS SN)].
      + intros [?|[NS|(t & c1 & r & E & T)]]; [discriminate| |].
        * right. rewrite <- not_true_iff_false, ctx_eqb_iff. intro SN. apply (NS c0 eq_refl).
          destruct HS as [<-|HS]; [exact SN|exact (same_trans _ _ _ (same_sym _ _ HS) SN)].
        * left. injection E as <- <- _. exact T.
    - rewrite G2. cbn. split; [left; reflexivity|reflexivity]. }
  split; [|split].
  - intros n ln Gn. rewrite last_eval_snoc. fold nm c.
    destruct (String.eqb_spec nm n) as [<-|NE].
    + split; [apply U|]. split; [apply U|]. split; [apply U|].
      destruct (should_log l (co_now o) c) eqn:SL.
      * destruct S as [S1 S2]. rewrite S2 in Gn. injection Gn as <-. cbn. split; [lia|].
        split; [rewrite S1; eexists; reflexivity|]. exists c. auto.
      * subst w'. rewrite G in Gn. injection Gn as <-. rewrite L1.
        unfold should_log in SL. destruct (initialized (co_info o)) eqn:IN; [|rewrite G2 in SL; discriminate].
        destruct (I nm l G2) as (_ & _ & _ & NZ & HL & _). split; [exact NZ|]. split; [exact HL|].
        exists c. split; [reflexivity|]. right. apply orb_false_iff in SL. destruct SL as [_ SL].
        apply negb_false_iff, ctx_eqb_iff in SL. exact SL.
    + destruct (SO n ltac:(congruence)) as [SO1 SO2]. rewrite SO1, O1 in Gn by congruence.
      rewrite SO2, L1. apply I. exact Gn.
  - intros _. rewrite <- DUE, <- L1. destruct (should_log l (co_now o) c).
    + destruct S as [S1 _]. split; [intros _; exact S1|congruence].
    + subst w'. split; [discriminate|reflexivity].
  - intros n NE. destruct (SO n NE) as [_ SO2]. rewrite SO2. apply L1.
Qed.

Lemma core_inv_run cc ops :
  Forall (fun o => co_now o > 0) ops -> core_inv cc ops (core_run cc ops).
Proof.
  induction ops as [|o ops IH] using rev_ind; intro F.
  - intros name l G. discriminate G.
  - apply Forall_app in F. destruct F as [F1 F2]. inversion F2; subst.
    rewrite core_run_snoc. apply core_step_spec; [apply IH; assumption|reflexivity|assumption].
Qed.

Lemma C40_lemma cc ops o :
  Forall (fun o => co_now o > 0) (ops ++ [o]) ->
  let before := core_run cc ops in
  let after := core_run cc (ops ++ [o]) in
  logged (co_name o) after ->
  (line_due cc ops o -> lines (co_name o) after = (co_now o, context_of o) :: lines (co_name o) before) /\
  (~ line_due cc ops o -> lines (co_name o) after = lines (co_name o) before).
Proof.
  intros F before after LG. apply Forall_app in F. destruct F as [F1 F2]. inversion F2; subst.
  unfold after in *. rewrite core_run_snoc in *.
  apply (core_step_spec cc ops before o (core_inv_run cc ops F1) eq_refl H1). exact LG.
Qed.

Lemma C40_nothing_lost_lemma cc ops name c :
  Forall (fun o => co_now o > 0) ops ->
  logged name (core_run cc ops) -> last_eval name ops = Some c ->
  exists t c' rest, lines name (core_run cc ops) = (t, c') :: rest /\ (c' = c \/ same_numbers c' c).
Proof.
  intros F LG E. unfold logged in LG. destruct (mget name (cw_logs (core_run cc ops))) as [l|] eqn:G; [|congruence].
  destruct (core_inv_run cc ops F name l G) as (_ & _ & _ & _ & (rest & HL) & (c0 & HC & HS)).
  exists (pl_lastLog l), (pl_lastContext l), rest. split; [exact HL|]. congruence || (assert (c0 = c) by congruence; subst; exact HS).
Qed.

(** ** C41 *)

Lemma append_assoc (a b c : string) : ((a ++ b) ++ c = a ++ (b ++ c))%string.
Proof. induction a as [|x r IH]; cbn; congruence. Qed.
Lemma append_inj_l (a b c : string) : (a ++ b = a ++ c)%string -> b = c.
Proof. induction a as [|x r IH]; cbn; [auto|]. intro H. injection H as H. auto. Qed.

Definition context_path (cc : core_conf) (clean : string) : string := loggingPath cc ++ "/pidcore." ++ clean.
Definition coeffs_path (cc : core_conf) (clean : string) : string := loggingPath cc ++ "/pidcoeffs." ++ clean.

Lemma paths_differ cc a b : context_path cc a <> coeffs_path cc b.
Proof. unfold context_path, coeffs_path. intro H. apply append_inj_l in H. discriminate H. Qed.
Lemma context_path_inj cc a b : context_path cc a = context_path cc b -> a = b.
Proof. intro H. apply append_inj_l in H. injection H as H. exact H. Qed.
Lemma coeffs_path_inj cc a b : coeffs_path cc a = coeffs_path cc b -> a = b.
Proof. intro H. apply append_inj_l in H. injection H as H. exact H. Qed.

Lemma CharValid_iff c : CharValid c = true <-> letter_or_digit c.
Proof.
  unfold CharValid, letter_or_digit, n_of. rewrite !orb_true_iff, !andb_true_iff, !N.leb_le. lia.
Qed.
Lemma StrClean_reduced s : reduced s (StrClean s).
Proof.
  induction s as [|c r IH]; cbn; [constructor|]. pose proof (CharValid_iff c) as V.
  destruct (CharValid c); constructor; auto; [apply V; reflexivity|]. intros X. apply V in X. discriminate X.
Qed.

Definition own_path (cc : core_conf) (name path : string) : Prop :=
  path = context_path cc (StrClean name) \/ path = coeffs_path cc (StrClean name).

Definition files_inv (cc : core_conf) (w : core_world) : Prop :=
  (forall n l, mget n (cw_logs w) = Some l ->
     StrClean n <> "" /\ pl_nameClean l = StrClean n /\ pl_fileContext l = context_path cc (StrClean n) /\
     pl_fileCoeffs l = coeffs_path cc (StrClean n)) /\
  (forall n1 n2 l1 l2, mget n1 (cw_logs w) = Some l1 -> mget n2 (cw_logs w) = Some l2 ->
     StrClean n1 = StrClean n2 -> n1 = n2) /\
  (forall n p x, In (n, p, x) (cw_acts w) ->
     own_path cc n p /\ StrClean n <> "" /\ (is_write x -> mget n (cw_logs w) <> None)) /\
  (forall newer n p older, cw_acts w = (newer ++ (n, p, AOpen) :: older)%list ->
     forall n' x, In (n', p, x) older -> ~ is_write x).

Lemma own_path_clean cc n1 n2 p : own_path cc n1 p -> own_path cc n2 p -> StrClean n1 = StrClean n2.
Proof.
  intros [->| ->] [H|H].
  - apply context_path_inj in H. congruence.
  - exfalso. exact (paths_differ _ _ _ H).
  - exfalso. exact (paths_differ _ _ _ (eq_sym H)).
  - apply coeffs_path_inj in H. congruence.
Qed.

Lemma existsb_mget_clean (m : smap PidCoreLog) clean :
  existsb (fun e => String.eqb (pl_nameClean (snd e)) clean) m = false ->
  forall n l, mget n m = Some l -> pl_nameClean l <> clean.
Proof.
  intros H n l G E. apply mget_In in G.
  assert (X : existsb (fun e => String.eqb (pl_nameClean (snd e)) clean) m = true).
  { apply existsb_exists. exists (n, l). split; [exact G|]. cbn. apply String.eqb_eq. exact E. }
  congruence.
Qed.


(** Writing to a file of an existing log keeps the invariant. *)
Lemma files_write cc w n l p x :
  files_inv cc w -> mget n (cw_logs w) = Some l -> (p = pl_fileContext l \/ p = pl_fileCoeffs l) -> is_write x ->
  files_inv cc (act n p x w).
Proof.
  intros (A & B & C & E) G P W. destruct (A n l G) as (A0 & A1 & A2 & A3).
  split; [exact A|]. split; [exact B|]. split.
  - intros n' p' x' [H|H].
    + injection H as <- <- <-. split; [unfold own_path; rewrite <- A2, <- A3; exact P|].
      split; [exact A0|cbn; congruence].
    + exact (C n' p' x' H).
  - intros newer n' p' older H n'' x' I. cbn in H. destruct newer as [|e newer]; cbn in H.
    + injection H as _ _ H _. exfalso. apply W. exact H.
    + injection H as _ H. exact (E _ _ _ _ H _ _ I).
Qed.

(** Opening a file nobody has written. *)
Lemma files_open cc w n p :
  files_inv cc w -> own_path cc n p -> StrClean n <> "" ->
  (forall n' x, In (n', p, x) (cw_acts w) -> ~ is_write x) ->
  files_inv cc (act n p AOpen w).
Proof.
  intros (A & B & C & E) P N NW. split; [exact A|]. split; [exact B|]. split.
  - intros n' p' x' [H|H].
    + injection H as <- <- <-. split; [exact P|]. split; [exact N|]. intro W. exfalso. apply W. reflexivity.
    + exact (C n' p' x' H).
  - intros newer n' p' older H n'' x' I. cbn in H. destruct newer as [|e newer]; cbn in H.
    + injection H as -> <- <-. exact (NW _ _ I).
    + injection H as _ H. exact (E _ _ _ _ H _ _ I).
Qed.

(** Replacing the log of a PID, or adding one with an unused clean name. *)
Lemma files_set cc w n clean last c :
  files_inv cc w -> clean = StrClean n -> clean <> "" ->
  (forall n' l', n' <> n -> mget n' (cw_logs w) = Some l' -> StrClean n' <> StrClean n) ->
  files_inv cc (CoreWorld (mset n (CoreLog clean (context_path cc clean) (coeffs_path cc clean) last c) (cw_logs w))
                  (cw_acts w)).
Proof.
  intros (A & B & C & E) -> NE U. split; [|split; [|split; [|exact E]]]; cbn.
  - intros n' l'. rewrite mget_mset. destruct (String.eqb_spec n' n) as [->|D]; intro H.
    + injection H as <-. cbn. auto.
    + exact (A n' l' H).
  - intros n1 n2 l1 l2. rewrite !mget_mset.
    destruct (String.eqb_spec n1 n) as [->|D1], (String.eqb_spec n2 n) as [->|D2]; intros H1 H2 Q; try reflexivity.
    + exfalso. exact (U n2 l2 D2 H2 (eq_sym Q)).
    + exfalso. exact (U n1 l1 D1 H1 Q).
    + exact (B n1 n2 l1 l2 H1 H2 Q).
  - intros n' p' x' H. destruct (C n' p' x' H) as (C1 & C2 & C3). split; [exact C1|]. split; [exact C2|].
    intro W. rewrite mget_mset. destruct (String.eqb n' n); [discriminate|exact (C3 W)].
Qed.

Lemma files_LogInit cc opens now name info w :
  files_inv cc w -> files_inv cc (LogInit cc opens now name info w).
Proof.
  intro I. unfold LogInit.
  destruct (negb (coreLoggingEnabled cc)); [exact I|].
  destruct (String.eqb name ""); [exact I|].
  destruct (String.eqb_spec (StrClean name) "") as [|NE]; [exact I|].
  destruct (mget name (cw_logs w)) as [l|] eqn:G.
  { pose proof I as (A & B & _). destruct (A name l G) as (_ & A1 & A2 & A3).
    pose proof (files_write cc w name l (pl_fileCoeffs l) (ACoeffs now info) I G (or_intror eq_refl) ltac:(discriminate)) as I1.
    rewrite A1, A2, A3 in *. apply files_set; [exact I1|reflexivity|exact NE|].
    intros n' l' D G' Q. apply D. exact (B n' name l' l G' G Q). }
  destruct (existsb _ _) eqn:X; [exact I|].
  assert (U : forall n' l', mget n' (cw_logs w) = Some l' -> StrClean n' <> StrClean name).
  { intros n' l' G' Q. apply (existsb_mget_clean _ _ X n' l' G'). destruct I as (A & _). destruct (A n' l' G') as (_ & A1 & _). congruence. }
  assert (NW : forall p n' x, own_path cc name p -> In (n', p, x) (cw_acts w) -> ~ is_write x).
  { intros p n' x P H W. destruct I as (_ & _ & C & _). destruct (C n' p x H) as (C1 & _ & C3).
    destruct (mget n' (cw_logs w)) as [l'|] eqn:G'; [|exact (C3 W eq_refl)].
    exact (U n' l' G' (own_path_clean cc n' name p C1 P)). }
  fold (context_path cc (StrClean name)) (coeffs_path cc (StrClean name)).
  destruct (negb (opens (context_path cc (StrClean name)))); [exact I|].
  assert (I1 : files_inv cc (act name (context_path cc (StrClean name)) AOpen w)).
  { apply files_open; [exact I|left; reflexivity|exact NE|]. intros n' x H. apply (NW _ n' x (or_introl eq_refl) H). }
  destruct (negb (opens _)); [exact I1|].
  set (w1 := act name (context_path cc (StrClean name)) AOpen w) in *.
  assert (I2 : files_inv cc (act name (coeffs_path cc (StrClean name)) AOpen w1)).
  { apply files_open; [exact I1|right; reflexivity|exact NE|]. intros n' x [H|H].
    - injection H as _ H _. exfalso. exact (paths_differ _ _ _ H).
    - apply (NW _ n' x (or_intror eq_refl) H). }
  set (w2 := act name (coeffs_path cc (StrClean name)) AOpen w1) in *.
  assert (L2 : cw_logs w2 = cw_logs w) by reflexivity. clearbody w2.
  assert (U2 : forall n' l', n' <> name -> mget n' (cw_logs w2) = Some l' -> StrClean n' <> StrClean name).
  { rewrite L2. intros n' l' _. apply U. }
  pose proof (files_set cc w2 name (StrClean name) 0 ctx_zero I2 eq_refl NE U2) as I3.
  set (l := CoreLog (StrClean name) (context_path cc (StrClean name)) (coeffs_path cc (StrClean name)) 0 ctx_zero) in *.
  set (w3 := CoreWorld (mset name l (cw_logs w2)) (cw_acts w2)) in *.
  assert (G3 : mget name (cw_logs w3) = Some l) by (cbn; apply mget_mset_same).
  assert (U3 : forall n' l', n' <> name -> mget n' (cw_logs w3) = Some l' -> StrClean n' <> StrClean name).
  { cbn. intros n' l' D. rewrite mget_mset_other by congruence. apply U2; assumption. }
  clearbody w3.
  pose proof (files_write cc w3 name l (context_path cc (StrClean name)) AHeader I3 G3 (or_introl eq_refl) ltac:(discriminate)) as I4.
  pose proof (files_write cc _ name l (coeffs_path cc (StrClean name)) AHeader I4 G3 (or_intror eq_refl) ltac:(discriminate)) as I5.
  pose proof (files_write cc _ name l (coeffs_path cc (StrClean name)) (ACoeffs now info) I5 G3 (or_intror eq_refl) ltac:(discriminate)) as I6.
  cbn [pl_nameClean pl_fileContext pl_fileCoeffs l].
  exact (files_set cc _ name (StrClean name) 0 ctx_zero I6 eq_refl NE U3).
Qed.

Lemma files_LogContext cc now name c w :
  files_inv cc w -> files_inv cc (LogContext now name c w).
Proof.
  intro I. unfold LogContext. destruct (mget name (cw_logs w)) as [l|] eqn:G; [|exact I].
  destruct (should_log l now c); [|exact I].
  pose proof I as (A & B & _). destruct (A name l G) as (A0 & A1 & A2 & A3). rewrite A1, A2, A3.
  assert (I1 : files_inv cc (CoreWorld (mset name (CoreLog (StrClean name) (context_path cc (StrClean name))
                               (coeffs_path cc (StrClean name)) now c) (cw_logs w)) (cw_acts w))).
  { apply files_set; [exact I|reflexivity|exact A0|]. intros n' l' D G' Q. apply D. exact (B n' name l' l G' G Q). }
  eapply files_write; [exact I1|cbn; apply mget_mset_same|left; reflexivity|discriminate].
Qed.

Lemma files_run cc ops : files_inv cc (core_run cc ops).
Proof.
  induction ops as [|o ops IH] using rev_ind.
  - split; [intros n l G; discriminate G|]. split; [intros n1 n2 l1 l2 G; discriminate G|].
    split; [intros n p x []|]. intros newer n p older H. destruct newer; discriminate H.
  - rewrite core_run_snoc. unfold core_step, pid_logged.
    destruct (pid_eval (co_info o) (co_input o) (co_setpoint o)) as [info' c]. cbn [fst].
    apply files_LogContext. destruct (initialized (co_info o)); [exact IH|apply files_LogInit; exact IH].
Qed.

Lemma C41_lemma cc ops n1 n2 p x1 x2 :
  In (n1, p, x1) (cw_acts (core_run cc ops)) -> In (n2, p, x2) (cw_acts (core_run cc ops)) ->
  is_write x1 -> is_write x2 -> n1 = n2.
Proof.
  destruct (files_run cc ops) as (A & B & C & E). intros H1 H2 W1 W2.
  destruct (C _ _ _ H1) as (P1 & _ & L1). destruct (C _ _ _ H2) as (P2 & _ & L2).
  destruct (mget n1 (cw_logs (core_run cc ops))) as [l1|] eqn:G1; [|exfalso; exact (L1 W1 eq_refl)].
  destruct (mget n2 (cw_logs (core_run cc ops))) as [l2|] eqn:G2; [|exfalso; exact (L2 W2 eq_refl)].
  exact (B n1 n2 l1 l2 G1 G2 (own_path_clean cc n1 n2 p P1 P2)).
Qed.

Lemma C41_truncate_lemma cc ops newer n p older :
  cw_acts (core_run cc ops) = (newer ++ (n, p, AOpen) :: older)%list ->
  forall n' x, In (n', p, x) older -> x = AOpen.
Proof.
  destruct (files_run cc ops) as (_ & _ & _ & E). intros H n' x I.
  pose proof (E _ _ _ _ H n' x I) as NW. unfold is_write in NW. destruct x; [reflexivity|..]; exfalso; apply NW; discriminate.
Qed.

Lemma C41_paths_lemma cc ops n p x :
  In (n, p, x) (cw_acts (core_run cc ops)) ->
  exists base, reduced n base /\ base <> "" /\
    (p = (loggingPath cc ++ "/pidcore." ++ base)%string \/ p = (loggingPath cc ++ "/pidcoeffs." ++ base)%string).
Proof.
  destruct (files_run cc ops) as (_ & _ & C & _). intro H. destruct (C _ _ _ H) as (P & NE & _).
  exists (StrClean n). split; [apply StrClean_reduced|]. split; [exact NE|exact P].
Qed.

(** ** C57 *)
Lemma C57_lemma cc opens t0 t1 name info input setpoint w :
  let r := pid_logged cc opens t0 t1 name info input setpoint w in
  (snd (fst r), snd r) = pid info input setpoint.
Proof. cbv zeta. unfold pid_logged, pid. destruct (pid_eval info input setpoint). reflexivity. Qed.

Lemma C57_off_lemma ld ops : cw_acts (core_run (CoreConf false ld) ops) = [].
Proof.
  enough (core_run (CoreConf false ld) ops = core_init) as -> by reflexivity.
  induction ops as [|o ops IH] using rev_ind; [reflexivity|].
  rewrite core_run_snoc, IH. unfold core_step, pid_logged.
  destruct (pid_eval (co_info o) (co_input o) (co_setpoint o)) as [info' c]. cbn.
  destruct (initialized (co_info o)); reflexivity.
Qed.

(** ** C56: routing *)
Lemma zget_zset {V : Type} k k' (v : V) m : zget k' (zset k v m) = if k' =? k then Some v else zget k' m.
Proof.
  induction m as [|[a b] r IH]; cbn.
  - destruct (Z.eqb_spec k' k); reflexivity.
  - destruct (Z.eqb_spec k a) as [->|NE]; cbn.
    + destruct (Z.eqb_spec k' a); reflexivity.
    + rewrite IH. destruct (Z.eqb_spec k' a) as [->|NE2]; [|reflexivity].
      destruct (Z.eqb_spec a k) as [->|]; [congruence|reflexivity].
Qed.

Definition zones_map (name : string) (m : smap (list Z)) : list Z :=
  match mget name m with Some l => l | None => [] end.
Lemma add_sensor_zones id name m s :
  zones_map name (add_sensor id m s) =
    if String.eqb name s then (if existsb (Z.eqb id) (zones_map name m) then zones_map name m
                               else zones_map name m ++ [id])%list
    else zones_map name m.
Proof.
  unfold add_sensor, zones_map. rewrite mget_mset. destruct (String.eqb_spec name s) as [->|]; reflexivity.
Qed.
Lemma existsb_Zeqb id l : existsb (Z.eqb id) l = true <-> In id l.
Proof.
  rewrite existsb_exists. split; [intros (x & I & E); apply Z.eqb_eq in E; congruence|].
  intro I. exists id. split; [exact I|apply Z.eqb_refl].
Qed.
Lemma NoDup_snoc {A : Type} (l : list A) x : NoDup l -> ~ In x l -> NoDup (l ++ [x]).
Proof.
  induction l as [|y r IH]; intros N I; cbn; [repeat constructor; tauto|].
  inversion N; subst. constructor.
  - rewrite in_app_iff. cbn. intros [H|[<-|[]]]; [tauto|apply I; left; reflexivity].
  - apply IH; [assumption|]. intro H. apply I. now right.
Qed.
Lemma add_sensors_zones id name : forall ss m,
  NoDup (zones_map name m) ->
  NoDup (zones_map name (fold_left (add_sensor id) ss m)) /\
  (forall z, In z (zones_map name (fold_left (add_sensor id) ss m)) <->
             In z (zones_map name m) \/ (z = id /\ In name ss)).
Proof.
  induction ss as [|s r IH]; intros m ND; cbn [fold_left].
  - split; [exact ND|]. intro z. cbn. tauto.
  - assert (N1 : NoDup (zones_map name (add_sensor id m s)) /\
      forall z, In z (zones_map name (add_sensor id m s)) <-> In z (zones_map name m) \/ (z = id /\ name = s)).
    { rewrite add_sensor_zones. destruct (String.eqb_spec name s) as [->|NE].
      - destruct (existsb (Z.eqb id) (zones_map s m)) eqn:X.
        + apply existsb_Zeqb in X. split; [exact ND|]. intro z. split; [tauto|]. intros [?|[-> _]]; assumption.
        + split.
          * apply NoDup_snoc; [exact ND|]. intro I. apply existsb_Zeqb in I. congruence.
          * intro z. rewrite in_app_iff. cbn. intuition congruence.
      - split; [exact ND|]. intro z. tauto. }
    destruct N1 as [N1 E1]. destruct (IH _ N1) as [N2 E2]. split; [exact N2|]. intro z. rewrite E2, E1. cbn. intuition congruence.
Qed.

Definition build_step (size max : Z) (r : fs_registry) (z : fs_zone) : fs_registry :=
  FsRegistry (zset (fz_id z) (fslogger_new size max (fz_failsafe z)) (fr_loggers r))
    (fold_left (add_sensor (fz_id z)) (fz_sensors z) (fr_zones r)).

Lemma build_spec size max : forall zones r,
  NoDup (map fz_id zones) ->
  (forall z, In z zones -> zget (fz_id z) (fr_loggers r) = None) ->
  (forall n, NoDup (zones_of n r)) ->
  let r' := fold_left (build_step size max) zones r in
  (forall z, In z zones -> zget (fz_id z) (fr_loggers r') = Some (fslogger_new size max (fz_failsafe z))) /\
  (forall id, ~ In id (map fz_id zones) -> zget id (fr_loggers r') = zget id (fr_loggers r)) /\
  (forall n, NoDup (zones_of n r')) /\
  (forall n id, In id (zones_of n r') <->
     In id (zones_of n r) \/ exists z, In z zones /\ fz_id z = id /\ In n (fz_sensors z)).
Proof.
  induction zones as [|z zs IH]; intros r ND FR NZ; cbn [fold_left].
  - cbv zeta. split; [intros z []|]. split; [reflexivity|]. split; [exact NZ|].
    intros n id. split; [tauto|]. intros [?|(z & [] & _)]; assumption.
  - cbn [map] in ND. inversion ND as [|? ? N1 N2]; subst.
    assert (ZO : forall n, zones_of n (build_step size max r z) =
                           zones_map n (fold_left (add_sensor (fz_id z)) (fz_sensors z) (fr_zones r))) by reflexivity.
    specialize (IH (build_step size max r z) N2). destruct IH as (H1 & H2 & H3 & H4).
    + intros z' I. cbn. rewrite zget_zset. destruct (Z.eqb_spec (fz_id z') (fz_id z)) as [E|_].
      * exfalso. apply N1. rewrite <- E. apply in_map. exact I.
      * apply FR. now right.
    + intro n. rewrite ZO. apply add_sensors_zones. apply NZ.
    + cbv zeta in *. split; [|split; [|split]].
      * intros z' [<-|I]; [|apply H1; exact I]. rewrite H2 by exact N1. cbn. rewrite zget_zset, Z.eqb_refl. reflexivity.
      * intros id NI. cbn [map] in NI. rewrite H2 by (intro I; apply NI; now right). cbn. rewrite zget_zset.
        destruct (Z.eqb_spec id (fz_id z)) as [->|]; [exfalso; apply NI; left; reflexivity|reflexivity].
      * exact H3.
      * intros n id. rewrite H4, ZO. destruct (add_sensors_zones (fz_id z) n (fz_sensors z) (fr_zones r) (NZ n)) as [_ A].
        rewrite A. fold (zones_of n r). split.
        -- intros [[?|[-> I]]|(z' & I & E & S)]; [left; assumption|right; exists z; cbn; auto|right; exists z'; cbn; auto].
        -- intros [?|(z' & [<-|I] & E & S)]; [tauto|left; right; auto|right; exists z'; auto].
Qed.

(** One call for a zone, seen from zone [id]. *)
Lemma with_zone_spec zid a r id :
  let '(r', out) := outputFailsafeLogWithZone zid a r in
  fr_zones r' = fr_zones r /\
  match zget id (fr_loggers r) with
  | None => zget id (fr_loggers r') = None /\ lines_of_zone id out = []
  | Some l =>
      if zid =? id
      then zget id (fr_loggers r') = Some (fst (outputFailsafeLog l a)) /\
           lines_of_zone id out = printed [snd (outputFailsafeLog l a)]
      else zget id (fr_loggers r') = Some l /\ lines_of_zone id out = []
  end.
Proof.
  unfold outputFailsafeLogWithZone. destruct (zget zid (fr_loggers r)) as [l0|] eqn:G.
  - destruct (outputFailsafeLog l0 a) as [l1 o] eqn:E. cbn [fr_zones fr_loggers]. split; [reflexivity|].
    rewrite zget_zset. destruct (Z.eqb_spec zid id) as [->|NE].
    + rewrite G, Z.eqb_refl, E. cbn. split; [reflexivity|].
      destruct o; cbn; [rewrite Z.eqb_refl|]; reflexivity.
    + assert (X : (id =? zid) = false) by (apply Z.eqb_neq; congruence). rewrite X.
      assert (L : lines_of_zone id match o with Some x => [(zid, x)] | None => [] end = []).
      { destruct o; cbn; [|reflexivity]. apply Z.eqb_neq in NE. rewrite NE. reflexivity. }
      destruct (zget id (fr_loggers r)); auto.
  - split; [reflexivity|]. destruct (Z.eqb_spec zid id) as [->|NE].
    + rewrite G. auto.
    + destruct (zget id (fr_loggers r)); auto.
Qed.

Lemma lines_of_zone_app id a b : lines_of_zone id (a ++ b) = (lines_of_zone id a ++ lines_of_zone id b)%list.
Proof. unfold lines_of_zone. apply flat_map_app. Qed.
Lemma printed_app a b : printed (a ++ b) = (printed a ++ printed b)%list.
Proof. unfold printed. apply flat_map_app. Qed.

Lemma with_zones_spec a id : forall zs r out0 l,
  NoDup zs -> zget id (fr_loggers r) = Some l ->
  let '(r', out) := fold_left (fun '(r, out) zoneId =>
       let '(r', o) := outputFailsafeLogWithZone zoneId a r in (r', (out ++ o)%list)) zs (r, out0) in
  fr_zones r' = fr_zones r /\
  if existsb (Z.eqb id) zs
  then zget id (fr_loggers r') = Some (fst (outputFailsafeLog l a)) /\
       lines_of_zone id out = (lines_of_zone id out0 ++ printed [snd (outputFailsafeLog l a)])%list
  else zget id (fr_loggers r') = Some l /\ lines_of_zone id out = lines_of_zone id out0.
Proof.
  induction zs as [|z zs IH]; intros r out0 l ND G; cbn [fold_left existsb]; [auto|].
  inversion ND as [|? ? N1 N2]; subst.
  pose proof (with_zone_spec z a r id) as S. destruct (outputFailsafeLogWithZone z a r) as [r1 o].
  rewrite G in S. destruct S as [S0 S1]. rewrite (Z.eqb_sym id z).
  destruct (Z.eqb_spec z id) as [->|NE]; cbn [orb].
  - destruct S1 as [S1 S2]. specialize (IH r1 (out0 ++ o)%list (fst (outputFailsafeLog l a)) N2 S1).
    destruct (fold_left _ zs (r1, _)) as [r' out]. destruct IH as [I0 I1]. split; [congruence|].
    assert (X : existsb (Z.eqb id) zs = false).
    { apply not_true_iff_false. rewrite existsb_Zeqb. exact N1. }
    rewrite X in I1. destruct I1 as [I1 I2]. split; [exact I1|]. rewrite I2, lines_of_zone_app, S2. reflexivity.
  - destruct S1 as [S1 S2]. specialize (IH r1 (out0 ++ o)%list l N2 S1).
    destruct (fold_left _ zs (r1, _)) as [r' out]. destruct IH as [I0 I1]. split; [congruence|].
    rewrite lines_of_zone_app, S2, app_nil_r in I1. exact I1.
Qed.

Lemma C56_run z : forall ops r l,
  (forall n, NoDup (zones_of n r)) ->
  (forall n, In (fz_id z) (zones_of n r) <-> In n (fz_sensors z)) ->
  zget (fz_id z) (fr_loggers r) = Some l ->
  let h := flat_map (concerns z) ops in
  zget (fz_id z) (fr_loggers (fst (fs_exec r ops))) = Some (fst (fs_run l h)) /\
  lines_of_zone (fz_id z) (snd (fs_exec r ops)) = printed (snd (fs_run l h)).
Proof.
  induction ops as [|op ops IH]; intros r l ND M G; cbv zeta in *; cbn [fs_exec flat_map]; [auto|].
  assert (S : let '(r1, o) := fs_exec1 op r in
    fr_zones r1 = fr_zones r /\
    zget (fz_id z) (fr_loggers r1) = Some (fst (fs_run l (concerns z op))) /\
    lines_of_zone (fz_id z) o = printed (snd (fs_run l (concerns z op)))).
  { destruct op as [n a|zid a]; cbn [fs_exec1 concerns].
    - unfold outputFailsafeLogWithSensor.
      pose proof (with_zones_spec a (fz_id z) (zones_of n r) r [] l (ND n) G) as S.
      destruct (fold_left _ (zones_of n r) (r, [])) as [r1 o]. destruct S as [S0 S1]. split; [exact S0|].
      destruct (smem n (fz_sensors z)) eqn:E.
      + apply smem_In, M, existsb_Zeqb in E. rewrite E in S1. cbn. destruct (outputFailsafeLog l a). exact S1.
      + destruct (existsb (Z.eqb (fz_id z)) (zones_of n r)) eqn:X; [|exact S1].
        apply existsb_Zeqb, M, smem_In in X. congruence.
    - pose proof (with_zone_spec zid a r (fz_id z)) as S. destruct (outputFailsafeLogWithZone zid a r) as [r1 o].
      rewrite G in S. destruct S as [S0 S1]. split; [exact S0|].
      destruct (zid =? fz_id z); [|exact S1]. cbn. destruct (outputFailsafeLog l a). exact S1. }
  destruct (fs_exec1 op r) as [r1 o]. destruct S as (S0 & S1 & S2).
  specialize (IH r1 (fst (fs_run l (concerns z op)))).
  assert (ZO : forall n, zones_of n r1 = zones_of n r) by (intro n; unfold zones_of; rewrite S0; reflexivity).
  destruct IH as [I1 I2]; [intro n; rewrite ZO; apply ND|intro n; rewrite ZO; apply M|exact S1|].
  destruct (fs_exec r1 ops) as [r2 os]. cbn [fst snd] in *. rewrite LogProofs.fs_run_app. cbn [fst snd].
  rewrite lines_of_zone_app, printed_app. split; [exact I1|congruence].
Qed.

Lemma C56_lemma size zones max z ops :
  NoDup (map fz_id zones) -> In z zones ->
  let r := buildFailsafeLoggers size zones max in
  lines_of_zone (fz_id z) (snd (fs_exec r ops)) =
    printed (snd (fs_run (fslogger_new size max (fz_failsafe z)) (flat_map (concerns z) ops))).
Proof.
  intros ND I. cbv zeta. unfold buildFailsafeLoggers. fold (build_step size max).
  destruct (build_spec size max zones (FsRegistry [] []) ND) as (H1 & _ & H3 & H4).
  { reflexivity. }
  { intro n. constructor. }
  apply (C56_run z ops); [exact H3| |apply H1; exact I].
  intro n. rewrite H4. split.
  - intros [[]|(z' & I' & E & S)].
    assert (z' = z); [|congruence].
    clear - ND I I' E. induction zones as [|x r IH]; [destruct I|]. cbn in ND. inversion ND; subst.
    destruct I as [->|I], I' as [->|I']; try reflexivity.
    + exfalso. apply H1. rewrite <- E. apply in_map. exact I'.
    + exfalso. apply H1. rewrite E. apply in_map. exact I.
    + apply IH; assumption.
  - intro S. right. exists z. auto.
Qed.

Lemma C56_only_known_lemma size zones max ops id x :
  NoDup (map fz_id zones) ->
  In (id, x) (snd (fs_exec (buildFailsafeLoggers size zones max) ops)) -> In id (map fz_id zones).
Proof.
  intro ND. unfold buildFailsafeLoggers. fold (build_step size max).
  destruct (build_spec size max zones (FsRegistry [] []) ND) as (_ & H2 & _ & _).
  { reflexivity. }
  { intro n. constructor. }
  destruct (in_dec Z.eq_dec id (map fz_id zones)) as [|NI]; [auto|]. specialize (H2 id NI). cbn in H2.
  generalize dependent (fold_left (build_step size max) zones (FsRegistry [] [])). intros r G H. exfalso.
  assert (ZS : forall a zs r out0, zget id (fr_loggers r) = None -> lines_of_zone id out0 = [] ->
    let '(r', out) := fold_left (fun '(r, out) zoneId =>
       let '(r', o) := outputFailsafeLogWithZone zoneId a r in (r', (out ++ o)%list)) zs (r, out0) in
    zget id (fr_loggers r') = None /\ lines_of_zone id out = []).
  { clear. induction zs as [|z zs IH]; intros r out0 G O; cbn [fold_left]; [auto|].
    pose proof (with_zone_spec z a r id) as S. destruct (outputFailsafeLogWithZone z a r) as [r1 o].
    rewrite G in S. destruct S as (_ & S1 & S2). apply IH; [exact S1|]. rewrite lines_of_zone_app, O, S2. reflexivity. }
  assert (L : forall ops r, zget id (fr_loggers r) = None -> lines_of_zone id (snd (fs_exec r ops)) = []).
  { clear - ZS. induction ops as [|op ops IH]; intros r G; cbn [fs_exec]; [reflexivity|].
    assert (S : zget id (fr_loggers (fst (fs_exec1 op r))) = None /\ lines_of_zone id (snd (fs_exec1 op r)) = []).
    { destruct op as [n a|zid a]; cbn [fs_exec1].
      - unfold outputFailsafeLogWithSensor. specialize (ZS a (zones_of n r) r [] G eq_refl).
        destruct (fold_left _ _ (r, [])). exact ZS.
      - pose proof (with_zone_spec zid a r id) as S. destruct (outputFailsafeLogWithZone zid a r).
        rewrite G in S. tauto. }
    destruct (fs_exec1 op r) as [r1 o]. cbn [fst snd] in S. destruct S as [S1 S2]. specialize (IH r1 S1).
    destruct (fs_exec r1 ops). cbn [snd] in *. rewrite lines_of_zone_app, S2, IH. reflexivity. }
  specialize (L ops r G).
  assert (X : In x (lines_of_zone id (snd (fs_exec r ops)))).
  { unfold lines_of_zone. apply in_flat_map. exists (id, x). split; [exact H|]. rewrite Z.eqb_refl. left. reflexivity. }
  rewrite L in X. destruct X.
Qed.
