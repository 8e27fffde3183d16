(** * Proofs about the debug interface of the controllers (C74). *)
From Coq Require Import ZArith Bool List String Lia Reals Lra.
From Verif Require Import Base BaseFacts Dbl DblFacts DblOrder PidModel ZoneModel LoopModel
  SpecZone SpecObserve ZoneFrame ZoneThermal ZoneProofs.
Import ListNotations.
Local Open Scope string_scope.
Local Open Scope list_scope.
Local Arguments pid_process : simpl never.
Local Arguments stepwise_process : simpl never.

Definition with_input (n : string) (x : dbl) (o : ProcessObject) : ProcessObject :=
  MkProcess (po_enabled o) (po_setpoint o) (po_classType o) n x (po_output o).
Definition with_output (x : dbl) (o : ProcessObject) : ProcessObject :=
  MkProcess (po_enabled o) (po_setpoint o) (po_classType o) (po_leader o) (po_input o) x.
Definition upd (m : option (string * dbl)) (o : ProcessObject) : ProcessObject :=
  match m with Some (n, x) => with_input n x o | None => o end.

(** The last input that moved the running aggregate, with the new aggregate. *)
Fixpoint last_move (g : dbl -> dbl -> dbl) (v : dbl) (l : list (string * dbl)) : option (string * dbl) :=
  match l with
  | [] => None
  | (n, r) :: t =>
      match last_move g (g v r) t with
      | Some x => Some x
      | None => if dneb v (g v r) then Some (n, g v r) else None
      end
  end.

Lemma debug_obj n l i o z z' :
  updateThermalPowerDebugInterface n l i o z = Ok z' ->
  exists p, mget n (z_pidsControlProcess z) = Some p /\
  forall m, mget m (z_pidsControlProcess z') =
    if String.eqb m n then Some (if String.eqb l "" then with_output o p else with_input l i p)
    else mget m (z_pidsControlProcess z).
Proof.
  unfold updateThermalPowerDebugInterface.
  destruct (mget n (z_pidsControlProcess z)) as [p|] eqn:E; [|discriminate].
  intros H. injection H as <-. exists p. split; [reflexivity|]. intros m. cbn. rewrite mget_mset.
  destruct (m =? n); [|reflexivity]. destruct (l =? ""); reflexivity.
Qed.

Lemma input1_obj id ty v a z i v' a' z' :
  thermal_input1 id ty (v, a, z) i = Ok (v', a', z') -> si_name i <> "" ->
  forall m, mget m (z_pidsControlProcess z') =
    if String.eqb m id
    then option_map (upd (last_move (agg ty) v (map (fun r => (si_name i, r)) (thermal_reading (cached z) ty i))))
           (mget id (z_pidsControlProcess z))
    else mget m (z_pidsControlProcess z).
Proof.
  unfold thermal_input1. intros H Nn.
  apply bind_ok in H. destruct H as (x & Hx & H).
  apply getCachedValue_spec in Hx. unfold thermal_reading. rewrite Hx.
  assert (Same : forall m, mget m (z_pidsControlProcess z) =
    if m =? id then option_map (upd None) (mget id (z_pidsControlProcess z)) else mget m (z_pidsControlProcess z)).
  { intros m. destruct (String.eqb_spec m id) as [->|]; [|reflexivity].
    destruct (mget id (z_pidsControlProcess z)); reflexivity. }
  destruct (disfinite x) eqn:Fx; cbn [negb] in H.
  2:{ injection H as <- <- <-. exact Same. }
  apply bind_ok in H. destruct H as (y & Hy & H).
  apply bind_ok in H. destruct H as (z1 & Hz & H). injection H as <- <- <-.
  assert (E : (match ty with
               | margin => if si_convertTempToMargin i then [dsub (si_convertMarginZero i) x] else [x]
               | _ => [x] end = [y])).
  { destruct ty; try (injection Hy as <-; reflexivity).
    destruct (si_convertTempToMargin i).
    - destruct (disfinite (si_convertMarginZero i)); [|discriminate]. injection Hy as <-. auto.
    - injection Hy as <-. reflexivity. }
  rewrite E. cbn [map last_move].
  assert (Ev : match ty with margin => dmin v y | absolute => dmax v y | summation => dadd v y end = agg ty v y)
    by (destruct ty; reflexivity).
  rewrite Ev in Hz.
  destruct (dneb v (agg ty v y)).
  - apply debug_obj in Hz. destruct Hz as (p & Ep & Hz). intros m. rewrite Hz, Ep.
    apply String.eqb_neq in Nn. rewrite Nn. reflexivity.
  - injection Hz as <-. exact Same.
Qed.

Lemma last_move_app g l1 : forall v l2,
  last_move g v (l1 ++ l2) =
  match last_move g (fold_left g (map snd l1) v) l2 with Some x => Some x | None => last_move g v l1 end.
Proof.
  induction l1 as [|[n r] t IH]; intros v l2; cbn [app last_move map snd fold_left].
  - destruct (last_move g v l2); reflexivity.
  - rewrite IH. destruct (last_move g (fold_left g (map snd t) (g v r)) l2); reflexivity.
Qed.

Lemma upd_upd a b o : upd a (upd b o) = upd (match a with Some x => Some x | None => b end) o.
Proof. destruct a as [[n x]|], b as [[m y]|]; reflexivity. Qed.

Lemma fold_obj id ty inputs : forall v a z v' a' z',
  foldM (thermal_input1 id ty) inputs (v, a, z) = Ok (v', a', z') ->
  (forall i, In i inputs -> si_name i <> "") ->
  forall m, mget m (z_pidsControlProcess z') =
    if String.eqb m id
    then option_map (upd (last_move (agg ty) v (named_readings (cached z) ty inputs)))
           (mget id (z_pidsControlProcess z))
    else mget m (z_pidsControlProcess z).
Proof.
  induction inputs as [|i r IH]; intros v a z v' a' z' H Nn m; cbn [foldM] in H.
  - injection H as <- <- <-. cbn. destruct (String.eqb_spec m id) as [->|]; [|reflexivity].
    destruct (mget id (z_pidsControlProcess z)); reflexivity.
  - apply bind_ok in H. destruct H as ([[v1 a1] z1] & H1 & H2).
    assert (O1 := input1_obj _ _ _ _ _ _ _ _ _ H1 (Nn i (or_introl eq_refl))).
    apply thermal_input1_spec in H1. destruct H1 as (A & B & _).
    assert (O2 := IH _ _ _ _ _ _ H2 (fun j I => Nn j (or_intror I)) m).
    rewrite (cached_frame _ _ (tf_cv _ _ B)) in O2. rewrite O2, !O1, String.eqb_refl.
    destruct (m =? id); [|reflexivity].
    destruct (mget id (z_pidsControlProcess z)) as [o|]; [|reflexivity]. cbn [option_map]. f_equal.
    rewrite upd_upd. unfold named_readings. cbn [flat_map]. rewrite last_move_app. f_equal.
    destruct (thermal_reading (cached z) ty i) as [|x l].
    + destruct A as [-> _]. reflexivity.
    + destruct A as (Ex & -> & _). injection Ex as ->. reflexivity.
Qed.

Lemma addSetPoint_obj v n z z' : addSetPoint v n z = Ok z' ->
  z_pidsControlProcess z' = z_pidsControlProcess z.
Proof.
  unfold addSetPoint. intros H. apply bind_ok in H. destruct H as (b & _ & H).
  destruct b; cbn [negb] in H; [|injection H as <-; reflexivity].
  revert H. cbv zeta.
  repeat match goal with |- context [if ?c then _ else _] => destruct c end; intros H; injection H as <-; reflexivity.
Qed.

Definition ctl_obj (rd : readings_map) (t : ThermalCtl) (o : ProcessObject) : ProcessObject :=
  match t with
  | TPid _ inputs ty _ _ =>
      with_output (ctl_output rd t)
        (upd (last_move (agg ty) (thermal_start ty) (named_readings rd ty inputs)) o)
  | TStep _ _ _ => o
  end.
Definition named_ctl (t : ThermalCtl) : Prop :=
  match t with TPid _ inputs _ _ _ => forall i, In i inputs -> si_name i <> "" | _ => True end.

Lemma process_obj t z t' z' :
  thermal_process t z = Ok (t', z') -> named_ctl t ->
  mget (thermal_id t) (z_pidsControlProcess z') =
    option_map (ctl_obj (cached z) t) (mget (thermal_id t) (z_pidsControlProcess z)).
Proof.
  destruct t as [id inputs ty sp p|id inputs c]; cbn [thermal_process thermal_id named_ctl]; intros H Nn.
  - apply bind_ok in H. destruct H as ([v z1] & H1 & H).
    assert (Sp := thermal_inputProc_spec _ _ _ _ _ _ _ H1). destruct Sp as (-> & _).
    unfold thermal_inputProc in H1. apply bind_ok in H1. destruct H1 as ([[v1 a1] z2] & H1 & H2).
    injection H2 as _ <-.
    assert (O1 := fold_obj _ _ _ _ _ _ _ _ _ H1 Nn id). rewrite String.eqb_refl in O1.
    unfold ctl_obj, ctl_output.
    destruct (pid_process p sp (thermal_input (cached z) ty inputs sp)) as [p' o].
    apply bind_ok in H. destruct H as (z3 & H3 & H). injection H as <- <-.
    unfold thermal_outputProc in H3. apply bind_ok in H3. destruct H3 as (z4 & H4 & H3).
    apply addSetPoint_obj in H4. apply debug_obj in H3. destruct H3 as (q & Eq & H3).
    rewrite H3, String.eqb_refl, String.eqb_refl. rewrite H4, O1 in Eq.
    destruct (mget id (z_pidsControlProcess z)) as [o0|]; [|discriminate].
    cbn [option_map] in *. injection Eq as <-. reflexivity.
  - apply bind_ok in H. destruct H as (v & _ & H).
    destruct (stepwise_process c v) as [c' o].
    apply bind_ok in H. destruct H as (z2 & H2 & H). injection H as <- <-.
    unfold stepwise_outputProc in H2.
    assert (E : z_pidsControlProcess z2 = z_pidsControlProcess z).
    { destruct (sw_isCeiling (sc_info c')); [injection H2 as <-; reflexivity|]. apply addSetPoint_obj in H2. exact H2. }
    rewrite E. cbn [ctl_obj]. destruct (mget id (z_pidsControlProcess z)); reflexivity.
Qed.

Lemma fold_other id ty m inputs : m <> id -> forall v a z v' a' z',
  foldM (thermal_input1 id ty) inputs (v, a, z) = Ok (v', a', z') ->
  mget m (z_pidsControlProcess z') = mget m (z_pidsControlProcess z).
Proof.
  intros Nm. apply String.eqb_neq in Nm.
  induction inputs as [|i r IH]; intros v a z v' a' z' H; cbn [foldM] in H.
  - injection H as <- <- <-. reflexivity.
  - apply bind_ok in H. destruct H as ([[v1 a1] z1] & H1 & H2). rewrite (IH _ _ _ _ _ _ H2).
    unfold thermal_input1 in H1. apply bind_ok in H1. destruct H1 as (x & _ & H1).
    destruct (negb (disfinite x)); [injection H1 as <- <- <-; reflexivity|].
    apply bind_ok in H1. destruct H1 as (y & _ & H1). apply bind_ok in H1. destruct H1 as (z3 & H3 & H1).
    injection H1 as <- <- <-. destruct (dneb _ _); [|injection H3 as <-; reflexivity].
    apply debug_obj in H3. destruct H3 as (p & _ & H3). rewrite H3, Nm. reflexivity.
Qed.

Lemma process_other t z t' z' m :
  thermal_process t z = Ok (t', z') -> (thermal_id t = m -> exists i c, t = TStep m i c) ->
  mget m (z_pidsControlProcess z') = mget m (z_pidsControlProcess z).
Proof.
  destruct t as [id inputs ty sp p|id inputs c]; cbn [thermal_process thermal_id]; intros H Nm.
  - assert (Ne : m <> id). { intros <-. destruct (Nm eq_refl) as (i & c & E). discriminate. }
    apply bind_ok in H. destruct H as ([v z1] & H1 & H).
    unfold thermal_inputProc in H1. apply bind_ok in H1. destruct H1 as ([[v1 a1] z2] & H1 & H2).
    injection H2 as _ <-. apply (fold_other _ _ _ _ Ne) in H1.
    destruct (pid_process p sp v) as [p' o].
    apply bind_ok in H. destruct H as (z3 & H3 & H). injection H as <- <-.
    unfold thermal_outputProc in H3. apply bind_ok in H3. destruct H3 as (z4 & H4 & H3).
    apply addSetPoint_obj in H4. apply debug_obj in H3. destruct H3 as (q & _ & H3).
    rewrite H3. apply String.eqb_neq in Ne. rewrite Ne. congruence.
  - clear Nm. apply bind_ok in H. destruct H as (v & _ & H).
    destruct (stepwise_process c v) as [c' o].
    apply bind_ok in H. destruct H as (z2 & H2 & H). injection H as <- <-.
    unfold stepwise_outputProc in H2.
    destruct (sw_isCeiling (sc_info c')); [injection H2 as <-; reflexivity|].
    apply addSetPoint_obj in H2. congruence.
Qed.

Lemma run_other m ts : forall z ts' z',
  run_all thermal_process ts z = Ok (ts', z') ->
  (forall t, In t ts -> thermal_id t = m -> exists i c, t = TStep m i c) ->
  mget m (z_pidsControlProcess z') = mget m (z_pidsControlProcess z).
Proof.
  induction ts as [|t r IH]; intros z ts' z' H N; cbn [run_all] in H.
  - injection H as <- <-. reflexivity.
  - apply bind_ok in H. destruct H as ([t1 z1] & H1 & H).
    apply bind_ok in H. destruct H as ([r1 z2] & H2 & H). injection H as <- <-.
    rewrite (IH _ _ _ H2) by (intros x I; apply N; right; exact I).
    eapply process_other; [exact H1|]. apply N. left. reflexivity.
Qed.

Lemma run_own t ts : forall z ts' z',
  run_all thermal_process ts z = Ok (ts', z') -> NoDup (map thermal_id ts) -> In t ts -> named_ctl t ->
  mget (thermal_id t) (z_pidsControlProcess z') =
    option_map (ctl_obj (cached z) t) (mget (thermal_id t) (z_pidsControlProcess z)).
Proof.
  induction ts as [|u r IH]; intros z ts' z' H N I Nn; [destruct I|]. cbn [run_all] in H.
  apply bind_ok in H. destruct H as ([t1 z1] & H1 & H).
  apply bind_ok in H. destruct H as ([r1 z2] & H2 & H). injection H as <- <-.
  cbn [map] in N. inversion N as [|x y Nu N']; subst. destruct I as [->|I].
  - rewrite (run_other (thermal_id t) _ _ _ _ H2); [eapply process_obj; eauto|].
    intros x I E. exfalso. apply Nu. rewrite <- E. apply in_map. exact I.
  - rewrite (IH _ _ _ H2 N' I Nn).
    assert (E : mget (thermal_id t) (z_pidsControlProcess z1) = mget (thermal_id t) (z_pidsControlProcess z)).
    { eapply process_other; [exact H1|]. intros E. exfalso. apply Nu. rewrite E. apply in_map. exact I. }
    rewrite E. apply thermal_process_spec in H1. destruct H1 as (_ & F1 & _).
    rewrite (cached_frame _ _ (tf_cv _ _ F1)). reflexivity.
Qed.

(** ** Who leads *)
Lemma last_move_min l : forall v, notnan v -> (forall n r, In (n, r) l -> notnan r) ->
  match last_move dmin v l with
  | None => forall n r, In (n, r) l -> ~ dlt r v
  | Some (n, x) => dlt x v /\ first_lowest l n x
  end.
Proof.
  induction l as [|[n r] t IH]; intros v Nv Nl; cbn [last_move]; [intros n r []|].
  assert (Nr : notnan r) by (eapply Nl; left; reflexivity).
  assert (Nt : forall m x, In (m, x) t -> notnan x) by (intros m x I; eapply Nl; right; exact I).
  change (dmin v r) with (if dltb r v then r else v). destruct (dltb r v) eqn:E.
  - specialize (IH r Nr Nt). destruct (last_move dmin r t) as [[m x]|].
    + destruct IH as (L & l1 & l2 & -> & A & B). split; [eapply dlt_le_trans; [exact L|apply dlt_dle; exact E]|].
      exists ((n, r) :: l1), l2. split; [reflexivity|]. split; [|exact B].
      intros k y [K|K]; [injection K as _ <-; exact L|eapply A; exact K].
    + assert (dneb v r = true) as ->.
      { unfold dneb. destruct (deqb v r) eqn:Q; [|reflexivity]. exfalso.
        apply dlt_iff in E. apply deq_iff in Q. destruct E as (_ & _ & E), Q as (_ & _ & Q). lra. }
      split; [exact E|]. exists [], t. split; [reflexivity|]. split; [intros k y []|].
      intros k y K. specialize (IH k y K). apply dltb_false_dle; [eapply Nt; exact K|exact Nr|].
      destruct (dltb y r) eqn:Q; [exfalso; apply IH; exact Q|reflexivity].
  - specialize (IH v Nv Nt). assert (Le : dle v r) by (apply dltb_false_dle; assumption).
    destruct (last_move dmin v t) as [[m x]|].
    + destruct IH as (L & l1 & l2 & -> & A & B). split; [exact L|].
      exists ((n, r) :: l1), l2. split; [reflexivity|]. split; [|exact B].
      intros k y [K|K]; [injection K as _ <-; eapply dlt_le_trans; [exact L|exact Le]|eapply A; exact K].
    + assert (dneb v v = false) as ->.
      { unfold dneb. assert (Q := deq_refl v Nv). unfold deq in Q. rewrite Q. reflexivity. }
      intros k y [K|K]; [injection K as _ <-; intros Q; unfold dlt in Q; congruence|eapply IH; exact K].
Qed.

Lemma last_move_max l : forall v, notnan v -> (forall n r, In (n, r) l -> notnan r) ->
  match last_move dmax v l with
  | None => forall n r, In (n, r) l -> ~ dlt v r
  | Some (n, x) => dlt v x /\ first_highest l n x
  end.
Proof.
  induction l as [|[n r] t IH]; intros v Nv Nl; cbn [last_move]; [intros n r []|].
  assert (Nr : notnan r) by (eapply Nl; left; reflexivity).
  assert (Nt : forall m x, In (m, x) t -> notnan x) by (intros m x I; eapply Nl; right; exact I).
  change (dmax v r) with (if dltb v r then r else v). destruct (dltb v r) eqn:E.
  - specialize (IH r Nr Nt). destruct (last_move dmax r t) as [[m x]|].
    + destruct IH as (L & l1 & l2 & -> & A & B). split; [eapply dlt_le_trans; [exact E|apply dlt_dle; exact L]|].
      exists ((n, r) :: l1), l2. split; [reflexivity|]. split; [|exact B].
      intros k y [K|K]; [injection K as _ <-; exact L|eapply A; exact K].
    + assert (dneb v r = true) as ->.
      { unfold dneb. destruct (deqb v r) eqn:Q; [|reflexivity]. exfalso.
        apply dlt_iff in E. apply deq_iff in Q. destruct E as (_ & _ & E), Q as (_ & _ & Q). lra. }
      split; [exact E|]. exists [], t. split; [reflexivity|]. split; [intros k y []|].
      intros k y K. specialize (IH k y K). apply dltb_false_dle; [exact Nr|eapply Nt; exact K|].
      destruct (dltb r y) eqn:Q; [exfalso; apply IH; exact Q|reflexivity].
  - specialize (IH v Nv Nt). assert (Le : dle r v) by (apply dltb_false_dle; assumption).
    destruct (last_move dmax v t) as [[m x]|].
    + destruct IH as (L & l1 & l2 & -> & A & B). split; [exact L|].
      exists ((n, r) :: l1), l2. split; [reflexivity|]. split; [|exact B].
      intros k y [K|K]; [injection K as _ <-; eapply dle_lt_trans; [exact Le|exact L]|eapply A; exact K].
    + assert (dneb v v = false) as ->.
      { unfold dneb. assert (Q := deq_refl v Nv). unfold deq in Q. rewrite Q. reflexivity. }
      intros k y [K|K]; [injection K as _ <-; intros Q; unfold dlt in Q; congruence|eapply IH; exact K].
Qed.

Lemma dadd_fin_notnan a b : notnan a -> dfinite b -> notnan (dadd a b).
Proof.
  intros Na Fb. destruct (finite_or_inf a Na) as [Fa|[->| ->]].
  - apply dadd_Rx; assumption.
  - destruct b as [|[|]| |]; try reflexivity; discriminate.
  - destruct b as [|[|]| |]; try reflexivity; discriminate.
Qed.

Lemma last_move_sum l : forall v, notnan v -> (forall n r, In (n, r) l -> dfinite r) ->
  match last_move dadd v l with
  | None => forall k, deq v (fold_left dadd (map snd (firstn k l)) v)
  | Some (n, s) => exists l1 r l2, l = l1 ++ (n, r) :: l2 /\
      s = fold_left dadd (map snd l1 ++ [r]) v /\
      ~ deq (fold_left dadd (map snd l1) v) s /\
      (forall k, deq s (fold_left dadd (map snd (firstn k l2)) s))
  end.
Proof.
  induction l as [|[n r] t IH]; intros v Nv Nl; cbn [last_move].
  { intros k. rewrite firstn_nil. apply deq_refl. exact Nv. }
  assert (Fr : dfinite r) by (eapply Nl; left; reflexivity).
  assert (Nt : forall m x, In (m, x) t -> dfinite x) by (intros m x I; eapply Nl; right; exact I).
  assert (Ns := dadd_fin_notnan _ _ Nv Fr).
  specialize (IH _ Ns Nt). destruct (last_move dadd (dadd v r) t) as [[m s]|].
  - destruct IH as (l1 & x & l2 & -> & A & B & C). exists ((n, r) :: l1), x, l2.
    split; [reflexivity|]. cbn [map snd app fold_left]. auto.
  - unfold dneb. destruct (deqb v (dadd v r)) eqn:Q; cbn [negb].
    + intros [|k]; [apply deq_refl; exact Nv|]. cbn [firstn map snd fold_left].
      eapply deq_trans; [exact Q|apply IH].
    + exists [], r, t. split; [reflexivity|]. split; [reflexivity|]. split; [|exact IH].
      cbn. intros E. unfold deq in E. congruence.
Qed.

(** ** C74 *)
Lemma run_conversions ts : forall z ts' z' id inputs ty sp p,
  run_all thermal_process ts z = Ok (ts', z') -> In (TPid id inputs ty sp p) ts ->
  forall i, In i inputs -> ok_conversion (cached z) ty i.
Proof.
  induction ts as [|u r IH]; intros z ts' z' id inputs ty sp p H I i J; [destruct I|]. cbn [run_all] in H.
  apply bind_ok in H. destruct H as ([t1 z1] & H1 & H).
  apply bind_ok in H. destruct H as ([r1 z2] & H2 & H). injection H as <- <-.
  destruct I as [->|I].
  - cbn [thermal_process] in H1. apply bind_ok in H1. destruct H1 as ([v z3] & H1 & _).
    unfold thermal_inputProc in H1. apply bind_ok in H1. destruct H1 as (r0 & H1 & _).
    clear -H1 J. revert H1. generalize (thermal_start ty), false. intros v a. revert v a z r0.
    induction inputs as [|j l IHl]; intros v a z r0 H1; [destruct J|]. cbn [foldM] in H1.
    apply bind_ok in H1. destruct H1 as ([[v1 a1] z1] & H1 & H2).
    apply thermal_input1_spec in H1. destruct H1 as (_ & B & _ & _ & K & _).
    destruct J as [->|J]; [exact K|]. rewrite <- (cached_frame _ _ (tf_cv _ _ B)). eapply IHl; eauto.
  - apply thermal_process_spec in H1. destruct H1 as (_ & F1 & _).
    rewrite <- (cached_frame _ _ (tf_cv _ _ F1)). eapply IH; eauto.
Qed.

Lemma dsub_fin_notnan a b : dfinite a -> dfinite b -> notnan (dsub a b).
Proof. intros A B. apply dsub_Rx; assumption. Qed.

Lemma readings_notnan rd ty inputs :
  (forall i, In i inputs -> ok_conversion rd ty i) ->
  forall n r, In (n, r) (named_readings rd ty inputs) -> notnan r /\ (ty <> margin -> dfinite r).
Proof.
  intros K n r I. unfold named_readings in I. apply in_flat_map in I. destruct I as (i & Ii & I).
  apply in_map_iff in I. destruct I as (x & E & I). injection E as _ ->.
  specialize (K i Ii). unfold ok_conversion in K. unfold thermal_reading in I.
  destruct (rd (si_name i)) as [v|]; [|destruct I]. destruct (disfinite v) eqn:F; [|destruct I].
  assert (Fv : dfinite v) by exact F.
  destruct ty.
  - split; [|congruence]. destruct (si_convertTempToMargin i) eqn:C; destruct I as [<-|[]].
    + apply dsub_fin_notnan; [|exact Fv]. apply K; eauto.
    + apply finite_notnan. exact Fv.
  - destruct I as [<-|[]]. split; [apply finite_notnan; exact Fv|auto].
  - destruct I as [<-|[]]. split; [apply finite_notnan; exact Fv|auto].
Qed.

Lemma shows_lemma rd ty inputs o x :
  (forall i, In i inputs -> ok_conversion rd ty i) ->
  shows_input ty (named_readings rd ty inputs) o
    (with_output x (upd (last_move (agg ty) (thermal_start ty) (named_readings rd ty inputs)) o)).
Proof.
  intros K. assert (N := readings_notnan _ _ _ K). unfold shows_input.
  destruct ty; cbn [agg thermal_start].
  - assert (L := last_move_min (named_readings rd margin inputs) dmax_float eq_refl (fun n r I => proj1 (N n r I))).
    destruct (last_move dmin dmax_float _) as [[n y]|]; [right|left]; cbn; [tauto|auto].
  - assert (L := last_move_max (named_readings rd absolute inputs) dlowest eq_refl (fun n r I => proj1 (N n r I))).
    destruct (last_move dmax dlowest _) as [[n y]|]; [right|left]; cbn; [tauto|auto].
  - assert (F : forall n r, In (n, r) (named_readings rd summation inputs) -> dfinite r)
      by (intros n r I; apply (N n r I); discriminate).
    assert (L := last_move_sum (named_readings rd summation inputs) d0 eq_refl F).
    destruct (last_move dadd d0 _) as [[n y]|]; [right|left]; cbn; [exact L|auto].
Qed.

Lemma named_readings_ext rd rd' ty inputs : (forall n, rd n = rd' n) ->
  named_readings rd ty inputs = named_readings rd' ty inputs.
Proof.
  intros E. unfold named_readings. apply flat_map_ext. intros i. unfold thermal_reading. rewrite E. reflexivity.
Qed.

(** The run of the controllers inside a cycle. *)
Lemma cycle_run f env te z z' :
  thermal_cycle f env te z = Ok z' ->
  exists z1 ts z3,
    (forall n, cached z1 n = cycle_readings env z n) /\
    z_thermals z1 = z_thermals z /\ z_pidsControlProcess z1 = z_pidsControlProcess z /\
    run_all thermal_process (z_thermals z1) z1 = Ok (ts, z3) /\
    z_pidsControlProcess z' = z_pidsControlProcess z3.
Proof.
  unfold thermal_cycle. intros H. apply bind_ok in H. destruct H as (z1 & H1 & H).
  apply bind_ok in H. destruct H as (z2 & H2 & H3).
  assert (R := updateSensors_cached _ _ _ _ H1).
  unfold updateSensors in H1. apply polls_frame in H1. destruct H1 as (C1 & M1 & S1 & K1 & _).
  unfold ctls in K1. cbn in K1. injection K1 as Kf Kt Kp.
  unfold processThermals in H2. apply bind_ok in H2. destruct H2 as ([ts z3] & H4 & H2).
  injection H2 as <-. apply determine_frame in H3. destruct H3 as (_ & _ & _ & K3 & _).
  unfold ctls in K3. cbn in K3. injection K3 as _ _ K3.
  eexists (clearRPMCeilings (clearSetPoints z1)), ts, z3.
  split; [exact R|]. split; [exact Kt|]. split; [exact Kp|]. split; [exact H4|exact K3].
Qed.

Lemma C74_lemma f env te z z' id inputs ty sp p :
  thermal_cycle f env te z = Ok z' -> NoDup (map thermal_id (z_thermals z)) ->
  In (TPid id inputs ty sp p) (z_thermals z) -> (forall i, In i inputs -> si_name i <> "") ->
  exists o o',
    mget id (z_pidsControlProcess z) = Some o /\ mget id (z_pidsControlProcess z') = Some o' /\
    po_enabled o' = po_enabled o /\ po_setpoint o' = po_setpoint o /\ po_classType o' = po_classType o /\
    po_output o' = ctl_output (cycle_readings env z) (TPid id inputs ty sp p) /\
    shows_input ty (named_readings (cycle_readings env z) ty inputs) o o'.
Proof.
  intros H N I Nn. apply cycle_run in H. destruct H as (z1 & ts & z3 & R & T & P & H & E).
  rewrite T in H. assert (O := run_own _ _ _ _ _ H N I Nn). cbn [thermal_id] in O.
  assert (Cv := run_conversions _ _ _ _ _ _ _ _ _ H I).
  rewrite <- E, P in O. rewrite <- (named_readings_ext _ _ ty inputs R), <- (ctl_output_ext _ _ _ R).
  destruct (mget id (z_pidsControlProcess z)) as [o|] eqn:Eo.
  - exists o, (ctl_obj (cached z1) (TPid id inputs ty sp p) o). split; [reflexivity|]. split; [exact O|].
    cbn [ctl_obj].
    assert (G : forall m, po_enabled (upd m o) = po_enabled o /\ po_setpoint (upd m o) = po_setpoint o /\
       po_classType (upd m o) = po_classType o) by (intros [[n y]|]; repeat split).
    destruct (G (last_move (agg ty) (thermal_start ty) (named_readings (cached z1) ty inputs))) as (G1 & G2 & G3).
    cbn [with_output po_enabled po_setpoint po_classType po_output].
    repeat (split; [first [assumption|reflexivity]|]). apply shows_lemma. exact Cv.
  - exfalso. assert (Q := N). clear Q.
    assert (X : exists q, mget id (z_pidsControlProcess z1) = Some q).
    { clear -H I Nn N. revert H. generalize (z_thermals z) z1 ts z3 I N. clear.
      induction l as [|u r IH]; intros z1 ts z3 I N H; [destruct I|]. cbn [run_all] in H.
      apply bind_ok in H. destruct H as ([t1 z4] & H1 & H).
      apply bind_ok in H. destruct H as ([r1 z5] & H2 & H). injection H as <- <-.
      cbn [map] in N. inversion N as [|x y Nu N']; subst. destruct I as [->|I].
      - cbn [thermal_process] in H1. apply bind_ok in H1. destruct H1 as ([v z6] & H1 & H).
        apply thermal_inputProc_spec in H1. destruct H1 as (_ & F & _).
        destruct (pid_process p sp v) as [p' o]. apply bind_ok in H. destruct H as (z7 & H3 & _).
        unfold thermal_outputProc in H3. apply bind_ok in H3. destruct H3 as (z8 & H4 & _).
        apply addSetPoint_spec in H4. destruct H4 as (_ & _ & _ & q & Eq).
        assert (En := tf_en _ _ F id). rewrite Eq in En.
        destruct (mget id (z_pidsControlProcess z1)); [eauto|discriminate].
      - destruct (IH _ _ _ I N' H2) as (q & Eq). exists q. rewrite <- Eq. symmetry.
        eapply process_other; [exact H1|]. intros Ei. exfalso. apply Nu. rewrite Ei.
        apply (in_map thermal_id) in I. exact I. }
    destruct X as (q & X). rewrite P in X. congruence.
Qed.

Lemma C74_others_lemma f env te z z' n :
  thermal_cycle f env te z = Ok z' ->
  (forall t, In t (z_thermals z) -> thermal_id t = n -> exists i c, t = TStep n i c) ->
  mget n (z_pidsControlProcess z') = mget n (z_pidsControlProcess z).
Proof.
  intros H N. apply cycle_run in H. destruct H as (z1 & ts & z3 & _ & T & P & H & E).
  rewrite T in H. rewrite E, <- P. eapply run_other; eauto.
Qed.
