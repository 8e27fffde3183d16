(** * Largest and smallest elements of lists of doubles (proofs only). *)
From Coq Require Import ZArith Bool List Reals Lra Lia.
From Coq Require Import Floats.SpecFloat.
From Flocq Require Import Core IEEE754.BinarySingleNaN.
From Verif Require Import Dbl DblFacts.
Import ListNotations.
Local Open Scope R_scope.

Lemma Rx_dmax_float : Rx dmax_float = bpow radix2 1024 - bpow radix2 (1024 - 53).
Proof.
  unfold dmax_float, Bmax_float. simpl Rx. unfold F2R. simpl Fnum. simpl Fexp.
  replace (IZR _) with (bpow radix2 53 - 1).
  2:{ change (bpow radix2 53) with (IZR (2 ^ 53)). rewrite <- minus_IZR. reflexivity. }
  rewrite Rmult_minus_distr_r, <- bpow_plus, Rmult_1_l. reflexivity.
Qed.
Lemma dmax_float_finite : dfinite dmax_float. Proof. reflexivity. Qed.
Lemma dlowest_finite : dfinite dlowest. Proof. reflexivity. Qed.
Lemma Rx_dlowest : Rx dlowest = - Rx dmax_float.
Proof. unfold dlowest. rewrite !Rx_finite by reflexivity. apply B2R_Bopp. Qed.

Lemma dfinite_le_max (x : dbl) : dfinite x -> dle x dmax_float.
Proof.
  intros F. apply dle_iff. split; [apply finite_notnan; exact F|]. split; [reflexivity|].
  rewrite Rx_dmax_float, Rx_finite by exact F.
  assert (H := abs_B2R_le_emax_minus_prec _ _ prec_pos x). apply Rabs_le_inv in H. lra.
Qed.
Lemma dfinite_ge_lowest (x : dbl) : dfinite x -> dle dlowest x.
Proof.
  intros F. apply dle_iff. split; [reflexivity|]. split; [apply finite_notnan; exact F|].
  rewrite Rx_dlowest, Rx_dmax_float, Rx_finite by exact F.
  assert (H := abs_B2R_le_emax_minus_prec _ _ prec_pos x). apply Rabs_le_inv in H. lra.
Qed.

Lemma dle_antisym (x y : dbl) : dle x y -> dle y x -> deq x y.
Proof. rewrite !dle_iff, deq_iff. intros (A & B & C) (_ & _ & E). repeat split; auto. lra. Qed.
Lemma deq_refl (x : dbl) : notnan x -> deq x x.
Proof. intros H. apply deq_iff. auto. Qed.
Lemma deq_sym (x y : dbl) : deq x y -> deq y x.
Proof. rewrite !deq_iff. intuition. Qed.
Lemma deq_trans (x y z : dbl) : deq x y -> deq y z -> deq x z.
Proof. rewrite !deq_iff. intuition congruence. Qed.
Lemma deq_le (x y : dbl) : deq x y -> dle x y.
Proof. rewrite deq_iff, dle_iff. intuition lra. Qed.
Lemma deq_notnan (x y : dbl) : deq x y -> notnan x /\ notnan y.
Proof. rewrite deq_iff. tauto. Qed.
Lemma dle_notnan (x y : dbl) : dle x y -> notnan x /\ notnan y.
Proof. rewrite dle_iff. tauto. Qed.
Lemma dlt_notnan (x y : dbl) : dlt x y -> notnan x /\ notnan y.
Proof. rewrite dlt_iff. tauto. Qed.
Lemma dlt_not_le (x y : dbl) : dlt x y -> ~ dle y x.
Proof. rewrite dlt_iff, dle_iff. intros (A & B & C) (_ & _ & E). lra. Qed.
Lemma nan_dec (x : dbl) : notnan x \/ is_nan x = true.
Proof. unfold notnan. destruct (is_nan x); auto. Qed.

(** ** std::max over a list *)
Lemma dmax_notnan (a b : dbl) : notnan a -> notnan (dmax a b).
Proof. unfold dmax. intros H. destruct (dltb a b) eqn:E; [|exact H]. apply dltb_notnan in E. tauto. Qed.
Lemma dmax_ge_l (a b : dbl) : notnan a -> dle a (dmax a b).
Proof.
  intros H. unfold dmax. destruct (dltb a b) eqn:E; [|apply dle_refl; exact H].
  apply dlt_dle. exact E.
Qed.
Lemma dmax_ge_r (a b : dbl) : notnan a -> notnan b -> dle b (dmax a b).
Proof.
  intros H K. unfold dmax. destruct (dltb a b) eqn:E; [apply dle_refl; exact K|].
  apply dltb_false_dle; assumption.
Qed.
Lemma fold_dmax_notnan l : forall b, notnan b -> notnan (fold_left dmax l b).
Proof. induction l as [|x r IH]; intros b H; simpl; [exact H|]. apply IH, dmax_notnan, H. Qed.
Lemma fold_dmax_ge_start l : forall b, notnan b -> dle b (fold_left dmax l b).
Proof.
  induction l as [|x r IH]; intros b H; simpl; [apply dle_refl, H|].
  eapply dle_trans; [apply (dmax_ge_l b x H)|]. apply IH, dmax_notnan, H.
Qed.
Lemma fold_dmax_ge l : forall b x, notnan b -> In x l -> notnan x -> dle x (fold_left dmax l b).
Proof.
  induction l as [|y r IH]; intros b x H I K; simpl in *; [tauto|].
  destruct I as [->|I].
  - eapply dle_trans; [apply (dmax_ge_r b x H K)|]. apply fold_dmax_ge_start, dmax_notnan, H.
  - apply IH; auto. apply dmax_notnan, H.
Qed.
Lemma fold_dmax_in l : forall b, In (fold_left dmax l b) (b :: l).
Proof.
  induction l as [|y r IH]; intros b; simpl; [auto|].
  destruct (IH (dmax b y)) as [E|I]; [|auto].
  rewrite <- E. unfold dmax. destruct (dltb b y); auto.
Qed.

(** ** std::min over a list *)
Lemma dmin_notnan (a b : dbl) : notnan a -> notnan (dmin a b).
Proof. unfold dmin. intros H. destruct (dltb b a) eqn:E; [|exact H]. apply dltb_notnan in E. tauto. Qed.
Lemma dmin_le_l (a b : dbl) : notnan a -> dle (dmin a b) a.
Proof.
  intros H. unfold dmin. destruct (dltb b a) eqn:E; [|apply dle_refl; exact H].
  apply dlt_dle. exact E.
Qed.
Lemma dmin_le_r (a b : dbl) : notnan a -> notnan b -> dle (dmin a b) b.
Proof.
  intros H K. unfold dmin. destruct (dltb b a) eqn:E; [apply dle_refl; exact K|].
  apply dltb_false_dle; assumption.
Qed.
Lemma fold_dmin_notnan l : forall b, notnan b -> notnan (fold_left dmin l b).
Proof. induction l as [|x r IH]; intros b H; simpl; [exact H|]. apply IH, dmin_notnan, H. Qed.
Lemma fold_dmin_le_start l : forall b, notnan b -> dle (fold_left dmin l b) b.
Proof.
  induction l as [|x r IH]; intros b H; simpl; [apply dle_refl, H|].
  eapply dle_trans; [|apply (dmin_le_l b x H)]. apply IH, dmin_notnan, H.
Qed.
Lemma fold_dmin_le l : forall b x, notnan b -> In x l -> notnan x -> dle (fold_left dmin l b) x.
Proof.
  induction l as [|y r IH]; intros b x H I K; simpl in *; [tauto|].
  destruct I as [->|I].
  - eapply dle_trans; [|apply (dmin_le_r b x H K)]. apply fold_dmin_le_start, dmin_notnan, H.
  - apply IH; auto. apply dmin_notnan, H.
Qed.
Lemma fold_dmin_in l : forall b, In (fold_left dmin l b) (b :: l).
Proof.
  induction l as [|y r IH]; intros b; simpl; [auto|].
  destruct (IH (dmin b y)) as [E|I]; [|auto].
  rewrite <- E. unfold dmin. destruct (dltb y b); auto.
Qed.

(** Sums of non-negative values. *)
Lemma dadd_nonneg_notnan (a b : dbl) : dle d0 a -> dle d0 b -> notnan (dadd a b).
Proof.
  intros Ha Hb.
  assert (Na : notnan a) by (apply dle_iff in Ha; tauto).
  assert (Nb : notnan b) by (apply dle_iff in Hb; tauto).
  destruct (finite_or_inf a Na) as [Fa|[->| ->]].
  - destruct (finite_or_inf b Nb) as [Fb|[->| ->]].
    + assert (H := dadd_Rx a b Fa Fb). tauto.
    + destruct a; try reflexivity; discriminate.
    + discriminate Hb.
  - destruct b as [|[|]| |]; try reflexivity; discriminate.
  - discriminate Ha.
Qed.
Lemma dadd_nonneg_ge0 (a b : dbl) : dle d0 a -> dle d0 b -> dle d0 (dadd a b).
Proof.
  intros Ha Hb. eapply dle_trans; [exact Ha|]. apply dadd_nonneg; [exact Hb|].
  apply dadd_nonneg_notnan; assumption.
Qed.
Lemma fold_dadd_nonneg l : forall b, dle d0 b -> (forall x, In x l -> dle d0 x) ->
  dle b (fold_left dadd l b).
Proof.
  induction l as [|x r IH]; intros b Hb H; simpl.
  - apply dle_refl. apply dle_iff in Hb; tauto.
  - assert (Hx : dle d0 x) by (apply H; simpl; auto).
    eapply dle_trans; [apply (dadd_nonneg b x Hx)|].
    + apply dadd_nonneg_notnan; assumption.
    + apply IH; [apply dadd_nonneg_ge0; assumption|]. intros y Iy. apply H. simpl; auto.
Qed.
