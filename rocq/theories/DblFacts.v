(** * Order and rounding facts about [dbl] (proofs only). *)
From Coq Require Import ZArith Bool List Reals Lra Lia.
From Coq Require Import Floats.SpecFloat.
From Flocq Require Import Core IEEE754.BinarySingleNaN.
From Verif Require Import Dbl.
Import ListNotations.
Local Open Scope R_scope.

Definition big : R := bpow radix2 1024.

Lemma big_pos : 0 < big.
Proof. apply bpow_gt_0. Qed.

(** Extended-real view: infinities are mapped just outside the finite range. *)
Definition Rx (x : dbl) : R :=
  match x with
  | B754_infinity s => if s then - big else big
  | _ => B2R x
  end.

Lemma Rx_finite (x : dbl) : dfinite x -> Rx x = B2R x.
Proof. destruct x; simpl; try reflexivity; discriminate. Qed.

Lemma Rx_finite_bound (x : dbl) : dfinite x -> - big < Rx x < big.
Proof.
  intros H. rewrite Rx_finite by assumption.
  assert (Hb := abs_B2R_lt_emax _ _ x). fold big in Hb.
  apply Rabs_lt_inv in Hb. exact Hb.
Qed.

Lemma Rx_bound (x : dbl) : - big <= Rx x <= big.
Proof.
  pose proof big_pos as Hp.
  destruct x as [s|s| |s m e Hb].
  - simpl. lra.
  - simpl. destruct s; lra.
  - simpl. lra.
  - assert (H := Rx_finite_bound (B754_finite s m e Hb) eq_refl). lra.
Qed.

Lemma finite_notnan (x : dbl) : dfinite x -> notnan x.
Proof. destruct x; simpl; intros H; try reflexivity; discriminate H. Qed.

Lemma Rx_inf_pos (x : dbl) : notnan x -> Rx x = big -> x = dinf.
Proof.
  pose proof big_pos as Hp.
  intros Hn H. destruct x as [s|[|]| |s m e Hb]; try discriminate Hn.
  - simpl in H; lra.
  - simpl in H; lra.
  - reflexivity.
  - assert (H2 := Rx_finite_bound (B754_finite s m e Hb) eq_refl). lra.
Qed.

Lemma finite_iff_Rx (x : dbl) : notnan x -> (dfinite x <-> - big < Rx x < big).
Proof.
  intros Hn. split; [apply Rx_finite_bound|].
  destruct x as [s|[|]| |s m e Hb]; intros H; try reflexivity; try discriminate Hn;
   simpl in H; lra.
Qed.

Lemma Bcompare_Rx (x y : dbl) :
  notnan x -> notnan y -> Bcompare x y = Some (Rcompare (Rx x) (Rx y)).
Proof.
  intros Hx Hy. pose proof big_pos as Hp.
  destruct (is_finite x) eqn:Fx, (is_finite y) eqn:Fy.
  - rewrite Bcompare_correct by assumption. now rewrite !Rx_finite.
  - assert (B := Rx_finite_bound x Fx).
    destruct y as [s|[|]| |s m e Hb]; try discriminate.
    + change (Rx (B754_infinity true)) with (- big). rewrite Rcompare_Gt by lra.
      destruct x as [s|s| |s m e Hb]; try discriminate; destruct s; reflexivity.
    + change (Rx (B754_infinity false)) with big. rewrite Rcompare_Lt by lra.
      destruct x as [s|s| |s m e Hb]; try discriminate; destruct s; reflexivity.
  - assert (B := Rx_finite_bound y Fy).
    destruct x as [s|[|]| |s m e Hb]; try discriminate.
    + change (Rx (B754_infinity true)) with (- big). rewrite Rcompare_Lt by lra.
      destruct y as [s|s| |s m e Hb]; try discriminate; destruct s; reflexivity.
    + change (Rx (B754_infinity false)) with big. rewrite Rcompare_Gt by lra.
      destruct y as [s|s| |s m e Hb]; try discriminate; destruct s; reflexivity.
  - destruct x as [s|[|]| |s m e Hb]; try discriminate;
    destruct y as [s'|[|]| |s' m' e' Hb']; try discriminate; simpl Rx.
    + rewrite Rcompare_Eq by reflexivity. reflexivity.
    + rewrite Rcompare_Lt by lra. reflexivity.
    + rewrite Rcompare_Gt by lra. reflexivity.
    + rewrite Rcompare_Eq by reflexivity. reflexivity.
Qed.

Lemma Bcompare_nan_l (x y : dbl) : is_nan x = true -> Bcompare x y = None.
Proof. destruct x; try discriminate; intros _; destruct y; reflexivity. Qed.
Lemma Bcompare_nan_r (x y : dbl) : is_nan y = true -> Bcompare x y = None.
Proof. destruct y; try discriminate; intros _; destruct x as [[|]|[|]| |[|]]; reflexivity. Qed.

Lemma dltb_notnan (x y : dbl) : dltb x y = true -> notnan x /\ notnan y.
Proof.
  unfold dltb, notnan. intros H.
  destruct (is_nan x) eqn:E; [rewrite Bcompare_nan_l in H by assumption; discriminate|].
  destruct (is_nan y) eqn:E'; [rewrite Bcompare_nan_r in H by assumption; discriminate|].
  auto.
Qed.
Lemma dleb_notnan (x y : dbl) : dleb x y = true -> notnan x /\ notnan y.
Proof.
  unfold dleb, notnan. intros H.
  destruct (is_nan x) eqn:E; [rewrite Bcompare_nan_l in H by assumption; discriminate|].
  destruct (is_nan y) eqn:E'; [rewrite Bcompare_nan_r in H by assumption; discriminate|].
  auto.
Qed.
Lemma deqb_notnan (x y : dbl) : deqb x y = true -> notnan x /\ notnan y.
Proof.
  unfold deqb, notnan. intros H.
  destruct (is_nan x) eqn:E; [rewrite Bcompare_nan_l in H by assumption; discriminate|].
  destruct (is_nan y) eqn:E'; [rewrite Bcompare_nan_r in H by assumption; discriminate|].
  auto.
Qed.

Lemma dltb_nan_l (x y : dbl) : is_nan x = true -> dltb x y = false.
Proof. intros H. unfold dltb. now rewrite Bcompare_nan_l. Qed.
Lemma dltb_nan_r (x y : dbl) : is_nan y = true -> dltb x y = false.
Proof. intros H. unfold dltb. now rewrite Bcompare_nan_r. Qed.
Lemma dleb_nan_l (x y : dbl) : is_nan x = true -> dleb x y = false.
Proof. intros H. unfold dleb. now rewrite Bcompare_nan_l. Qed.
Lemma dleb_nan_r (x y : dbl) : is_nan y = true -> dleb x y = false.
Proof. intros H. unfold dleb. now rewrite Bcompare_nan_r. Qed.

Lemma dltb_Rx (x y : dbl) : notnan x -> notnan y -> (dltb x y = true <-> Rx x < Rx y).
Proof.
  intros Hx Hy. unfold dltb. rewrite Bcompare_Rx by assumption.
  destruct (Rcompare_spec (Rx x) (Rx y)); split; intros; try lra; try discriminate; reflexivity.
Qed.
Lemma dleb_Rx (x y : dbl) : notnan x -> notnan y -> (dleb x y = true <-> Rx x <= Rx y).
Proof.
  intros Hx Hy. unfold dleb. rewrite Bcompare_Rx by assumption.
  destruct (Rcompare_spec (Rx x) (Rx y)); split; intros; try lra; try discriminate; reflexivity.
Qed.
Lemma deqb_Rx (x y : dbl) : notnan x -> notnan y -> (deqb x y = true <-> Rx x = Rx y).
Proof.
  intros Hx Hy. unfold deqb. rewrite Bcompare_Rx by assumption.
  destruct (Rcompare_spec (Rx x) (Rx y)); split; intros; try lra; try discriminate; reflexivity.
Qed.
Lemma dltb_Rx_false (x y : dbl) : notnan x -> notnan y -> (dltb x y = false <-> Rx y <= Rx x).
Proof.
  intros Hx Hy. pose proof (dltb_Rx x y Hx Hy) as H.
  destruct (dltb x y); split; intros; try reflexivity; try discriminate.
  - exfalso. assert (Rx x < Rx y) by (apply H; reflexivity). lra.
  - destruct (Rle_or_lt (Rx y) (Rx x)); [assumption|]. apply H in H1. discriminate.
Qed.
Lemma dleb_Rx_false (x y : dbl) : notnan x -> notnan y -> (dleb x y = false <-> Rx y < Rx x).
Proof.
  intros Hx Hy. pose proof (dleb_Rx x y Hx Hy) as H.
  destruct (dleb x y); split; intros; try reflexivity; try discriminate.
  - exfalso. assert (Rx x <= Rx y) by (apply H; reflexivity). lra.
  - destruct (Rlt_or_le (Rx y) (Rx x)); [assumption|]. apply H in H1. discriminate.
Qed.

Lemma dle_iff (x y : dbl) : dle x y <-> notnan x /\ notnan y /\ Rx x <= Rx y.
Proof.
  split.
  - intros H. destruct (dleb_notnan _ _ H). repeat split; try assumption. now apply dleb_Rx.
  - intros (Hx & Hy & H). now apply dleb_Rx.
Qed.
Lemma dlt_iff (x y : dbl) : dlt x y <-> notnan x /\ notnan y /\ Rx x < Rx y.
Proof.
  split.
  - intros H. destruct (dltb_notnan _ _ H). repeat split; try assumption. now apply dltb_Rx.
  - intros (Hx & Hy & H). now apply dltb_Rx.
Qed.
Lemma deq_iff (x y : dbl) : deq x y <-> notnan x /\ notnan y /\ Rx x = Rx y.
Proof.
  split.
  - intros H. destruct (deqb_notnan _ _ H). repeat split; try assumption. now apply deqb_Rx.
  - intros (Hx & Hy & H). now apply deqb_Rx.
Qed.

Lemma dle_refl (x : dbl) : notnan x -> dle x x.
Proof. intros. apply dle_iff. repeat split; try assumption. lra. Qed.
Lemma dle_trans (x y z : dbl) : dle x y -> dle y z -> dle x z.
Proof. rewrite !dle_iff. intros (?&?&?) (?&?&?). repeat split; try assumption. lra. Qed.
Lemma dlt_dle (x y : dbl) : dlt x y -> dle x y.
Proof. rewrite dle_iff, dlt_iff. intros (?&?&?). repeat split; try assumption. lra. Qed.
Lemma dle_total (x y : dbl) : notnan x -> notnan y -> dle x y \/ dle y x.
Proof. intros. rewrite !dle_iff. destruct (Rle_or_lt (Rx x) (Rx y)); [left|right]; repeat split; try assumption; lra. Qed.
Lemma dltb_false_dle (x y : dbl) : notnan x -> notnan y -> dltb x y = false -> dle y x.
Proof. intros Hx Hy H. apply dle_iff. repeat split; try assumption. now apply dltb_Rx_false. Qed.
Lemma dleb_false_dlt (x y : dbl) : notnan x -> notnan y -> dleb x y = false -> dlt y x.
Proof. intros Hx Hy H. apply dlt_iff. repeat split; try assumption. now apply dleb_Rx_false. Qed.
Lemma dle_lt_trans (x y z : dbl) : dle x y -> dlt y z -> dlt x z.
Proof. rewrite dle_iff, !dlt_iff. intros (?&?&?) (?&?&?). repeat split; try assumption. lra. Qed.
Lemma dlt_le_trans (x y z : dbl) : dlt x y -> dle y z -> dlt x z.
Proof. rewrite dle_iff, !dlt_iff. intros (?&?&?) (?&?&?). repeat split; try assumption. lra. Qed.
Lemma dlt_irrefl (x : dbl) : ~ dlt x x.
Proof. rewrite dlt_iff. intros (?&?&?). lra. Qed.
Lemma dltb_irrefl (x : dbl) : dltb x x = false.
Proof. destruct (dltb x x) eqn:E; [|reflexivity]. exfalso. exact (dlt_irrefl x E). Qed.
Lemma dle_not_lt (x y : dbl) : dle x y -> dltb y x = false.
Proof.
  intros H. apply dle_iff in H. destruct H as (Hx & Hy & H). now apply dltb_Rx_false.
Qed.

(** ** Rounding *)
Definition RN (r : R) : R := round radix2 (SpecFloat.fexp 53 1024) ZnearestE r.

Definition clip (r : R) : R :=
  if Rlt_bool (Rabs r) big then r else if Rlt_bool r 0 then - big else big.

Global Instance fexp_valid : Valid_exp (SpecFloat.fexp 53 1024).
Proof. apply (fexp_correct 53 1024). reflexivity. Qed.

Lemma RN_mono (a b : R) : a <= b -> RN a <= RN b.
Proof. intros. unfold RN. apply round_le; [apply fexp_valid|apply valid_rnd_N|assumption]. Qed.

Lemma clip_mono (a b : R) : a <= b -> clip a <= clip b.
Proof.
  intros H. unfold clip. pose proof big_pos as Hp.
  destruct (Rlt_bool_spec (Rabs a) big) as [Ha|Ha], (Rlt_bool_spec (Rabs b) big) as [Hb|Hb];
  destruct (Rlt_bool_spec a 0), (Rlt_bool_spec b 0);
  try (apply Rabs_lt_inv in Ha); try (apply Rabs_lt_inv in Hb); try lra;
  try (rewrite Rabs_left in Hb by lra); try (rewrite Rabs_pos_eq in Hb by lra);
  try (rewrite Rabs_left in Ha by lra); try (rewrite Rabs_pos_eq in Ha by lra); try lra.
Qed.

Lemma clip_id (r : R) : Rabs r < big -> clip r = r.
Proof. intros H. unfold clip. now rewrite Rlt_bool_true. Qed.

Lemma RN_B2R (x : dbl) : RN (B2R x) = B2R x.
Proof.
  unfold RN. apply round_generic; [apply valid_rnd_N|].
  apply generic_format_B2R.
Qed.

Lemma clip_RN_B2R (x : dbl) : clip (RN (B2R x)) = B2R x.
Proof.
  rewrite RN_B2R. apply clip_id. apply abs_B2R_lt_emax.
Qed.

Lemma RN_0 : RN 0 = 0.
Proof. unfold RN. apply round_0. apply valid_rnd_N. Qed.

Lemma clip_RN_0 : clip (RN 0) = 0.
Proof. rewrite RN_0. apply clip_id. rewrite Rabs_R0. apply big_pos. Qed.

Lemma B2SF_overflow (z : dbl) (s : bool) :
  B2SF z = binary_overflow 53 1024 mode_NE s -> z = B754_infinity s.
Proof.
  change (binary_overflow 53 1024 mode_NE s) with (S754_infinity s).
  destruct z; simpl; try discriminate. intros H; injection H as ->. reflexivity.
Qed.

Lemma dadd_Rx (a b : dbl) : dfinite a -> dfinite b ->
  notnan (dadd a b) /\ Rx (dadd a b) = clip (RN (Rx a + Rx b)).
Proof.
  intros Ha Hb. rewrite (Rx_finite a Ha), (Rx_finite b Hb).
  assert (H := Bplus_correct 53 1024 prec_pos prec_emax mode_NE a b Ha Hb).
  fold (dadd a b) in H. simpl round_mode in H. fold (RN (B2R a + B2R b)) in H. fold big in H.
  unfold clip.
  destruct (Rlt_bool (Rabs (RN (B2R a + B2R b))) big) eqn:E.
  - destruct H as (H1 & H2 & _). split; [now apply finite_notnan|].
    rewrite Rx_finite by assumption. exact H1.
  - destruct H as [H1 H2]. apply B2SF_overflow in H1. rewrite H1. split; [reflexivity|].
    simpl Rx.
    assert (E' : big <= Rabs (RN (B2R a + B2R b))).
    { destruct (Rlt_bool_spec (Rabs (RN (B2R a + B2R b))) big); [discriminate|assumption]. }
    destruct (Bsign a) eqn:Sa.
    + (* both negative *)
      assert (B2R a <= 0).
      { destruct a as [s|s| |s m e Hm]; simpl in *; try lra. subst s.
        apply F2R_le_0. simpl. lia. }
      assert (B2R b <= 0).
      { symmetry in H2. destruct b as [s|s| |s m e Hm]; simpl in *; try lra. subst s.
        apply F2R_le_0. simpl. lia. }
      assert (RN (B2R a + B2R b) <= 0) by (rewrite <- RN_0; apply RN_mono; lra).
      destruct (Rlt_bool_spec (RN (B2R a + B2R b)) 0) as [L|L]; [reflexivity|].
      exfalso. assert (RN (B2R a + B2R b) = 0) by lra. rewrite H4, Rabs_R0 in E'.
      pose proof big_pos. lra.
    + assert (0 <= B2R a).
      { destruct a as [s|s| |s m e Hm]; simpl in *; try lra. subst s.
        apply F2R_ge_0. simpl. lia. }
      assert (0 <= B2R b).
      { symmetry in H2. destruct b as [s|s| |s m e Hm]; simpl in *; try lra. subst s.
        apply F2R_ge_0. simpl. lia. }
      assert (0 <= RN (B2R a + B2R b)) by (rewrite <- RN_0; apply RN_mono; lra).
      destruct (Rlt_bool_spec (RN (B2R a + B2R b)) 0) as [L|L]; [lra|reflexivity].
Qed.

Lemma Bsign_neg (a : dbl) : dfinite a -> Bsign a = true -> B2R a <= 0.
Proof.
  intros F S. destruct a as [s|s| |s m e Hm]; simpl in *; try lra; try discriminate. subst s.
  apply F2R_le_0. simpl. lia.
Qed.
Lemma Bsign_pos (a : dbl) : dfinite a -> Bsign a = false -> 0 <= B2R a.
Proof.
  intros F S. destruct a as [s|s| |s m e Hm]; simpl in *; try lra; try discriminate. subst s.
  apply F2R_ge_0. simpl. lia.
Qed.
Lemma Bsign_neg_iff (a : dbl) : dfinite a -> B2R a < 0 -> Bsign a = true.
Proof. intros F H. destruct (Bsign a) eqn:E; [reflexivity|]. apply Bsign_pos in E; [lra|assumption]. Qed.
Lemma Bsign_pos_iff (a : dbl) : dfinite a -> 0 < B2R a -> Bsign a = false.
Proof. intros F H. destruct (Bsign a) eqn:E; [|reflexivity]. apply Bsign_neg in E; [lra|assumption]. Qed.

Lemma clip_RN_overflow (r : R) (s : bool) :
  big <= Rabs (RN r) -> (if s then r <= 0 else 0 <= r) ->
  (if s then - big else big) = (if Rlt_bool (RN r) 0 then - big else big).
Proof.
  intros E H. pose proof big_pos. destruct s.
  - assert (RN r <= 0) by (rewrite <- RN_0; apply RN_mono; lra).
    destruct (Rlt_bool_spec (RN r) 0) as [L|L]; [reflexivity|].
    exfalso. assert (HH : RN r = 0) by lra. rewrite HH, Rabs_R0 in E. lra.
  - assert (0 <= RN r) by (rewrite <- RN_0; apply RN_mono; lra).
    destruct (Rlt_bool_spec (RN r) 0) as [L|L]; [lra|reflexivity].
Qed.

Lemma dsub_Rx (a b : dbl) : dfinite a -> dfinite b ->
  notnan (dsub a b) /\ Rx (dsub a b) = clip (RN (Rx a - Rx b)).
Proof.
  intros Ha Hb. rewrite (Rx_finite a Ha), (Rx_finite b Hb).
  assert (H := Bminus_correct 53 1024 prec_pos prec_emax mode_NE a b Ha Hb).
  fold (dsub a b) in H. simpl round_mode in H. fold (RN (B2R a - B2R b)) in H. fold big in H.
  unfold clip.
  destruct (Rlt_bool_spec (Rabs (RN (B2R a - B2R b))) big) as [E|E].
  - destruct H as (H1 & H2 & _). split; [now apply finite_notnan|].
    rewrite Rx_finite by assumption. exact H1.
  - destruct H as [H1 H2]. apply B2SF_overflow in H1. rewrite H1. split; [reflexivity|].
    simpl Rx. apply clip_RN_overflow; [assumption|].
    destruct (Bsign a) eqn:Sa.
    + assert (B2R a <= 0) by (apply Bsign_neg; assumption).
      assert (0 <= B2R b) by (apply Bsign_pos; [assumption|]; destruct (Bsign b); [discriminate|reflexivity]).
      lra.
    + assert (0 <= B2R a) by (apply Bsign_pos; assumption).
      assert (B2R b <= 0) by (apply Bsign_neg; [assumption|]; destruct (Bsign b); [reflexivity|discriminate]).
      lra.
Qed.

Lemma dmul_Rx (a b : dbl) : dfinite a -> dfinite b ->
  notnan (dmul a b) /\ Rx (dmul a b) = clip (RN (Rx a * Rx b)).
Proof.
  intros Ha Hb. rewrite (Rx_finite a Ha), (Rx_finite b Hb).
  assert (H := Bmult_correct 53 1024 prec_pos prec_emax mode_NE a b).
  fold (dmul a b) in H. simpl round_mode in H. fold (RN (B2R a * B2R b)) in H. fold big in H.
  unfold clip.
  destruct (Rlt_bool_spec (Rabs (RN (B2R a * B2R b))) big) as [E|E].
  - destruct H as (H1 & H2 & _). rewrite Ha, Hb in H2. simpl in H2.
    split; [now apply finite_notnan|].
    rewrite Rx_finite by assumption. exact H1.
  - apply B2SF_overflow in H. rewrite H. split; [reflexivity|].
    simpl Rx. apply clip_RN_overflow; [assumption|].
    destruct (Bsign a) eqn:Sa, (Bsign b) eqn:Sb; simpl;
    repeat match goal with
    | H : Bsign ?x = true |- _ => apply Bsign_neg in H; [|assumption]
    | H : Bsign ?x = false |- _ => apply Bsign_pos in H; [|assumption]
    end; nra.
Qed.

Lemma ddiv_Rx (a b : dbl) : dfinite a -> dfinite b -> Rx b <> 0 ->
  notnan (ddiv a b) /\ Rx (ddiv a b) = clip (RN (Rx a / Rx b)).
Proof.
  intros Ha Hb. rewrite (Rx_finite a Ha), (Rx_finite b Hb). intros Hb0.
  assert (H := Bdiv_correct 53 1024 prec_pos prec_emax mode_NE a b Hb0).
  fold (ddiv a b) in H. simpl round_mode in H. fold (RN (B2R a / B2R b)) in H. fold big in H.
  unfold clip.
  destruct (Rlt_bool_spec (Rabs (RN (B2R a / B2R b))) big) as [E|E].
  - destruct H as (H1 & H2 & _). rewrite Ha in H2. simpl in H2.
    split; [now apply finite_notnan|].
    rewrite Rx_finite by assumption. exact H1.
  - apply B2SF_overflow in H. rewrite H. split; [reflexivity|].
    simpl Rx. apply clip_RN_overflow; [assumption|]. unfold Rdiv.
    destruct (Bsign a) eqn:Sa, (Bsign b) eqn:Sb; simpl;
    repeat match goal with
    | H : Bsign ?x = true |- _ => apply Bsign_neg in H; [|assumption]
    | H : Bsign ?x = false |- _ => apply Bsign_pos in H; [|assumption]
    end.
    + assert (/ B2R b < 0) by (apply Rinv_lt_0_compat; lra). nra.
    + assert (0 < / B2R b) by (apply Rinv_0_lt_compat; lra). nra.
    + assert (/ B2R b < 0) by (apply Rinv_lt_0_compat; lra). nra.
    + assert (0 < / B2R b) by (apply Rinv_0_lt_compat; lra). nra.
Qed.

(** ** Monotonicity including infinities *)
Ltac dcases x := destruct x as [?s|[|]| |?s ?m ?e ?Hb]; try discriminate.

Lemma notnan_dadd_inv (a b : dbl) : notnan (dadd a b) -> notnan a /\ notnan b.
Proof. unfold notnan. destruct a as [s|s| |s m e H], b as [s'|s'| |s' m' e' H']; simpl; auto; try discriminate. Qed.
Lemma notnan_dsub_inv (a b : dbl) : notnan (dsub a b) -> notnan a /\ notnan b.
Proof. unfold notnan. destruct a as [s|s| |s m e H], b as [s'|s'| |s' m' e' H']; simpl; auto; try discriminate. Qed.
Lemma notnan_dmul_inv (a b : dbl) : notnan (dmul a b) -> notnan a /\ notnan b.
Proof. unfold notnan. destruct a as [s|s| |s m e H], b as [s'|s'| |s' m' e' H']; simpl; auto; try discriminate. Qed.
Lemma notnan_ddiv_inv (a b : dbl) : notnan (ddiv a b) -> notnan a /\ notnan b.
Proof. unfold notnan. destruct a as [s|s| |s m e H], b as [s'|s'| |s' m' e' H']; simpl; auto; try discriminate. Qed.

Lemma dadd_inf_cases (a b : dbl) : notnan (dadd a b) ->
  (dfinite a /\ dfinite b) \/
  ((a = dinf \/ b = dinf) /\ dadd a b = dinf) \/
  ((a = dninf \/ b = dninf) /\ dadd a b = dninf).
Proof.
  unfold notnan, dfinite, dinf, dninf.
  destruct a as [s|[|]| |s m e H], b as [s'|[|]| |s' m' e' H']; simpl; auto; try discriminate; intros _;
  try (right; right; split; [auto|reflexivity]); try (right; left; split; [auto|reflexivity]).
Qed.

Lemma dsub_inf_cases (a b : dbl) : notnan (dsub a b) ->
  (dfinite a /\ dfinite b) \/
  ((a = dinf \/ b = dninf) /\ dsub a b = dinf) \/
  ((a = dninf \/ b = dinf) /\ dsub a b = dninf).
Proof.
  unfold notnan, dfinite, dinf, dninf.
  destruct a as [s|[|]| |s m e H], b as [s'|[|]| |s' m' e' H']; simpl; auto; try discriminate; intros _;
  try (right; right; split; [auto|reflexivity]); try (right; left; split; [auto|reflexivity]).
Qed.

Lemma Rx_dinf : Rx dinf = big. Proof. reflexivity. Qed.
Lemma Rx_dninf : Rx dninf = - big. Proof. reflexivity. Qed.
Lemma dle_dinf_inv (x : dbl) : dle dinf x -> x = dinf.
Proof.
  rewrite dle_iff, Rx_dinf. intros (_ & Hx & H). apply Rx_inf_pos; [assumption|].
  pose proof (Rx_bound x). lra.
Qed.
Lemma dle_dninf_inv (x : dbl) : dle x dninf -> x = dninf.
Proof.
  rewrite dle_iff, Rx_dninf. intros (Hx & _ & H). pose proof big_pos.
  destruct x as [s|[|]| |s m e Hm]; try discriminate Hx.
  - simpl in H. lra.
  - reflexivity.
  - simpl in H. lra.
  - assert (B := Rx_finite_bound (B754_finite s m e Hm) eq_refl). lra.
Qed.
Lemma dle_dinf (x : dbl) : notnan x -> dle x dinf.
Proof. intros. apply dle_iff. repeat split; try assumption. rewrite Rx_dinf. apply Rx_bound. Qed.
Lemma dle_dninf (x : dbl) : notnan x -> dle dninf x.
Proof. intros. apply dle_iff. repeat split; try assumption. rewrite Rx_dninf. apply Rx_bound. Qed.

Lemma dadd_mono (a b a' b' : dbl) :
  dle a a' -> dle b b' -> notnan (dadd a b) -> notnan (dadd a' b') ->
  dle (dadd a b) (dadd a' b').
Proof.
  intros Ha Hb N N'.
  destruct (dadd_inf_cases _ _ N) as [[F1 F2]|[[C E]|[C E]]].
  - destruct (dadd_inf_cases _ _ N') as [[F1' F2']|[[C' E']|[C' E']]].
    + apply dle_iff. repeat split; try assumption.
      rewrite (proj2 (dadd_Rx _ _ F1 F2)), (proj2 (dadd_Rx _ _ F1' F2')).
      apply clip_mono, RN_mono. apply dle_iff in Ha, Hb. lra.
    + rewrite E'. now apply dle_dinf.
    + exfalso. destruct C' as [-> | ->].
      * apply dle_dninf_inv in Ha. subst a. discriminate F1.
      * apply dle_dninf_inv in Hb. subst b. discriminate F2.
  - assert (dadd a' b' = dinf) as ->.
    { destruct (dadd_inf_cases _ _ N') as [[F1' F2']|[[C' E']|[C' E']]]; [|assumption|].
      - destruct C as [-> | ->].
        + apply dle_dinf_inv in Ha. subst a'. discriminate F1'.
        + apply dle_dinf_inv in Hb. subst b'. discriminate F2'.
      - exfalso. destruct C as [-> | ->].
        + apply dle_dinf_inv in Ha. subst a'. destruct C' as [C'|C']; [discriminate C'|]. subst b'. discriminate N'.
        + apply dle_dinf_inv in Hb. subst b'. destruct C' as [C'|C']; [|discriminate C']. subst a'. discriminate N'. }
    rewrite E. apply dle_refl. reflexivity.
  - rewrite E. now apply dle_dninf.
Qed.

Lemma dsub_mono (a b a' b' : dbl) :
  dle a a' -> dle b' b -> notnan (dsub a b) -> notnan (dsub a' b') ->
  dle (dsub a b) (dsub a' b').
Proof.
  intros Ha Hb N N'.
  destruct (dsub_inf_cases _ _ N) as [[F1 F2]|[[C E]|[C E]]].
  - destruct (dsub_inf_cases _ _ N') as [[F1' F2']|[[C' E']|[C' E']]].
    + apply dle_iff. repeat split; try assumption.
      rewrite (proj2 (dsub_Rx _ _ F1 F2)), (proj2 (dsub_Rx _ _ F1' F2')).
      apply clip_mono, RN_mono. apply dle_iff in Ha, Hb. lra.
    + rewrite E'. now apply dle_dinf.
    + exfalso. destruct C' as [-> | ->].
      * apply dle_dninf_inv in Ha. subst a. discriminate F1.
      * apply dle_dinf_inv in Hb. subst b. discriminate F2.
  - assert (dsub a' b' = dinf) as ->.
    { destruct (dsub_inf_cases _ _ N') as [[F1' F2']|[[C' E']|[C' E']]]; [|assumption|].
      - destruct C as [-> | ->].
        + apply dle_dinf_inv in Ha. subst a'. discriminate F1'.
        + apply dle_dninf_inv in Hb. subst b'. discriminate F2'.
      - exfalso. destruct C as [-> | ->].
        + apply dle_dinf_inv in Ha. subst a'. destruct C' as [C'|C']; [discriminate C'|]. subst b'. discriminate N'.
        + apply dle_dninf_inv in Hb. subst b'. destruct C' as [C'|C']; [|discriminate C']. subst a'. discriminate N'. }
    rewrite E. apply dle_refl. reflexivity.
  - rewrite E. now apply dle_dninf.
Qed.

Lemma Rx_d0 : Rx d0 = 0. Proof. reflexivity. Qed.

Lemma finite_or_inf (a : dbl) : notnan a -> dfinite a \/ a = dinf \/ a = dninf.
Proof. dcases a; intros H; try discriminate H; unfold dfinite, dinf, dninf; simpl; auto. Qed.

(** Sign of an infinite operand decides the product. *)
Lemma dmul_inf_l (b : dbl) : notnan (dmul dinf b) ->
  (0 < Rx b /\ dmul dinf b = dinf) \/ (Rx b < 0 /\ dmul dinf b = dninf).
Proof.
  pose proof big_pos. unfold notnan, dinf, dninf. destruct b as [s|[|]| |s m e Hm]; simpl; try discriminate; intros _.
  - right. split; [lra|reflexivity].
  - left. split; [lra|reflexivity].
  - destruct s; [right|left]; split; try reflexivity.
    + now apply F2R_lt_0.
    + now apply F2R_gt_0.
Qed.
Lemma dmul_ninf_l (b : dbl) : notnan (dmul dninf b) ->
  (0 < Rx b /\ dmul dninf b = dninf) \/ (Rx b < 0 /\ dmul dninf b = dinf).
Proof.
  pose proof big_pos. unfold notnan, dinf, dninf. destruct b as [s|[|]| |s m e Hm]; simpl; try discriminate; intros _.
  - right. split; [lra|reflexivity].
  - left. split; [lra|reflexivity].
  - destruct s; [right|left]; split; try reflexivity.
    + now apply F2R_lt_0.
    + now apply F2R_gt_0.
Qed.
Lemma dmul_comm_Rx (a b : dbl) : notnan (dmul a b) -> notnan (dmul b a) /\ Rx (dmul b a) = Rx (dmul a b).
Proof.
  intros N. destruct (notnan_dmul_inv _ _ N) as [Na Nb].
  destruct (is_finite a) eqn:Fa, (is_finite b) eqn:Fb.
  - destruct (dmul_Rx a b Fa Fb) as [_ E]. destruct (dmul_Rx b a Fb Fa) as [N2 E2].
    split; [assumption|]. rewrite E, E2. now rewrite Rmult_comm.
  - destruct a as [s|[|]| |[|] m e Hm], b as [s'|[|]| |[|] m' e' Hm']; try discriminate; simpl; auto; split; reflexivity.
  - destruct a as [s|[|]| |[|] m e Hm], b as [s'|[|]| |[|] m' e' Hm']; try discriminate; simpl; auto; split; reflexivity.
  - destruct a as [s|[|]| |[|] m e Hm], b as [s'|[|]| |[|] m' e' Hm']; try discriminate; simpl; auto; split; reflexivity.
Qed.

Lemma dmul_sign_nonneg (a b : dbl) : dle d0 a -> dle d0 b -> notnan (dmul a b) -> dle d0 (dmul a b).
Proof.
  rewrite !dle_iff, Rx_d0. intros (_ & Na & Ha) (_ & Nb & Hb) N. repeat split; try assumption; try reflexivity.
  pose proof big_pos.
  destruct (finite_or_inf a Na) as [Fa|[->| ->]].
  - destruct (finite_or_inf b Nb) as [Fb|[->| ->]].
    + rewrite (proj2 (dmul_Rx _ _ Fa Fb)). rewrite <- clip_RN_0. apply clip_mono, RN_mono. nra.
    + destruct (dmul_comm_Rx _ _ N) as [N2 E]. rewrite <- E.
      destruct (dmul_inf_l _ N2) as [[? ->]|[? ?]]; [rewrite Rx_dinf; lra|lra].
    + rewrite Rx_dninf in Hb. lra.
  - destruct (dmul_inf_l _ N) as [[? ->]|[? ?]]; [rewrite Rx_dinf; lra|lra].
  - rewrite Rx_dninf in Ha. lra.
Qed.

Lemma dmul_mono_l (c a a' : dbl) :
  dle d0 c -> dle a a' -> notnan (dmul c a) -> notnan (dmul c a') -> dle (dmul c a) (dmul c a').
Proof.
  intros Hc Ha N N'. pose proof big_pos as Hp.
  assert (Hc' := Hc). assert (Ha' := Ha). rewrite dle_iff in Hc', Ha'.
  rewrite Rx_d0 in Hc'. destruct Hc' as (_ & Nc & Hc0). destruct Ha' as (Na & Na' & Hle).
  apply dle_iff. repeat split; try assumption.
  destruct (finite_or_inf c Nc) as [Fc|[->| ->]].
  - destruct (finite_or_inf a Na) as [Fa|[->| ->]].
    + destruct (finite_or_inf a' Na') as [Fa'|[->| ->]].
      * rewrite (proj2 (dmul_Rx _ _ Fc Fa)), (proj2 (dmul_Rx _ _ Fc Fa')).
        apply clip_mono, RN_mono. nra.
      * destruct (dmul_comm_Rx _ _ N') as [N2 E]. rewrite <- E.
        destruct (dmul_inf_l _ N2) as [[? ->]|[? ?]]; [|lra].
        rewrite Rx_dinf. apply Rx_bound.
      * rewrite Rx_dninf in Hle. pose proof (Rx_finite_bound a Fa). lra.
    + apply dle_dinf_inv in Ha. subst a'. lra.
    + destruct (dmul_comm_Rx _ _ N) as [N2 E]. rewrite <- E.
      destruct (dmul_ninf_l _ N2) as [[? ->]|[? ?]]; [|lra].
      rewrite Rx_dninf. apply Rx_bound.
  - destruct (dmul_inf_l _ N) as [[? E]|[? E]], (dmul_inf_l _ N') as [[? E']|[? E']]; rewrite E, E'; rewrite ?Rx_dinf, ?Rx_dninf; lra.
  - rewrite Rx_dninf in Hc0. lra.
Qed.
Lemma dmul_mono_r (c a a' : dbl) :
  dle d0 c -> dle a a' -> notnan (dmul a c) -> notnan (dmul a' c) -> dle (dmul a c) (dmul a' c).
Proof.
  intros Hc Ha N N'. destruct (dmul_comm_Rx _ _ N) as [N1 E1], (dmul_comm_Rx _ _ N') as [N2 E2].
  assert (H := dmul_mono_l c a a' Hc Ha N1 N2). rewrite dle_iff in *. rewrite <- E1, <- E2.
  destruct H as (?&?&?). auto.
Qed.

(** Antitone in the presence of a non-positive factor. *)
Lemma dmul_anti_l (c a a' : dbl) :
  dle c d0 -> dle a a' -> notnan (dmul c a) -> notnan (dmul c a') -> dle (dmul c a') (dmul c a).
Proof.
  intros Hc Ha N N'. pose proof big_pos as Hp.
  assert (Hc' := Hc). assert (Ha' := Ha). rewrite dle_iff in Hc', Ha'.
  rewrite Rx_d0 in Hc'. destruct Hc' as (Nc & _ & Hc0). destruct Ha' as (Na & Na' & Hle).
  apply dle_iff. repeat split; try assumption.
  destruct (finite_or_inf c Nc) as [Fc|[->| ->]].
  - destruct (finite_or_inf a Na) as [Fa|[->| ->]].
    + destruct (finite_or_inf a' Na') as [Fa'|[->| ->]].
      * rewrite (proj2 (dmul_Rx _ _ Fc Fa)), (proj2 (dmul_Rx _ _ Fc Fa')).
        apply clip_mono, RN_mono. nra.
      * destruct (dmul_comm_Rx _ _ N') as [N2 E]. rewrite <- E.
        destruct (dmul_inf_l _ N2) as [[? ?]|[? ->]]; [lra|].
        rewrite Rx_dninf. apply Rx_bound.
      * rewrite Rx_dninf in Hle. pose proof (Rx_finite_bound a Fa). lra.
    + apply dle_dinf_inv in Ha. subst a'. lra.
    + destruct (dmul_comm_Rx _ _ N) as [N2 E]. rewrite <- E.
      destruct (dmul_ninf_l _ N2) as [[? ?]|[? ->]]; [lra|].
      rewrite Rx_dinf. apply Rx_bound.
  - rewrite Rx_dinf in Hc0. lra.
  - destruct (dmul_ninf_l _ N) as [[? E]|[? E]], (dmul_ninf_l _ N') as [[? E']|[? E']]; rewrite E, E'; rewrite ?Rx_dinf, ?Rx_dninf; lra.
Qed.
Lemma dmul_anti_r (c a a' : dbl) :
  dle c d0 -> dle a a' -> notnan (dmul a c) -> notnan (dmul a' c) -> dle (dmul a' c) (dmul a c).
Proof.
  intros Hc Ha N N'. destruct (dmul_comm_Rx _ _ N) as [N1 E1], (dmul_comm_Rx _ _ N') as [N2 E2].
  assert (H := dmul_anti_l c a a' Hc Ha N1 N2). rewrite dle_iff in *. rewrite <- E1, <- E2.
  destruct H as (?&?&?). auto.
Qed.

Lemma ddiv_inf_num (c : dbl) : notnan (ddiv dinf c) -> dlt d0 c -> ddiv dinf c = dinf.
Proof.
  rewrite dlt_iff, Rx_d0. unfold notnan, dinf. intros N (_ & _ & H). pose proof big_pos.
  destruct c as [s|[|]| |s m e Hm]; try discriminate; try (simpl in H; lra).
  assert (S := Bsign_pos_iff (B754_finite s m e Hm) eq_refl H). simpl in S. subst s. reflexivity.
Qed.
Lemma ddiv_ninf_num (c : dbl) : notnan (ddiv dninf c) -> dlt d0 c -> ddiv dninf c = dninf.
Proof.
  rewrite dlt_iff, Rx_d0. unfold notnan, dninf. intros N (_ & _ & H). pose proof big_pos.
  destruct c as [s|[|]| |s m e Hm]; try discriminate; try (simpl in H; lra).
  assert (S := Bsign_pos_iff (B754_finite s m e Hm) eq_refl H). simpl in S. subst s. reflexivity.
Qed.
Lemma ddiv_fin_inf (a : dbl) : dfinite a -> Rx (ddiv a dinf) = 0.
Proof. destruct a as [s|s| |s m e Hm]; simpl; try discriminate; reflexivity. Qed.

Lemma ddiv_mono (c a a' : dbl) :
  dlt d0 c -> dle a a' -> notnan (ddiv a c) -> notnan (ddiv a' c) -> dle (ddiv a c) (ddiv a' c).
Proof.
  intros Hc Ha N N'. pose proof big_pos as Hp.
  assert (Hc' := Hc). assert (Ha' := Ha). rewrite dlt_iff in Hc'. rewrite dle_iff in Ha'.
  rewrite Rx_d0 in Hc'. destruct Hc' as (_ & Nc & Hc0). destruct Ha' as (Na & Na' & Hle).
  apply dle_iff. repeat split; try assumption.
  destruct (finite_or_inf a Na) as [Fa|[->| ->]].
  - destruct (finite_or_inf a' Na') as [Fa'|[->| ->]].
    + destruct (finite_or_inf c Nc) as [Fc|[->| ->]].
      * rewrite (proj2 (ddiv_Rx a c Fa Fc ltac:(lra))), (proj2 (ddiv_Rx a' c Fa' Fc ltac:(lra))).
        apply clip_mono, RN_mono. unfold Rdiv. apply Rmult_le_compat_r; [|assumption].
        left. now apply Rinv_0_lt_compat.
      * rewrite !ddiv_fin_inf by assumption. lra.
      * rewrite Rx_dninf in Hc0. lra.
    + rewrite (ddiv_inf_num c N' Hc). rewrite Rx_dinf. apply Rx_bound.
    + rewrite Rx_dninf in Hle. pose proof (Rx_finite_bound a Fa). lra.
  - apply dle_dinf_inv in Ha. subst a'. lra.
  - rewrite (ddiv_ninf_num c N Hc). rewrite Rx_dninf. apply Rx_bound.
Qed.

(** Adding a non-positive (non-negative) term does not increase (decrease). *)
Lemma dadd_nonpos (a b : dbl) : dle b d0 -> notnan (dadd a b) -> dle (dadd a b) a.
Proof.
  intros Hb N. destruct (notnan_dadd_inv _ _ N) as [Na Nb].
  destruct (dadd_inf_cases _ _ N) as [[F1 F2]|[[C E]|[C E]]].
  - apply dle_iff. repeat split; try assumption. rewrite (proj2 (dadd_Rx _ _ F1 F2)).
    apply dle_iff in Hb. rewrite Rx_d0 in Hb.
    apply Rle_trans with (clip (RN (Rx a))).
    + apply clip_mono, RN_mono. lra.
    + rewrite (Rx_finite a F1). rewrite clip_RN_B2R. lra.
  - destruct C as [->| ->].
    + rewrite E. now apply dle_refl.
    + apply dle_dinf_inv in Hb. discriminate Hb.
  - rewrite E. now apply dle_dninf.
Qed.
Lemma dadd_nonneg (a b : dbl) : dle d0 b -> notnan (dadd a b) -> dle a (dadd a b).
Proof.
  intros Hb N. destruct (notnan_dadd_inv _ _ N) as [Na Nb].
  destruct (dadd_inf_cases _ _ N) as [[F1 F2]|[[C E]|[C E]]].
  - apply dle_iff. repeat split; try assumption. rewrite (proj2 (dadd_Rx _ _ F1 F2)).
    apply dle_iff in Hb. rewrite Rx_d0 in Hb.
    apply Rle_trans with (clip (RN (Rx a))).
    + rewrite (Rx_finite a F1). rewrite clip_RN_B2R. lra.
    + apply clip_mono, RN_mono. lra.
  - rewrite E. now apply dle_dinf.
  - destruct C as [->| ->].
    + rewrite E. now apply dle_refl.
    + apply dle_dninf_inv in Hb. discriminate Hb.
Qed.

Lemma dmul_nonpos_nonneg (a b : dbl) : dle a d0 -> dle d0 b -> notnan (dmul a b) -> dle (dmul a b) d0.
Proof.
  rewrite !dle_iff, !Rx_d0. intros (Na & _ & Ha) (_ & Nb & Hb) N. repeat split; try assumption; try reflexivity.
  pose proof big_pos.
  destruct (finite_or_inf a Na) as [Fa|[->| ->]].
  - destruct (finite_or_inf b Nb) as [Fb|[->| ->]].
    + rewrite (proj2 (dmul_Rx _ _ Fa Fb)). rewrite <- clip_RN_0. apply clip_mono, RN_mono. nra.
    + destruct (dmul_comm_Rx _ _ N) as [N2 E]. rewrite <- E.
      destruct (dmul_inf_l _ N2) as [[? ?]|[? ->]]; [lra|rewrite Rx_dninf; lra].
    + rewrite Rx_dninf in Hb. lra.
  - rewrite Rx_dinf in Ha. lra.
  - destruct (dmul_ninf_l _ N) as [[? ->]|[? ?]]; [rewrite Rx_dninf; lra|lra].
Qed.
