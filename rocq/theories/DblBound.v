(** * Magnitude bounds and exact integers. *)
From Coq Require Import ZArith Bool List Lia.
From Coq Require Import Floats.SpecFloat.
From Coq Require Import Reals Lra.
From Flocq Require Import Core.
From Flocq Require Import IEEE754.BinarySingleNaN.
From Verif Require Import Dbl DblFacts.
Import ListNotations.
Local Open Scope R_scope.

(** [bnd k x]: [x] is finite with magnitude at most [2^k]. *)
Definition bnd (k : Z) (x : dbl) : Prop :=
  dfinite x /\ Rabs (Rx x) <= bpow radix2 k.

Lemma bnd_finite k x : bnd k x -> dfinite x.
Proof. intros [H _]; exact H. Qed.
Lemma bnd_notnan k x : bnd k x -> notnan x.
Proof. intros [H _]. now apply finite_notnan. Qed.

Lemma bnd_weaken k k' x : (k <= k')%Z -> bnd k x -> bnd k' x.
Proof. intros H [F B]. split; [assumption|]. apply Rle_trans with (1 := B). now apply bpow_le. Qed.

Lemma RN_bpow (k : Z) : (-1074 <= k <= 1023)%Z -> RN (bpow radix2 k) = bpow radix2 k.
Proof.
  intros H. unfold RN. apply round_generic; [apply valid_rnd_N|].
  apply generic_format_bpow. unfold SpecFloat.fexp, SpecFloat.emin. lia.
Qed.
Lemma RN_opp (r : R) : RN (- r) = - RN r.
Proof. unfold RN. rewrite round_NE_opp. reflexivity. Qed.

Lemma RN_abs_le (r : R) (k : Z) : (-1074 <= k <= 1023)%Z ->
  Rabs r <= bpow radix2 k -> Rabs (RN r) <= bpow radix2 k.
Proof.
  intros Hk H. apply Rabs_le. apply Rabs_le_inv in H. rewrite <- (RN_bpow k Hk).
  rewrite <- RN_opp. split; apply RN_mono; lra.
Qed.

Lemma bnd_of_clip (x : dbl) (r : R) (k : Z) : (-1074 <= k <= 1023)%Z ->
  notnan x -> Rx x = clip (RN r) -> Rabs r <= bpow radix2 k -> bnd k x.
Proof.
  intros Hk N E H. assert (L := RN_abs_le r k Hk H).
  assert (B : bpow radix2 k < big) by (unfold big; apply bpow_lt; lia).
  rewrite clip_id in E by lra.
  assert (Rabs (Rx x) <= bpow radix2 k) by (rewrite E; exact L).
  split; [|assumption]. apply finite_iff_Rx; [assumption|].
  apply Rabs_le_inv in H0. lra.
Qed.

Lemma bpow_S (k : Z) : bpow radix2 (k + 1) = 2 * bpow radix2 k.
Proof. rewrite bpow_plus. simpl. lra. Qed.

Lemma bnd_add k a b : (-1073 <= k < 1023)%Z -> bnd k a -> bnd k b -> bnd (k + 1) (dadd a b).
Proof.
  intros Hk [Fa Ba] [Fb Bb]. destruct (dadd_Rx a b Fa Fb) as [N E].
  apply (bnd_of_clip _ (Rx a + Rx b)); try assumption; [lia|].
  rewrite bpow_S. apply Rle_trans with (1 := Rabs_triang _ _). lra.
Qed.
Lemma bnd_sub k a b : (-1073 <= k < 1023)%Z -> bnd k a -> bnd k b -> bnd (k + 1) (dsub a b).
Proof.
  intros Hk [Fa Ba] [Fb Bb]. destruct (dsub_Rx a b Fa Fb) as [N E].
  apply (bnd_of_clip _ (Rx a - Rx b)); try assumption; [lia|].
  rewrite bpow_S. unfold Rminus. apply Rle_trans with (1 := Rabs_triang _ _).
  rewrite Rabs_Ropp. lra.
Qed.
Lemma bnd_mul k j a b : (-1074 <= k + j <= 1023)%Z -> bnd k a -> bnd j b -> bnd (k + j) (dmul a b).
Proof.
  intros Hk [Fa Ba] [Fb Bb]. destruct (dmul_Rx a b Fa Fb) as [N E].
  apply (bnd_of_clip _ (Rx a * Rx b)); try assumption.
  rewrite Rabs_mult, bpow_plus. apply Rmult_le_compat; try assumption; apply Rabs_pos.
Qed.
Lemma bnd_div k j a b : (-1074 <= k + j <= 1023)%Z -> bnd k a -> dfinite b ->
  bpow radix2 (- j) <= Rx b -> bnd (k + j) (ddiv a b).
Proof.
  intros Hk [Fa Ba] Fb Hb. assert (P := bpow_gt_0 radix2 (- j)).
  destruct (ddiv_Rx a b Fa Fb ltac:(lra)) as [N E].
  apply (bnd_of_clip _ (Rx a / Rx b)); try assumption.
  unfold Rdiv. rewrite Rabs_mult, bpow_plus.
  apply Rmult_le_compat; try assumption; try apply Rabs_pos.
  rewrite Rabs_pos_eq by (left; apply Rinv_0_lt_compat; lra).
  replace (bpow radix2 j) with (/ bpow radix2 (- j)).
  - apply Rinv_le; assumption.
  - rewrite bpow_opp. now rewrite Rinv_inv.
Qed.

Lemma bnd_between k lo hi x : bnd k lo -> bnd k hi -> dle lo x -> dle x hi -> bnd k x.
Proof.
  intros [Fl Bl] [Fh Bh] H1 H2. apply dle_iff in H1, H2.
  destruct H1 as (_ & N & H1), H2 as (_ & _ & H2).
  apply Rabs_le_inv in Bl, Bh.
  split.
  - apply finite_iff_Rx; [assumption|].
    apply Rx_finite_bound in Fl, Fh. lra.
  - apply Rabs_le. lra.
Qed.

Lemma bnd_d0 k : bnd k d0.
Proof. split; [reflexivity|]. rewrite Rx_d0, Rabs_R0. apply bpow_ge_0. Qed.

(** Integers up to 2^53 are exact. *)
Lemma D_exact (z : Z) : (Z.abs z <= 2 ^ 53)%Z -> dfinite (D z) /\ Rx (D z) = IZR z.
Proof.
  intros H. assert (C := binary_normalize_correct 53 1024 prec_pos prec_emax mode_NE z 0 false).
  fold (D z) in C. cbv zeta in C. simpl round_mode in C.
  assert (EF : F2R (Float radix2 z 0) = IZR z) by (unfold F2R; simpl; lra).
  rewrite EF in C. fold (RN (IZR z)) in C.
  assert (G : RN (IZR z) = IZR z).
  { unfold RN. apply round_generic; [apply valid_rnd_N|].
    rewrite <- EF. destruct (Z.eq_dec (Z.abs z) (2 ^ 53)) as [E|E].
    - destruct (Z.abs_eq_or_opp z) as [A|A].
      + replace z with (2 ^ 53)%Z by lia. rewrite <- EF in *.
        replace (F2R (Float radix2 (2 ^ 53) 0)) with (bpow radix2 53) by (unfold F2R; simpl; lra).
        apply generic_format_bpow. unfold SpecFloat.fexp, SpecFloat.emin. lia.
      + replace z with (- 2 ^ 53)%Z by lia.
        replace (F2R (Float radix2 (- 2 ^ 53) 0)) with (- bpow radix2 53) by (unfold F2R; simpl; lra).
        apply generic_format_opp, generic_format_bpow. unfold SpecFloat.fexp, SpecFloat.emin. lia.
    - apply generic_format_F2R. intros Hz. rewrite EF.
      unfold cexp, SpecFloat.fexp, SpecFloat.emin.
      assert (M : (mag radix2 (IZR z) <= 53)%Z).
      { apply mag_le_bpow; [now apply IZR_neq|].
        rewrite <- abs_IZR.
        replace (bpow radix2 53) with (IZR (2 ^ 53)) by (simpl; lra).
        apply IZR_lt. lia. }
      lia. }
  rewrite G in C.
  assert (B : Rabs (IZR z) < bpow radix2 1024).
  { rewrite <- abs_IZR. apply Rle_lt_trans with (bpow radix2 53).
    - replace (bpow radix2 53) with (IZR (2 ^ 53)) by (simpl; lra). now apply IZR_le.
    - apply bpow_lt. lia. }
  rewrite (Rlt_bool_true _ _ B) in C. destruct C as (C1 & C2 & _).
  split; [exact C2|]. rewrite Rx_finite by exact C2. exact C1.
Qed.

Lemma D_notnan z : (Z.abs z <= 2 ^ 53)%Z -> notnan (D z).
Proof. intros H. apply finite_notnan. now apply D_exact. Qed.

Lemma Rx_D2_pow (k : Z) : (-1074 <= k <= 1023)%Z -> dfinite (D2 1 k) /\ Rx (D2 1 k) = bpow radix2 k.
Proof.
  intros H. assert (C := binary_normalize_correct 53 1024 prec_pos prec_emax mode_NE 1 k false).
  fold (D2 1 k) in C. cbv zeta in C. simpl round_mode in C.
  assert (EF : F2R (Float radix2 1 k) = bpow radix2 k) by (unfold F2R; simpl; lra).
  rewrite EF in C. fold (RN (bpow radix2 k)) in C. rewrite (RN_bpow k H) in C.
  rewrite Rlt_bool_true in C.
  - destruct C as (C1 & C2 & _). split; [exact C2|]. rewrite Rx_finite by exact C2. exact C1.
  - rewrite Rabs_pos_eq by apply bpow_ge_0. apply bpow_lt. lia.
Qed.

(** Truncation. *)
Lemma Btrunc_Rx (x : dbl) : dfinite x -> Btrunc x = Ztrunc (Rx x).
Proof.
  intros F. rewrite (Rx_finite x F). apply eq_IZR. rewrite Btrunc_correct; [|reflexivity].
  unfold round, scaled_mantissa, F2R, cexp, FIX_exp. simpl. rewrite !Rmult_1_r. reflexivity.
Qed.
Lemma dtrunc_spec lo hi x : dfinite x -> (lo <= Ztrunc (Rx x) <= hi)%Z ->
  dtrunc lo hi x = Some (Ztrunc (Rx x)).
Proof.
  intros F H. unfold dtrunc. rewrite F, (Btrunc_Rx x F).
  destruct (Z.leb_spec lo (Ztrunc (Rx x))); [|lia].
  destruct (Z.leb_spec (Ztrunc (Rx x)) hi); [|lia]. reflexivity.
Qed.
