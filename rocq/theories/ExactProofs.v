(** * Rounding errors of the PID loop: proofs for C84. *)
From Coq Require Import ZArith Bool List Lia.
From Coq Require Import Floats.SpecFloat.
From Coq Require Import Reals Lra.
From Flocq Require Import Core.
From Flocq Require Import IEEE754.BinarySingleNaN.
From Verif Require Import Base BaseFacts Dbl DblFacts DblOrder DblBound PidModel SpecPid PidProofs.
From Verif Require Import SpecExact.
Import ListNotations.
Local Open Scope R_scope.

(** ** One rounding *)
Lemma RN_err (r : R) (k : Z) : (0 <= k <= 1023)%Z -> Rabs r <= bpow radix2 k ->
  Rabs (RN r - r) <= bpow radix2 (k - 54).
Proof.
  intros Hk H. destruct (Rle_lt_or_eq_dec _ _ H) as [L|E].
  - destruct (Req_dec r 0) as [Z|NZ].
    { rewrite Z, RN_0, Rminus_0_r, Rabs_R0. apply bpow_ge_0. }
    apply Rle_trans with (/ 2 * ulp radix2 (SpecFloat.fexp 53 1024) r).
    + unfold RN. apply error_le_half_ulp. apply fexp_valid.
    + rewrite ulp_neq_0 by assumption. unfold cexp.
      assert (M : (mag radix2 r <= k)%Z) by (now apply mag_le_bpow).
      replace (k - 54)%Z with (-1 + (k - 53))%Z by lia. rewrite bpow_plus.
      change (bpow radix2 (-1)) with (/ 2). apply Rmult_le_compat_l; [lra|].
      apply bpow_le. unfold SpecFloat.fexp, SpecFloat.emin. lia.
  - assert (G : RN r = r).
    { destruct (Rcase_abs r) as [N|P].
      - rewrite Rabs_left in E by assumption. replace r with (- bpow radix2 k) by lra.
        rewrite RN_opp, RN_bpow by lia. reflexivity.
      - rewrite Rabs_right in E by assumption. rewrite E. apply RN_bpow. lia. }
    rewrite G. replace (r - r) with 0 by lra. rewrite Rabs_R0. apply bpow_ge_0.
Qed.

(** [x] is a finite double of size at most [2^k], within [e] of [r]. *)
Definition near (k : Z) (x : dbl) (r e : R) : Prop :=
  bnd k x /\ Rabs (Rx x - r) <= e.

Lemma near_of_clip k x s r e : (0 <= k <= 1023)%Z ->
  notnan x -> Rx x = clip (RN s) -> Rabs s <= bpow radix2 k -> Rabs (s - r) <= e ->
  near k x r (e + bpow radix2 (k - 54)).
Proof.
  intros Hk N E B H. assert (Hb : bnd k x) by (apply (bnd_of_clip x s k); [lia|assumption..]).
  split; [assumption|].
  assert (L := RN_abs_le s k ltac:(lia) B).
  assert (B' : bpow radix2 k < big) by (unfold big; apply bpow_lt; lia).
  rewrite clip_id in E by lra. rewrite E.
  replace (RN s - r) with ((s - r) + (RN s - s)) by lra.
  apply Rle_trans with (1 := Rabs_triang _ _). assert (R := RN_err s k Hk B). lra.
Qed.

Lemma near_weak k j x r e f : (k <= j)%Z -> e <= f -> near k x r e -> near j x r f.
Proof. intros H1 H2 [H3 H4]. split; [now apply (bnd_weaken k)|lra]. Qed.
Lemma near_exact k x : bnd k x -> near k x (B2R x) 0.
Proof. intros [F B]. split; [split; assumption|]. rewrite (Rx_finite _ F), Rminus_eq_0, Rabs_R0. lra. Qed.
Lemma near_B2R k x r e : near k x r e -> Rabs (B2R x - r) <= e.
Proof. intros [[F B] H]. now rewrite <- (Rx_finite _ F). Qed.

Lemma near_add k x y r s e f : (0 <= k < 1023)%Z -> near k x r e -> near k y s f ->
  near (k + 1) (dadd x y) (r + s) (e + f + bpow radix2 (k + 1 - 54)).
Proof.
  intros Hk [[Fx Bx] Hx] [[Fy By] Hy]. destruct (dadd_Rx x y Fx Fy) as [N E].
  apply (near_of_clip (k + 1) _ (Rx x + Rx y)); [lia|assumption|assumption| |].
  - rewrite bpow_S. apply Rle_trans with (1 := Rabs_triang _ _). lra.
  - replace (Rx x + Rx y - (r + s)) with ((Rx x - r) + (Rx y - s)) by lra.
    apply Rle_trans with (1 := Rabs_triang _ _). lra.
Qed.
Lemma near_sub k x y r s e f : (0 <= k < 1023)%Z -> near k x r e -> near k y s f ->
  near (k + 1) (dsub x y) (r - s) (e + f + bpow radix2 (k + 1 - 54)).
Proof.
  intros Hk [[Fx Bx] Hx] [[Fy By] Hy]. destruct (dsub_Rx x y Fx Fy) as [N E].
  apply (near_of_clip (k + 1) _ (Rx x - Rx y)); [lia|assumption|assumption| |].
  - rewrite bpow_S. unfold Rminus. apply Rle_trans with (1 := Rabs_triang _ _).
    rewrite Rabs_Ropp. lra.
  - replace (Rx x - Rx y - (r - s)) with ((Rx x - r) + - (Rx y - s)) by lra.
    apply Rle_trans with (1 := Rabs_triang _ _). rewrite Rabs_Ropp. lra.
Qed.
(** One factor is exact. *)
Lemma near_mul k j x y r e : (0 <= k + j <= 1023)%Z -> near k x r e -> bnd j y ->
  near (k + j) (dmul x y) (r * B2R y) (e * bpow radix2 j + bpow radix2 (k + j - 54)).
Proof.
  intros Hk [[Fx Bx] Hx] [Fy By]. destruct (dmul_Rx x y Fx Fy) as [N E].
  apply (near_of_clip (k + j) _ (Rx x * Rx y)); [lia|assumption|assumption| |].
  - rewrite Rabs_mult, bpow_plus. apply Rmult_le_compat; try assumption; apply Rabs_pos.
  - rewrite <- (Rx_finite _ Fy).
    replace (Rx x * Rx y - r * Rx y) with ((Rx x - r) * Rx y) by lra.
    rewrite Rabs_mult. apply Rmult_le_compat; try assumption; apply Rabs_pos.
Qed.
Lemma dmul_Rx_comm x y : dfinite x -> dfinite y ->
  notnan (dmul y x) /\ Rx (dmul y x) = clip (RN (Rx x * Rx y)).
Proof. intros Fx Fy. rewrite Rmult_comm. now apply dmul_Rx. Qed.
Lemma near_mul_l k j x y r e : (0 <= k + j <= 1023)%Z -> near k x r e -> bnd j y ->
  near (k + j) (dmul y x) (B2R y * r) (e * bpow radix2 j + bpow radix2 (k + j - 54)).
Proof.
  intros Hk [[Fx Bx] Hx] [Fy By]. destruct (dmul_Rx_comm x y Fx Fy) as [N E].
  apply (near_of_clip (k + j) _ (Rx x * Rx y)); [lia|assumption|assumption| |].
  - rewrite Rabs_mult, bpow_plus. apply Rmult_le_compat; try assumption; apply Rabs_pos.
  - rewrite <- (Rx_finite _ Fy).
    replace (Rx x * Rx y - Rx y * r) with ((Rx x - r) * Rx y) by lra.
    rewrite Rabs_mult. apply Rmult_le_compat; try assumption; apply Rabs_pos.
Qed.
Lemma inv_bound j y : bpow radix2 (- j) <= y -> 0 < / y <= bpow radix2 j.
Proof.
  intros H. assert (P := bpow_gt_0 radix2 (- j)). split; [apply Rinv_0_lt_compat; lra|].
  replace (bpow radix2 j) with (/ bpow radix2 (- j)) by (rewrite bpow_opp; now rewrite Rinv_inv).
  now apply Rinv_le.
Qed.
Lemma near_div k j x y r e : (0 <= k + j <= 1023)%Z -> near k x r e -> dfinite y ->
  bpow radix2 (- j) <= Rx y ->
  near (k + j) (ddiv x y) (r / B2R y) (e * bpow radix2 j + bpow radix2 (k + j - 54)).
Proof.
  intros Hk [[Fx Bx] Hx] Fy Hy. assert (P := bpow_gt_0 radix2 (- j)).
  destruct (ddiv_Rx x y Fx Fy ltac:(lra)) as [N E]. destruct (inv_bound j _ Hy) as [I1 I2].
  apply (near_of_clip (k + j) _ (Rx x / Rx y)); [lia|assumption|assumption| |].
  - unfold Rdiv. rewrite Rabs_mult, bpow_plus, (Rabs_pos_eq (/ Rx y)) by lra.
    apply Rmult_le_compat; try assumption; try apply Rabs_pos. lra.
  - rewrite <- (Rx_finite _ Fy). unfold Rdiv.
    replace (Rx x * / Rx y - r * / Rx y) with ((Rx x - r) * / Rx y) by lra.
    rewrite Rabs_mult, (Rabs_pos_eq (/ Rx y)) by lra.
    apply Rmult_le_compat; try assumption; try apply Rabs_pos. lra.
Qed.

(** ** Limits and rates *)
Lemma Rmax_lip a b c d e : Rabs (a - b) <= e -> Rabs (c - d) <= e ->
  Rabs (Rmax a c - Rmax b d) <= e.
Proof.
  intros H1 H2. apply Rabs_le_inv in H1, H2. apply Rabs_le.
  unfold Rmax. destruct (Rle_dec a c), (Rle_dec b d); lra.
Qed.
Lemma Rmin_lip a b c d e : Rabs (a - b) <= e -> Rabs (c - d) <= e ->
  Rabs (Rmin a c - Rmin b d) <= e.
Proof.
  intros H1 H2. apply Rabs_le_inv in H1, H2. apply Rabs_le.
  unfold Rmin. destruct (Rle_dec a c), (Rle_dec b d); lra.
Qed.
Lemma abs0 x e : 0 <= e -> Rabs (x - x) <= e.
Proof. intros H. now rewrite Rminus_eq_0, Rabs_R0. Qed.
Lemma near_pos k x r e : near k x r e -> 0 <= e.
Proof. intros [_ H]. apply Rle_trans with (2 := H). apply Rabs_pos. Qed.

Lemma limit_Rx k l x : bnd k x -> limits_ordered l -> dfinite (lim_min l) -> dfinite (lim_max l) ->
  Rx (limit l x) = within l (Rx x).
Proof.
  intros [F _] O F1 F2. apply dle_iff in O. destruct O as (_ & _ & O).
  assert (N := finite_notnan _ F). assert (N1 := finite_notnan _ F1). assert (N2 := finite_notnan _ F2).
  unfold within, limit. rewrite <- (Rx_finite _ F1), <- (Rx_finite _ F2).
  destruct (dltb x (lim_min l)) eqn:E1.
  - apply dltb_Rx in E1; [|assumption..]. unfold Rmax, Rmin.
    destruct (Rle_dec (Rx (lim_max l)) (Rx x)); destruct (Rle_dec _ _); lra.
  - apply dltb_Rx_false in E1; [|assumption..].
    destruct (dltb (lim_max l) x) eqn:E2.
    + apply dltb_Rx in E2; [|assumption..]. unfold Rmax, Rmin.
      destruct (Rle_dec (Rx (lim_max l)) (Rx x)); destruct (Rle_dec _ _); lra.
    + apply dltb_Rx_false in E2; [|assumption..]. unfold Rmax, Rmin.
      destruct (Rle_dec (Rx (lim_max l)) (Rx x)); destruct (Rle_dec _ _); lra.
Qed.
Lemma near_limit k j l x r e : limits_ordered l -> bnd j (lim_min l) -> bnd j (lim_max l) ->
  near k x r e -> near j (limit l x) (within l r) e.
Proof.
  intros O B1 B2 H. assert (P := near_pos _ _ _ _ H). destruct H as [B H]. split.
  - apply clamp_bnd; try assumption. now apply bnd_notnan in B.
  - rewrite (limit_Rx k l x B O (bnd_finite _ _ B1) (bnd_finite _ _ B2)). unfold within.
    apply Rmax_lip; [now apply abs0|]. apply Rmin_lip; [now apply abs0|assumption].
Qed.
Lemma near_max k x y r s e : near k x r e -> near k y s e -> near k (dmax x y) (Rmax r s) e.
Proof.
  intros [B1 H1] [B2 H2]. assert (N1 := bnd_notnan _ _ B1). assert (N2 := bnd_notnan _ _ B2).
  unfold dmax. destruct (dltb x y) eqn:E.
  - apply dltb_Rx in E; [|assumption..]. split; [assumption|].
    replace (Rx y) with (Rmax (Rx x) (Rx y)) by (apply Rmax_right; lra). now apply Rmax_lip.
  - apply dltb_Rx_false in E; [|assumption..]. split; [assumption|].
    replace (Rx x) with (Rmax (Rx x) (Rx y)) by (apply Rmax_left; lra). now apply Rmax_lip.
Qed.
Lemma near_min k x y r s e : near k x r e -> near k y s e -> near k (dmin x y) (Rmin r s) e.
Proof.
  intros [B1 H1] [B2 H2]. assert (N1 := bnd_notnan _ _ B1). assert (N2 := bnd_notnan _ _ B2).
  unfold dmin. destruct (dltb y x) eqn:E.
  - apply dltb_Rx in E; [|assumption..]. split; [assumption|].
    replace (Rx y) with (Rmin (Rx x) (Rx y)) by (apply Rmin_right; lra). now apply Rmin_lip.
  - apply dltb_Rx_false in E; [|assumption..]. split; [assumption|].
    replace (Rx x) with (Rmin (Rx x) (Rx y)) by (apply Rmin_left; lra). now apply Rmin_lip.
Qed.

(** ** One evaluation *)
Record scaled (a k t : Z) (c : pidinfo) : Prop := {
  s_ok : scales_ok a k t;
  s_ts : bnd t (ts c); s_ts_low : bpow radix2 (- t) <= Rx (ts c);
  s_p : bnd k (proportionalCoeff c); s_i : bnd k (integralCoeff c);
  s_d : bnd k (derivativeCoeff c); s_fg : bnd k (feedFwdGain c);
  s_fo : bnd a (feedFwdOffset c);
  s_imin : bnd a (lim_min (integralLimit c)); s_imax : bnd a (lim_max (integralLimit c));
  s_omin : bnd a (lim_min (outLim c)); s_omax : bnd a (lim_max (outLim c));
  s_sn : bnd a (slewNeg c); s_sp : bnd a (slewPos c) }.

Lemma scaled_cfg_scaled a k t c : scales_ok a k t -> scaled_cfg a k t c -> scaled a k t c.
Proof.
  intros Hs (HA & HK & HT & HL). pose proof Hs as (Ha & Hk & Ht & Hg).
  repeat match goal with H : Forall _ (_ :: _) |- _ => inversion H; clear H; subst end.
  assert (Ka : forall x, mag_le a x -> bnd a x) by (intros; apply mag_le_bnd; [lia|assumption]).
  assert (Kk : forall x, mag_le k x -> bnd k x) by (intros; apply mag_le_bnd; [lia|assumption]).
  constructor; auto.
  - apply mag_le_bnd; [lia|assumption].
  - apply dle_iff in HL. destruct (Rx_D2_pow (- t) ltac:(lia)) as [_ E]. rewrite E in HL. tauto.
Qed.

(** The unit in which errors are counted: [2^(a+k+t-54)]. *)
Definition unit_of (a k t : Z) : R := bpow radix2 (a + k + t - 54).

Lemma unit_pos a k t : 0 < unit_of a k t.
Proof. apply bpow_gt_0. Qed.
Lemma pw2 z : bpow radix2 (z + 1) = 2 * bpow radix2 z. Proof. apply bpow_S. Qed.
Lemma pw4 z : bpow radix2 (z + 2) = 4 * bpow radix2 z.
Proof. rewrite bpow_plus. change (bpow radix2 2) with 4. lra. Qed.
Lemma pw8 z : bpow radix2 (z + 3) = 8 * bpow radix2 z.
Proof. rewrite bpow_plus. change (bpow radix2 3) with 8. lra. Qed.
Lemma pw16 z : bpow radix2 (z + 4) = 16 * bpow radix2 z.
Proof. rewrite bpow_plus. change (bpow radix2 4) with 16. lra. Qed.

Lemma near_cast k j x r e f s : k = j -> e = f -> r = s -> near k x r e -> near j x s f.
Proof. now intros -> -> ->. Qed.

Section Step.
Context (a k t : Z) (c : pidinfo) (S : scaled a k t c)
        (LI : limits_ordered (integralLimit c)) (LO : limits_ordered (outLim c)).
Let u := unit_of a k t.

Lemma u_ge z : (z <= a + k + t - 54)%Z -> bpow radix2 z <= u.
Proof. intros H. unfold u, unit_of. now apply bpow_le. Qed.

Lemma near_error x : bnd a (fst x) -> bnd a (snd x) ->
  near (a + 1) (dsub (snd x) (fst x)) (exact_error x) (2 * bpow radix2 (a - 54)).
Proof.
  intros H1 H2. destruct (s_ok _ _ _ _ S) as (Ha & Hk & Ht & Hg).
  eapply near_cast; [| | |apply (near_sub a); [lia|apply near_exact; exact H2|apply near_exact; exact H1]];
    [reflexivity| |reflexivity].
  replace (a + 1 - 54)%Z with (a - 54 + 1)%Z by lia. rewrite pw2. lra.
Qed.

Lemma near_P x : bnd a (fst x) -> bnd a (snd x) ->
  near (a + 1 + k) (spec_P c x) (exact_P c x) (4 * bpow radix2 (a + k - 54)).
Proof.
  intros H1 H2. destruct (s_ok _ _ _ _ S) as (Ha & Hk & Ht & Hg).
  eapply near_cast; [| | |apply (near_mul_l (a + 1) k); [lia|apply near_error; assumption|apply S]];
    [reflexivity| |reflexivity].
  replace (a + 1 + k - 54)%Z with (a + k - 54 + 1)%Z by lia. rewrite pw2.
  replace (a + k - 54)%Z with (a - 54 + k)%Z by lia. rewrite bpow_plus. lra.
Qed.

Lemma near_I mi ri e x : bnd a (fst x) -> bnd a (snd x) -> near a mi ri e ->
  near a (spec_I c mi x) (exact_I c ri x) (e + 10 * u).
Proof.
  intros H1 H2 Hm. destruct (s_ok _ _ _ _ S) as (Ha & Hk & Ht & Hg).
  assert (U := unit_pos a k t). fold u in U. assert (E := near_pos _ _ _ _ Hm).
  unfold spec_I, exact_I. destruct (deqb (integralCoeff c) d0).
  - split; [apply bnd_d0|]. rewrite Rx_d0, Rminus_eq_0, Rabs_R0. lra.
  - apply (near_limit (a + k + t + 2)); [assumption|apply S|apply S|].
    replace (a + k + t + 2)%Z with (a + k + t + 1 + 1)%Z by lia.
    assert (HI : near (a + k + t + 1)
       (dmul (dmul (dsub (snd x) (fst x)) (integralCoeff c)) (ts c))
       (exact_error x * B2R (integralCoeff c) * B2R (ts c)) (6 * u)).
    { eapply near_cast; [| | |apply (near_mul (a + 1 + k) t); [lia| |apply S];
        apply (near_mul (a + 1) k); [lia|apply near_error; assumption|apply S]];
        [lia| |reflexivity].
      replace (a + 1 + k + t - 54)%Z with (a + k + t - 54 + 1)%Z by lia.
      replace (a + 1 + k - 54)%Z with (a - 54 + k + 1)%Z by lia. rewrite !pw2.
      unfold u, unit_of. replace (a + k + t - 54)%Z with (a - 54 + k + t)%Z by lia.
      rewrite !bpow_plus. lra. }
    eapply near_weak; [apply Z.le_refl| |apply near_add; [lia| |exact HI];
      eapply near_weak; [|apply Rle_refl|exact Hm]; lia].
    replace (a + k + t + 1 + 1 - 54)%Z with (a + k + t - 54 + 2)%Z by lia. rewrite pw4.
    fold (unit_of a k t). fold u. lra.
Qed.

Lemma near_D me re x : bnd a (fst x) -> bnd a (snd x) ->
  near (a + 1) me re (2 * bpow radix2 (a - 54)) ->
  near (a + k + t + 2) (spec_D c me x) (exact_D c re x) (16 * u).
Proof.
  intros H1 H2 Hm. destruct (s_ok _ _ _ _ S) as (Ha & Hk & Ht & Hg).
  unfold spec_D, exact_D.
  eapply near_cast; [| | |apply (near_mul_l (a + 2 + t) k); [lia| |apply S];
    apply (near_div (a + 2) t); [lia| |apply (bnd_finite t); apply S|apply S];
    eapply near_cast; [| | |apply (near_sub (a + 1)); [lia|apply near_error; assumption|exact Hm]];
    [|reflexivity|reflexivity]; lia]; [lia| |reflexivity].
  replace (a + 1 + 1 - 54)%Z with (a - 54 + 2)%Z by lia.
  replace (a + 2 + t - 54)%Z with (a - 54 + t + 2)%Z by lia.
  replace (a + 2 + t + k - 54)%Z with (a - 54 + k + t + 2)%Z by lia.
  rewrite !pw4. unfold u, unit_of. replace (a + k + t - 54)%Z with (a - 54 + k + t)%Z by lia.
  rewrite !bpow_plus. lra.
Qed.

Lemma near_FF x : bnd a (snd x) ->
  near (a + 1 + k) (spec_FF c x) (exact_FF c x) (4 * bpow radix2 (a + k - 54)).
Proof.
  intros H2. destruct (s_ok _ _ _ _ S) as (Ha & Hk & Ht & Hg).
  unfold spec_FF, exact_FF.
  eapply near_cast; [| | |apply (near_mul (a + 1) k); [lia| |apply S];
    apply (near_add a); [lia|apply near_exact; exact H2|apply near_exact; apply S]];
    [reflexivity| |reflexivity].
  replace (a + 1 - 54)%Z with (a - 54 + 1)%Z by lia.
  replace (a + 1 + k - 54)%Z with (a - 54 + k + 1)%Z by lia. rewrite !pw2.
  replace (a + k - 54)%Z with (a - 54 + k)%Z by lia. rewrite !bpow_plus. lra.
Qed.

Lemma near_unslewed_gen mi ri e me re x : bnd a (fst x) -> bnd a (snd x) ->
  near a (spec_I c mi x) (exact_I c ri x) e ->
  near (a + 1) me re (2 * bpow radix2 (a - 54)) ->
  near a (spec_unslewed c mi me x) (exact_unslewed c ri re x) (e + 52 * u).
Proof.
  intros H1 H2 HI Hm. destruct (s_ok _ _ _ _ S) as (Ha & Hk & Ht & Hg).
  assert (U1 : bpow radix2 (a + k - 54) <= u) by (apply u_ge; lia).
  assert (HP := near_P x H1 H2).
  assert (HD := near_D me re x H1 H2 Hm). assert (HF := near_FF x H2).
  unfold spec_unslewed, exact_unslewed.
  apply (near_limit (a + k + t + 4)); [assumption|apply S|apply S|].
  assert (S1 : near (a + k + t + 2) (dadd (spec_P c x) (spec_I c mi x))
                 (exact_P c x + exact_I c ri x) (e + 8 * u)).
  { replace (a + k + t + 2)%Z with (a + k + t + 1 + 1)%Z by lia.
    eapply near_weak; [apply Z.le_refl| |apply near_add;
      [lia|eapply near_weak; [|apply Rle_refl|exact HP]; lia
          |eapply near_weak; [|apply Rle_refl|exact HI]; lia]].
    replace (a + k + t + 1 + 1 - 54)%Z with (a + k + t - 54 + 2)%Z by lia. rewrite pw4.
    fold (unit_of a k t). fold u. lra. }
  assert (S2 : near (a + k + t + 3) (dadd (dadd (spec_P c x) (spec_I c mi x)) (spec_D c me x))
                 (exact_P c x + exact_I c ri x + exact_D c re x) (e + 32 * u)).
  { replace (a + k + t + 3)%Z with (a + k + t + 2 + 1)%Z by lia.
    eapply near_weak; [apply Z.le_refl| |apply near_add; [lia|exact S1|exact HD]].
    replace (a + k + t + 2 + 1 - 54)%Z with (a + k + t - 54 + 3)%Z by lia. rewrite pw8.
    fold (unit_of a k t). fold u. lra. }
  replace (a + k + t + 4)%Z with (a + k + t + 3 + 1)%Z by lia.
  eapply near_weak; [apply Z.le_refl| |apply near_add; [lia|exact S2|]].
  2: { eapply near_weak; [|apply Rle_refl|exact HF]; lia. }
  replace (a + k + t + 3 + 1 - 54)%Z with (a + k + t - 54 + 4)%Z by lia. rewrite pw16.
  fold (unit_of a k t). fold u. lra.
Qed.

Lemma near_unslewed mi ri e me re x : bnd a (fst x) -> bnd a (snd x) ->
  near a mi ri e -> near (a + 1) me re (2 * bpow radix2 (a - 54)) ->
  near a (spec_unslewed c mi me x) (exact_unslewed c ri re x) (e + 62 * u).
Proof.
  intros H1 H2 HI Hm. eapply near_weak; [apply Z.le_refl| |
    apply near_unslewed_gen; [assumption|assumption|apply near_I; eassumption|assumption]]. lra.
Qed.

Lemma near_slew prev rp v r e : in_limits_or_nan (outLim c) prev -> in_limits_or_nan (outLim c) v ->
  sane_slew c -> near a prev rp e -> near a v r (e + 62 * u) ->
  near a (spec_slew c prev v) (exact_slew c rp r) (e + 62 * u).
Proof.
  intros L1 L2 SS Hp Hv. destruct (s_ok _ _ _ _ S) as (Ha & Hk & Ht & Hg).
  assert (U := unit_pos a k t). fold u in U.
  assert (Hat : forall s, bnd a s ->
    near (a + t + 1) (dadd prev (dmul s (ts c))) (rp + B2R s * B2R (ts c)) (e + 62 * u)).
  { intros s Hs. eapply near_weak; [apply Z.le_refl| |apply (near_add (a + t));
      [lia|eapply near_weak; [|apply Rle_refl|exact Hp]; lia
          |apply (near_mul a t); [lia|apply near_exact; exact Hs|apply S]]].
    assert (bpow radix2 (a + t - 54) <= u) by (apply u_ge; lia).
    replace (a + t + 1 - 54)%Z with (a + t - 54 + 1)%Z by lia. rewrite pw2. lra. }
  assert (Hv' : near (a + t + 1) v r (e + 62 * u)) by (eapply near_weak; [|apply Rle_refl|exact Hv]; lia).
  assert (G : near (a + t + 1) (spec_slew c prev v) (exact_slew c rp r) (e + 62 * u)).
  { unfold spec_slew, exact_slew.
    destruct (deqb (slewNeg c) d0), (deqb (slewPos c) d0);
      repeat first [apply near_min|apply near_max|apply Hat; apply S|exact Hv']. }
  split; [|apply G].
  destruct (spec_slew_in c (outLim c) prev v SS L1 L2) as [N|[N1 N2]].
  - destruct G as [G _]. apply bnd_notnan in G. unfold notnan in G. congruence.
  - apply (bnd_between a (lim_min (outLim c)) (lim_max (outLim c))); try assumption; apply S.
Qed.

(** ** A whole history *)
Definition step_err : R := 128 * u.

(** Double memory and exact memory after [n] evaluations. *)
Definition close (n : R) (m : option spec_mem) (r : option exact_mem) : Prop :=
  match m, r with
  | None, None => True
  | Some m, Some r =>
      near a (m_integral m) (x_integral r) (n * step_err) /\
      near (a + 1) (m_error m) (x_error r) (2 * bpow radix2 (a - 54)) /\
      near a (m_output m) (x_output r) (n * step_err) /\
      in_limits_or_nan (outLim c) (m_output m)
  | _, _ => False
  end.

Lemma near_0 j e : 0 <= e -> near j d0 0 e.
Proof. intros H. split; [apply bnd_d0|]. now rewrite Rx_d0, Rminus_eq_0, Rabs_R0. Qed.

Lemma unslewed_in mi me x : in_limits_or_nan (outLim c) (spec_unslewed c mi me x).
Proof. unfold spec_unslewed. rewrite limit_clamp. now apply clamp_in. Qed.

Lemma close_step n m r x : 0 <= n -> sane_slew c -> bnd a (fst x) -> bnd a (snd x) ->
  close n m r -> close (n + 1) (Some (spec_step c m x)) (Some (exact_step c r x)).
Proof.
  intros Hn SS H1 H2 H. destruct (s_ok _ _ _ _ S) as (Ha & Hk & Ht & Hg).
  assert (U := unit_pos a k t). fold u in U.
  assert (Hu : bpow radix2 (a - 54) >= 0) by (apply Rle_ge, bpow_ge_0).
  assert (U1 : bpow radix2 (a + k - 54) <= u) by (apply u_ge; lia).
  assert (Hns : 0 <= n * step_err) by (apply Rmult_le_pos; unfold step_err; lra).
  assert (HE := near_error x H1 H2). assert (HP := near_P x H1 H2).
  assert (W : forall i s e, e <= n * step_err + 128 * u -> near a i s e -> near a i s ((n + 1) * step_err)).
  { intros i s e L. apply near_weak; [lia|]. unfold step_err in *. lra. }
  destruct m as [m|], r as [r|]; cbn [close] in *; try contradiction; cbn [spec_step exact_step].
  - destruct H as (Hi & He & Ho & HL).
    assert (HU := near_unslewed _ _ _ _ _ x H1 H2 Hi He).
    assert (HS := near_slew _ _ _ _ _ HL (unslewed_in (m_integral m) (m_error m) x) SS Ho HU).
    cbn [m_integral m_error m_output x_integral x_error x_output].
    split; [|split; [assumption|split]].
    + destruct (deqb (slewNeg c) d0 && deqb (slewPos c) d0).
      * apply (W _ _ (n * step_err + 10 * u)); [lra|].
        apply (near_limit a); [assumption|apply S|apply S|]. now apply near_I.
      * apply (W _ _ (n * step_err + 62 * u + 4 * u + 4 * u)); [lra|].
        apply (near_limit (a + k + t + 2)); [assumption|apply S|apply S|].
        replace (a + k + t + 2)%Z with (a + k + t + 1 + 1)%Z by lia.
        eapply near_weak; [apply Z.le_refl| |apply near_sub;
          [lia|eapply near_weak; [|apply Rle_refl|exact HS]; lia
              |eapply near_weak; [|apply Rle_refl|exact HP]; lia]].
        replace (a + k + t + 1 + 1 - 54)%Z with (a + k + t - 54 + 2)%Z by lia. rewrite pw4.
        fold (unit_of a k t). fold u. lra.
    + apply (W _ _ (n * step_err + 62 * u)); [lra|exact HS].
    + apply spec_slew_in; [assumption|assumption|apply unslewed_in].
  - assert (Z1 : near a d0 0 (n * step_err)) by (now apply near_0).
    assert (Z2 : near (a + 1) d0 0 (2 * bpow radix2 (a - 54))) by (apply near_0; lra).
    cbn [m_integral m_error m_output x_integral x_error x_output].
    split; [|split; [assumption|split]].
    + apply (W _ _ (n * step_err + 10 * u)); [lra|].
      apply (near_limit a); [assumption|apply S|apply S|]. now apply near_I.
    + apply (W _ _ (n * step_err + 62 * u)); [lra|]. now apply near_unslewed.
    + apply unslewed_in.
Qed.

Lemma outs_close h : sane_slew c -> Forall (fun x => bnd a (fst x) /\ bnd a (snd x)) h ->
  forall n m r, 0 <= n -> close n m r ->
  forall j o v, nth_error (spec_outs_from c m h) j = Some o ->
    nth_error (exact_outs_from c r h) j = Some v ->
    near a o v ((n + INR (Datatypes.S j)) * step_err).
Proof.
  intros SS. induction h as [|x h IH]; intros F n m r Hn H j o v H1 H2.
  - destruct j; discriminate.
  - inversion F as [|? ? [B1 B2] F']; subst. assert (C := close_step n m r x Hn SS B1 B2 H).
    cbn [spec_outs_from exact_outs_from] in H1, H2. destruct j as [|j].
    + cbn [nth_error] in H1, H2. injection H1 as <-. injection H2 as <-.
      change (INR 1) with 1. apply C.
    + cbn [nth_error] in H1, H2.
      rewrite S_INR. replace (n + (INR (Datatypes.S j) + 1)) with (n + 1 + INR (Datatypes.S j)) by lra.
      eapply (IH F' (n + 1)); [lra|exact C|exact H1|exact H2].
Qed.

(** Without integral term and without rate limit nothing accumulates. *)
Lemma outs_memoryless h : deqb (integralCoeff c) d0 = true ->
  deqb (slewNeg c) d0 = true -> deqb (slewPos c) d0 = true ->
  Forall (fun x => bnd a (fst x) /\ bnd a (snd x)) h ->
  forall m r, (match m, r with
               | None, None => True
               | Some m, Some r => near (a + 1) (m_error m) (x_error r) (2 * bpow radix2 (a - 54))
               | _, _ => False end) ->
  forall j o v, nth_error (spec_outs_from c m h) j = Some o ->
    nth_error (exact_outs_from c r h) j = Some v -> near a o v (52 * u).
Proof.
  intros Zi Zn Zp. induction h as [|x h IH]; intros F m r H j o v H1 H2.
  - destruct j; discriminate.
  - inversion F as [|? ? [B1 B2] F']; subst.
    assert (U := unit_pos a k t). fold u in U.
    assert (Hu : bpow radix2 (a - 54) >= 0) by (apply Rle_ge, bpow_ge_0).
    assert (HI : forall mi ri, near a (spec_I c mi x) (exact_I c ri x) 0).
    { intros. unfold spec_I, exact_I. rewrite Zi. apply near_0. lra. }
    assert (HO : near a (m_output (spec_step c m x)) (x_output (exact_step c r x)) (52 * u)).
    { destruct m as [m|], r as [r|]; try contradiction; cbn [spec_step exact_step m_output x_output].
      - unfold spec_slew, exact_slew. rewrite Zn, Zp.
        eapply near_weak; [apply Z.le_refl| |apply near_unslewed_gen;
          [assumption|assumption|apply HI|exact H]]. lra.
      - eapply near_weak; [apply Z.le_refl| |apply near_unslewed_gen;
          [assumption|assumption|apply HI|apply near_0; lra]]. lra. }
    cbn [spec_outs_from exact_outs_from] in H1, H2. destruct j as [|j].
    + cbn [nth_error] in H1, H2. injection H1 as <-. injection H2 as <-. exact HO.
    + cbn [nth_error] in H1, H2.
      eapply (IH F' (Some (spec_step c m x)) (Some (exact_step c r x))); [|exact H1|exact H2].
      destruct m as [m|], r as [r|]; try contradiction; cbn [spec_step exact_step m_error x_error];
        now apply near_error.
Qed.
End Step.

Lemma bnd_samples a h : (0 <= a <= 900)%Z -> Forall (scaled_sample a) h ->
  Forall (fun x => bnd a (fst x) /\ bnd a (snd x)) h.
Proof.
  intros Ha. apply Forall_impl. intros x [H1 H2]. split; apply mag_le_bnd; try assumption; lia.
Qed.

Lemma exact_length c h : forall m, length (exact_outs_from c m h) = length h.
Proof. induction h as [|x h IH]; intros m; [reflexivity|]. cbn. now rewrite IH. Qed.
Lemma spec_length c h : forall m, length (spec_outs_from c m h) = length h.
Proof. induction h as [|x h IH]; intros m; [reflexivity|]. cbn. now rewrite IH. Qed.

Lemma unit_128 a k t : 128 * unit_of a k t = two_to (a + k + t - 47).
Proof.
  unfold unit_of, two_to. replace (a + k + t - 47)%Z with (7 + (a + k + t - 54))%Z by lia.
  rewrite bpow_plus. change (bpow radix2 7) with 128. reflexivity.
Qed.
Lemma unit_64 a k t : 64 * unit_of a k t = two_to (a + k + t - 48).
Proof.
  unfold unit_of, two_to. replace (a + k + t - 48)%Z with (6 + (a + k + t - 54))%Z by lia.
  rewrite bpow_plus. change (bpow radix2 6) with 64. reflexivity.
Qed.

Lemma C84_lemma a k t cfg h : scales_ok a k t -> scaled_cfg a k t cfg ->
  limits_ordered (integralLimit cfg) -> limits_ordered (outLim cfg) -> sane_slew cfg ->
  Forall (scaled_sample a) h ->
  forall n o v, nth_error (pid_outs cfg h) n = Some o -> nth_error (exact_outs cfg h) n = Some v ->
  dfinite o /\ Rabs (B2R o - v) <= INR (S n) * two_to (a + k + t - 47).
Proof.
  intros Hs Hc LI LO SS F n o v H1 H2. rewrite pid_refines in H1.
  assert (Sc := scaled_cfg_scaled _ _ _ _ Hs Hc).
  assert (G := outs_close a k t cfg Sc LI LO h SS
    (bnd_samples a h ltac:(unfold scales_ok in Hs; lia) F) 0 None None (Rle_refl 0) Logic.I n o v H1 H2).
  split; [now apply bnd_finite with a, G|].
  rewrite <- unit_128. rewrite Rplus_0_l in G. exact (near_B2R _ _ _ _ G).
Qed.

Lemma C84_memoryless_lemma a k t cfg h : scales_ok a k t -> scaled_cfg a k t cfg ->
  limits_ordered (integralLimit cfg) -> limits_ordered (outLim cfg) ->
  deqb (integralCoeff cfg) d0 = true -> deqb (slewNeg cfg) d0 = true -> deqb (slewPos cfg) d0 = true ->
  Forall (scaled_sample a) h ->
  forall n o v, nth_error (pid_outs cfg h) n = Some o -> nth_error (exact_outs cfg h) n = Some v ->
  dfinite o /\ Rabs (B2R o - v) <= two_to (a + k + t - 48).
Proof.
  intros Hs Hc LI LO Zi Zn Zp F n o v H1 H2. rewrite pid_refines in H1.
  assert (Sc := scaled_cfg_scaled _ _ _ _ Hs Hc).
  assert (G := outs_memoryless a k t cfg Sc LO h Zi Zn Zp
    (bnd_samples a h ltac:(unfold scales_ok in Hs; lia) F) None None Logic.I n o v H1 H2).
  split; [now apply bnd_finite with a, G|].
  apply near_B2R in G. rewrite <- unit_64. assert (U := unit_pos a k t). lra.
Qed.

(** ** Controllers *)
Lemma held_scaled a pos neg prev rs us : held pos neg prev rs us -> Forall (mag_le a) rs ->
  disfinite prev = false \/ mag_le a prev -> Forall (mag_le a) us.
Proof.
  induction 1 as [prev|prev r rs us N H IH|prev r rs us N O H IH|prev r rs us N O H IH]; intros F P.
  - constructor.
  - inversion F; subst. constructor; auto.
  - inversion F; subst. constructor; auto.
  - inversion F; subst. destruct P as [P|P]; [congruence|]. constructor; auto.
Qed.
Lemma combine_scaled a (us sps : list dbl) : Forall (mag_le a) us -> Forall (mag_le a) sps ->
  Forall (scaled_sample a) (combine us sps).
Proof.
  intros H. revert sps. induction H as [|u us Hu H IH]; intros sps Hs; [constructor|].
  destruct Hs as [|s sps Hs1 Hs]; [constructor|]. cbn. constructor; [split; assumption|auto].
Qed.
Lemma combine_map_id (h : list sample) : combine (map fst h) (map snd h) = h.
Proof. induction h as [|[x y] h IH]; [reflexivity|]. cbn. now rewrite IH. Qed.

Lemma ctrl_plain cfg : checkHysterWithSetpt cfg = false ->
  deqb (positiveHysteresis cfg) d0 && deqb (negativeHysteresis cfg) d0 = true ->
  forall h c, params (pc_info c) = cfg ->
  ctrl_outs_from c h = pid_outs_from (pc_info c) h.
Proof.
  intros C Z. induction h as [|[r sp] h IH]; intros c P; [reflexivity|].
  rewrite ctrl_outs_cons. cbn [fst snd].
  assert (E : pid_process c sp r = (PidCtrl (fst (pid (pc_info c) r sp)) r, snd (pid (pc_info c) r sp))).
  { unfold pid_process, calPIDOutput. rewrite P, C, Z. reflexivity. }
  rewrite E, pid_outs_cons. cbn [fst snd]. f_equal. rewrite IH; [reflexivity|].
  cbn [pc_info]. now rewrite pid_params.
Qed.

Lemma C84_controller_lemma a k t cfg h : scales_ok a k t -> scaled_cfg a k t cfg ->
  limits_ordered (integralLimit cfg) -> limits_ordered (outLim cfg) -> sane_slew cfg ->
  checkHysterWithSetpt cfg = false -> Forall (scaled_sample a) h ->
  exists us, length us = length h /\
    (if deqb (positiveHysteresis cfg) d0 && deqb (negativeHysteresis cfg) d0
     then us = map fst h
     else held (positiveHysteresis cfg) (negativeHysteresis cfg) dnan (map fst h) us) /\
    forall n o v, nth_error (ctrl_outs cfg h) n = Some o ->
      nth_error (exact_outs cfg (combine us (map snd h))) n = Some v ->
      dfinite o /\ Rabs (B2R o - v) <= INR (S n) * two_to (a + k + t - 47).
Proof.
  intros Hs Hc LI LO SS C F.
  assert (Ff : Forall (mag_le a) (map fst h)).
  { apply Forall_map. revert F. apply Forall_impl. now intros x [H _]. }
  assert (Fs : Forall (mag_le a) (map snd h)).
  { apply Forall_map. revert F. apply Forall_impl. now intros x [_ H]. }
  destruct (deqb (positiveHysteresis cfg) d0 && deqb (negativeHysteresis cfg) d0) eqn:Z.
  - exists (map fst h). split; [apply map_length|]. split; [reflexivity|].
    intros n o v H1 H2. unfold ctrl_outs in H1.
    rewrite (ctrl_plain cfg C Z h (pid_ctrl_init cfg) (init_params cfg)) in H1.
    rewrite combine_map_id in H2. now apply (C84_lemma a k t cfg h) with (n := n).
  - destruct (ctrl_held cfg C Z h (pid_ctrl_init cfg) (init_params cfg)) as (us & H1 & H2 & H3).
    exists us. split; [assumption|]. split; [exact H1|].
    intros n o v G1 G2. unfold ctrl_outs in G1. rewrite H2 in G1.
    eapply (C84_lemma a k t cfg (combine us (map snd h))); try eassumption.
    apply combine_scaled; [|assumption]. eapply held_scaled; [exact H1|assumption|]. now left.
Qed.

Lemma C84_year_lemma a cfg h : (0 <= a <= 14)%Z -> scaled_cfg a 0 0 cfg ->
  limits_ordered (integralLimit cfg) -> limits_ordered (outLim cfg) -> sane_slew cfg ->
  Forall (scaled_sample a) h -> (N.of_nat (length h) <= 31622400)%N ->
  forall n o v, nth_error (pid_outs cfg h) n = Some o -> nth_error (exact_outs cfg h) n = Some v ->
  Rabs (B2R o - v) <= / 256.
Proof.
  intros Ha Hc LI LO SS F L n o v H1 H2.
  destruct (C84_lemma a 0 0 cfg h) with (n := n) (o := o) (v := v) as [_ H]; try assumption.
  { unfold scales_ok. lia. }
  apply Rle_trans with (1 := H).
  assert (Hn : (n < length h)%nat).
  { rewrite <- (exact_length cfg h None). apply nth_error_Some. unfold exact_outs in H2. congruence. }
  assert (Hi : INR (S n) <= 33554432).
  { rewrite INR_IZR_INZ. apply IZR_le. lia. }
  assert (Ht : two_to (a + 0 + 0 - 47) <= two_to (-33)) by (apply bpow_le; lia).
  assert (E : 33554432 * two_to (-33) = / 256).
  { unfold two_to. change (bpow radix2 (-33)) with (/ 8589934592). lra. }
  rewrite <- E. apply Rmult_le_compat; [apply pos_INR|apply bpow_ge_0|assumption|assumption].
Qed.

(** ** Exact values of small doubles, for the examples *)
Lemma D2_exact (m z : Z) : (Z.abs m < 2 ^ 53)%Z -> (-1074 <= z <= 900)%Z ->
  dfinite (D2 m z) /\ B2R (D2 m z) = IZR m * bpow radix2 z.
Proof.
  intros Hm Hz. assert (C := binary_normalize_correct 53 1024 prec_pos prec_emax mode_NE m z false).
  fold (D2 m z) in C. cbv zeta in C. simpl round_mode in C.
  change (F2R (Float radix2 m z)) with (IZR m * bpow radix2 z) in C.
  fold (RN (IZR m * bpow radix2 z)) in C.
  assert (A : Rabs (IZR m * bpow radix2 z) < bpow radix2 (53 + z)).
  { rewrite Rabs_mult, (Rabs_pos_eq (bpow radix2 z)) by apply bpow_ge_0. rewrite bpow_plus.
    apply Rmult_lt_compat_r; [apply bpow_gt_0|]. rewrite <- abs_IZR.
    replace (bpow radix2 53) with (IZR (2 ^ 53)) by (simpl; lra). now apply IZR_lt. }
  assert (G : RN (IZR m * bpow radix2 z) = IZR m * bpow radix2 z).
  { unfold RN. apply round_generic; [apply valid_rnd_N|].
    change (IZR m * bpow radix2 z) with (F2R (Float radix2 m z)).
    apply generic_format_F2R. intros Nz. unfold cexp, SpecFloat.fexp, SpecFloat.emin.
    assert (M : (mag radix2 (F2R (Float radix2 m z)) <= 53 + z)%Z).
    { apply mag_le_bpow; [|exact A]. change (IZR m * bpow radix2 z <> 0).
      apply Rmult_integral_contrapositive_currified; [now apply IZR_neq|].
      apply Rgt_not_eq, bpow_gt_0. }
    lia. }
  rewrite G in C. rewrite Rlt_bool_true in C.
  - destruct C as (C1 & C2 & _). split; assumption.
  - apply Rlt_trans with (1 := A). apply bpow_lt. lia.
Qed.

Lemma outs_length cfg h : length (pid_outs cfg h) = length h /\ length (exact_outs cfg h) = length h.
Proof. rewrite pid_refines. split; [apply spec_length|apply exact_length]. Qed.

Lemma C84_full a k t cfg h : scales_ok a k t -> scaled_cfg a k t cfg ->
  limits_ordered (integralLimit cfg) -> limits_ordered (outLim cfg) -> sane_slew cfg ->
  Forall (scaled_sample a) h ->
  length (pid_outs cfg h) = length h /\ length (exact_outs cfg h) = length h /\
  forall n o v, nth_error (pid_outs cfg h) n = Some o -> nth_error (exact_outs cfg h) n = Some v ->
  dfinite o /\ Rabs (B2R o - v) <= INR (S n) * two_to (a + k + t - 47).
Proof.
  intros. destruct (outs_length cfg h) as [L1 L2]. split; [assumption|]. split; [assumption|].
  now apply C84_lemma.
Qed.

(** Boolean forms of the hypotheses, for the examples. *)
Definition mag_leb (k : Z) (x : dbl) : bool := dleb (D2 (-1) k) x && dleb x (D2 1 k) && disfinite x.
Lemma mag_leb_ok k x : mag_leb k x = true -> mag_le k x.
Proof.
  unfold mag_leb. intros H. apply andb_prop in H. destruct H as [H F].
  apply andb_prop in H. destruct H as [H1 H2]. split; [exact F|]. split; assumption.
Qed.
Lemma forallb_mag k l : forallb (mag_leb k) l = true -> Forall (mag_le k) l.
Proof.
  induction l as [|x l IH]; cbn [forallb]; intros H; [constructor|].
  apply andb_prop in H. destruct H. constructor; [now apply mag_leb_ok|auto].
Qed.
Lemma forallb_samples a (h : list sample) :
  forallb (fun x => mag_leb a (fst x) && mag_leb a (snd x)) h = true -> Forall (scaled_sample a) h.
Proof.
  induction h as [|x h IH]; cbn [forallb]; intros H; [constructor|].
  apply andb_prop in H. destruct H as [H H']. apply andb_prop in H. destruct H.
  constructor; [split; now apply mag_leb_ok|auto].
Qed.

(** [(1 + 2^-52)^2] cannot be computed exactly. *)
Lemma not_exact_lemma :
  let b := D2 4503599627370497 (-52) in
  let cfg := PidInfo false (D 1) b (D 0) (D 0) (D 0) (D 0)
    (Limits (D 0) (D 0)) (Limits (D 0) (D 4)) (D 0) (D 0) (D 0) (D 0) in
  exists o v, nth_error (pid_outs cfg [(D 0, b)]) 0 = Some o /\
    nth_error (exact_outs cfg [(D 0, b)]) 0 = Some v /\ B2R o <> v.
Proof.
  intros b cfg. exists (pid_out cfg [] (D 0, b)). eexists. split; [reflexivity|]. split; [reflexivity|].
  assert (E : dsame (pid_out cfg [] (D 0, b)) (D2 4503599627370498 (-52)) = true)
    by (vm_compute; reflexivity).
  set (o := pid_out cfg [] (D 0, b)) in *.
  assert (Eo : deqb o (D2 4503599627370498 (-52)) = true) by (vm_compute; reflexivity).
  destruct (D2_exact 4503599627370498 (-52) ltac:(lia) ltac:(lia)) as [F1 V1].
  destruct (D2_exact 4503599627370497 (-52) ltac:(lia) ltac:(lia)) as [F2 V2]. fold b in F2, V2.
  assert (No := deqb_notnan _ _ Eo).
  assert (Fo : dfinite o) by (vm_compute; reflexivity).
  apply deqb_Rx in Eo; [|tauto..]. rewrite (Rx_finite _ F1), (Rx_finite _ Fo), V1 in Eo.
  rewrite Eo. cbn [exact_step x_output]. unfold exact_unslewed, exact_P, exact_I, exact_D, exact_FF, exact_error, within.
  assert (Z1 : deqb (integralCoeff cfg) d0 = true) by (vm_compute; reflexivity). rewrite Z1.
  cbn [fst snd proportionalCoeff derivativeCoeff feedFwdOffset feedFwdGain outLim lim_min lim_max ts cfg].
  assert (D0 : B2R (D 0) = 0).
  { destruct (D_exact 0 ltac:(lia)) as [F V]. now rewrite <- (Rx_finite _ F), V. }
  assert (D4 : B2R (D 4) = 4).
  { destruct (D_exact 4 ltac:(lia)) as [F V]. now rewrite <- (Rx_finite _ F), V. }
  rewrite V2, D0, D4. set (p := bpow radix2 (-52)).
  assert (Hp : p = / 4503599627370496) by reflexivity.
  intros H.
  match type of H with _ = Rmax 0 (Rmin 4 ?z) => assert (Hz : z = (4503599627370497 * p) * (4503599627370497 * p)) end.
  { unfold Rdiv. ring. }
  rewrite Hz in H. rewrite Rmin_right, Rmax_right in H; rewrite Hp in *; lra.
Qed.
