(** * Proofs for C106: loops whose input stays the same. *)
From Coq Require Import ZArith Reals Bool List Lia Lra.
From Flocq Require Import Core BinarySingleNaN.
From Verif Require Import Base Dbl DblFacts DblOrder DblBound PidModel SpecPid PidProofs SpecHeat HeatProofs SpecRest.
Import ListNotations.
Local Arguments pid : simpl never.

(** ** Monotone sequences of doubles *)

(** Every double is a multiple of the smallest one. *)
Lemma dbl_index (x : dbl) : dfinite x -> exists m : Z, Rx x = (IZR m * bpow radix2 (-1074))%R.
Proof.
  intros F. rewrite (Rx_finite x F).
  assert (G := BinarySingleNaN.generic_format_B2R 53 1024 x).
  assert (G2 : generic_format radix2 (FLT_exp (-1074) 53) (B2R x)) by exact G.
  apply generic_format_FIX_FLT in G2. apply FIX_format_generic in G2.
  destruct G2 as [[m e] E1 E2]. cbn in E2. subst e. exists m. exact E1.
Qed.

Section Orbit.
  Variables (P : dbl -> Prop) (g : dbl -> dbl) (lo hi : dbl).
  Hypothesis (Pfin : forall x, P x -> dfinite x /\ dle lo x /\ dle x hi).
  Hypothesis (lofin : dfinite lo) (hifin : dfinite hi).
  Hypothesis (Pg : forall x, P x -> P (g x)).
  Hypothesis (Mg : forall x y, P x -> P y -> dle x y -> dle (g x) (g y)).
  Variable (s : nat -> dbl).
  Hypothesis (s0 : P (s 0%nat)) (sS : forall n, s (S n) = g (s n)).

  Lemma orbit_P n : P (s n).
  Proof. induction n; [exact s0|]. rewrite sS. auto. Qed.
  Lemma orbit_up : dle (s 0%nat) (s 1%nat) -> forall n, dle (s n) (s (S n)).
  Proof. intros H n. induction n as [|n IH]; [exact H|]. rewrite (sS (S n)), (sS n) at 1. apply Mg; auto using orbit_P. Qed.
  Lemma orbit_down : dle (s 1%nat) (s 0%nat) -> forall n, dle (s (S n)) (s n).
  Proof. intros H n. induction n as [|n IH]; [exact H|]. rewrite (sS (S n)). rewrite (sS n) at 2. apply Mg; auto using orbit_P. Qed.
  Lemma orbit_way : (forall n, dle (s n) (s (S n))) \/ (forall n, dle (s (S n)) (s n)).
  Proof.
    assert (A := proj1 (Pfin _ (orbit_P 0))). assert (B := proj1 (Pfin _ (orbit_P 1))).
    destruct (dle_total (s 0%nat) (s 1%nat)) as [H|H]; [now apply finite_notnan|now apply finite_notnan| |].
    - left. now apply orbit_up.
    - right. now apply orbit_down.
  Qed.
  Lemma orbit_const n : deq (s n) (s (S n)) -> forall m, (n <= m)%nat -> deq (s m) (s n).
  Proof.
    intros E m H. assert (Q : forall k, deq (s (k + n)%nat) (s (S (k + n))%nat)).
    { induction k as [|k IH]; [exact E|]. cbn [plus]. rewrite (sS (S (k + n))). rewrite (sS (k + n)) at 1.
      assert (I2 := deq_sym _ _ IH). apply dle_antisym; apply Mg; auto using orbit_P, deq_le. }
    assert (W : forall k, deq (s (k + n)%nat) (s n)).
    { induction k as [|k IH].
      - apply deq_refl, finite_notnan. apply (Pfin _ (orbit_P n)).
      - apply deq_trans with (s (k + n)%nat); [apply deq_sym, Q|exact IH]. }
    replace m with ((m - n) + n)%nat by lia. apply W.
  Qed.

  Lemma orbit_rest : exists n, deq (s n) (s (S n)).
  Proof.
    destruct (dbl_index lo lofin) as [l L]. destruct (dbl_index hi hifin) as [u U].
    assert (BP := bpow_gt_0 radix2 (-1074)).
    assert (IX : forall n, exists m, Rx (s n) = (IZR m * bpow radix2 (-1074))%R /\ (l <= m <= u)%Z).
    { intros n. destruct (Pfin _ (orbit_P n)) as (F & A & B). destruct (dbl_index _ F) as [m M].
      exists m. split; [exact M|]. apply dle_iff in A. apply dle_iff in B.
      rewrite L, M in A. rewrite U, M in B. split; apply le_IZR; nra. }
    assert (NN : forall n, notnan (s n)) by (intros n; apply finite_notnan, (Pfin _ (orbit_P n))).
    destruct orbit_way as [W|W].
    - assert (G : forall k n m, Rx (s n) = (IZR m * bpow radix2 (-1074))%R -> (u - m < Z.of_nat k)%Z -> exists j, deq (s j) (s (S j))).
      { induction k as [|k IH]; intros n m M H.
        - destruct (IX n) as (m' & M' & B). assert (m = m') by (apply eq_IZR; rewrite M in M'; nra). lia.
        - destruct (IX (S n)) as (m' & M' & B). assert (D := proj2 (proj2 (proj1 (dle_iff _ _) (W n)))).
          rewrite M, M' in D. assert (m <= m')%Z by (apply le_IZR; nra).
          destruct (Z.eq_dec m m') as [<-|N].
          + exists n. apply deq_iff. rewrite M, M'. auto.
          + apply (IH (S n) m' M'). lia. }
      destruct (IX 0%nat) as (m & M & B). apply (G (Z.to_nat (u - m + 1)) 0%nat m M). lia.
    - assert (G : forall k n m, Rx (s n) = (IZR m * bpow radix2 (-1074))%R -> (m - l < Z.of_nat k)%Z -> exists j, deq (s j) (s (S j))).
      { induction k as [|k IH]; intros n m M H.
        - destruct (IX n) as (m' & M' & B). assert (m = m') by (apply eq_IZR; rewrite M in M'; nra). lia.
        - destruct (IX (S n)) as (m' & M' & B). assert (D := proj2 (proj2 (proj1 (dle_iff _ _) (W n)))).
          rewrite M, M' in D. assert (m' <= m)%Z by (apply le_IZR; nra).
          destruct (Z.eq_dec m m') as [<-|N].
          + exists n. apply deq_iff. rewrite M, M'. auto.
          + apply (IH (S n) m' M'). lia. }
      destruct (IX 0%nat) as (m & M & B). apply (G (Z.to_nat (m - l + 1)) 0%nat m M). lia.
  Qed.
  Lemma orbit_settles : exists n0, deq (s n0) (s (S n0)) /\ forall n, (n0 <= n)%nat -> deq (s n) (s n0).
  Proof. destruct orbit_rest as [n E]. exists n. split; [exact E|]. now apply orbit_const. Qed.
End Orbit.

(** ** One sample again and again *)

(** What the state of a loop satisfies whatever the history. *)
Definition moder (c : pidinfo) (i : pid_info_t) : Prop :=
  params i = c /\ bnd 200 (integral i) /\ bnd 201 (lastError i) /\ bnd 200 (lastOutput i).

Lemma bnd_in_limits x : bnd 200 x <-> in_limits (Limits (D2 (-1) 200) (D2 1 200)) x.
Proof.
  destruct (Rx_D2_pow 200 ltac:(lia)) as [F1 E1]. destruct (Rx_D2_npow 200 ltac:(lia)) as [F2 E2]. split.
  - intros B. assert (N := bnd_notnan _ _ B). destruct B as [F B]. apply Rabs_le_inv in B.
    split; apply dle_iff; cbn [lim_min lim_max]; rewrite ?E1, ?E2; auto using finite_notnan.
    + split; [now apply finite_notnan|]. split; [exact N|]. lra.
    + split; [exact N|]. split; [now apply finite_notnan|]. lra.
  - intros [A B]. apply mag_le_bnd; [lia|]. cbn [lim_min lim_max] in A, B. split; [|split; assumption].
    apply dle_iff in A. apply dle_iff in B. rewrite E1 in B. rewrite E2 in A. apply finite_iff_Rx; [tauto|].
    assert (bpow radix2 200 < big)%R by (apply bpow_lt; lia). lra.
Qed.
Lemma moder_step c i x : bounded c -> ordered_limits c -> sane_slew c -> bnd 200 (fst x) -> bnd 200 (snd x) ->
  moder c i ->
  bnd 200 (spec_unslewed c (integral i) (lastError i) x) /\ bnd 200 (snd (pid i (fst x) (snd x))) /\
  moder c (fst (pid i (fst x) (snd x))).
Proof.
  intros B [LI LO] SL Hx Hs (P & Ii & Ie & Io).
  destruct (spec_parts_bnd c (integral i) (lastError i) x B LI Ii Ie Hx Hs) as (HE & HP & HI & HD & HF).
  assert (U : bnd 200 (spec_unslewed c (integral i) (lastError i) x)).
  { unfold spec_unslewed. apply clamp_bnd; [|assumption|apply B|apply B].
    apply (bnd_notnan 504). apply (bnd_add 503); [lia| |apply (bnd_weaken 401); [lia|assumption]].
    apply (bnd_add 502); [lia| |assumption].
    apply (bnd_weaken 402); [lia|]. apply (bnd_add 401); [lia|assumption|].
    apply (bnd_weaken 200); [lia|assumption]. }
  assert (OB : bnd 200 (snd (pid i (fst x) (snd x)))).
  { rewrite pid_out_form, P. destruct (initialized i) eqn:E; [|exact U].
    apply bnd_in_limits. apply bnd_in_limits in Io. assert (U2 := proj1 (bnd_in_limits _) U).
    destruct (spec_slew_in c _ (lastOutput i) _ SL (or_intror Io) (or_intror U2)) as [N|H]; [|exact H].
    assert (N2 := spec_slew_keeps_notnan c (lastOutput i) _ (bnd_notnan _ _ U)). unfold notnan in N2. congruence. }
  split; [exact U|]. split; [exact OB|]. split; [now rewrite pid_params|]. split; [|split].
  - rewrite pid_integral_form, P. apply clamp_bnd; try assumption; try apply B.
    destruct (_ && _).
    + apply (bnd_notnan 402). apply (bnd_sub 401); [lia|apply (bnd_weaken 200); [lia|assumption]|assumption].
    + now apply (bnd_notnan 200).
  - rewrite pid_error_form. exact HE.
  - rewrite pid_lastOutput. exact OB.
Qed.

Section Steady.
  Variables (c : pidinfo) (x : sample).
  Hypothesis (B : bounded c) (OL : ordered_limits c) (SL : sane_slew c)
    (Hx : bnd 200 (fst x)) (Hs : bnd 200 (snd x)).

  Let err := dsub (snd x) (fst x).
  Lemma err_bnd : bnd 201 err.
  Proof. apply (bnd_sub 200); [lia|assumption|assumption]. Qed.

  (** The sum before rate limiting, as a function of the integral. *)
  Lemma steady_parts mi : bnd 200 mi ->
    bnd 401 (spec_P c x) /\ bnd 200 (spec_I c mi x) /\ bnd 502 (spec_D c err x) /\ bnd 401 (spec_FF c x) /\
    bnd 402 (dadd (spec_P c x) (spec_I c mi x)) /\
    bnd 503 (dadd (dadd (spec_P c x) (spec_I c mi x)) (spec_D c err x)) /\
    bnd 504 (dadd (dadd (dadd (spec_P c x) (spec_I c mi x)) (spec_D c err x)) (spec_FF c x)) /\
    bnd 200 (spec_unslewed c mi err x).
  Proof.
    intros Ii. destruct (spec_parts_bnd c mi err x B (proj1 OL) Ii err_bnd Hx Hs) as (HE & HP & HI & HD & HF).
    assert (S1 : bnd 402 (dadd (spec_P c x) (spec_I c mi x))).
    { apply (bnd_add 401); [lia|assumption|]. apply (bnd_weaken 200); [lia|assumption]. }
    assert (S2 : bnd 503 (dadd (dadd (spec_P c x) (spec_I c mi x)) (spec_D c err x))).
    { apply (bnd_add 502); [lia| |assumption]. apply (bnd_weaken 402); [lia|assumption]. }
    assert (S3 : bnd 504 (dadd (dadd (dadd (spec_P c x) (spec_I c mi x)) (spec_D c err x)) (spec_FF c x))).
    { apply (bnd_add 503); [lia|assumption|]. apply (bnd_weaken 401); [lia|assumption]. }
    do 7 (split; [assumption|]). unfold spec_unslewed. apply clamp_bnd; [now apply (bnd_notnan 504)|apply OL|apply B|apply B].
  Qed.
  Lemma gain_bnd : bnd 601 (gain c x).
  Proof.
    unfold gain. apply (bnd_mul 401 200); [lia| |apply B]. apply (bnd_mul 201 200); [lia|exact err_bnd|apply B].
  Qed.
  Lemma spec_I_mono a b : bnd 200 a -> bnd 200 b -> dle a b -> dle (spec_I c a x) (spec_I c b x).
  Proof.
    intros Ba Bb H. unfold spec_I. destruct (deqb (integralCoeff c) d0); [now apply dle_refl|].
    rewrite !limit_clamp. apply clamp_mono; [apply OL|].
    assert (G := gain_bnd). unfold gain in G.
    apply dadd_mono; [exact H|apply dle_refl; now apply bnd_notnan in G| |];
      (apply (bnd_notnan 602); apply (bnd_add 601); [lia|apply (bnd_weaken 200); [lia|assumption]|exact G]).
  Qed.
  Lemma unslewed_mono a b : bnd 200 a -> bnd 200 b -> dle a b ->
    dle (spec_unslewed c a err x) (spec_unslewed c b err x).
  Proof.
    intros Ba Bb H. destruct (steady_parts a Ba) as (P1 & I1 & D1 & F1 & A1 & A2 & A3 & _).
    destruct (steady_parts b Bb) as (_ & I2 & _ & _ & C1 & C2 & C3 & _).
    unfold spec_unslewed. rewrite !limit_clamp. apply clamp_mono; [apply OL|].
    apply dadd_mono; try (eapply bnd_notnan; eassumption); [|eapply dle_refl, bnd_notnan; eassumption].
    apply dadd_mono; try (eapply bnd_notnan; eassumption); [|eapply dle_refl, bnd_notnan; eassumption].
    apply dadd_mono; try (eapply bnd_notnan; eassumption); [eapply dle_refl, bnd_notnan; eassumption|].
    now apply spec_I_mono.
  Qed.

  Hypothesis (BN : bnd 200 (slewNeg c)) (BP : bnd 200 (slewPos c)).

  (** Rate limiting in its previous output. *)
  Lemma rate_bnd r v : bnd 200 r -> bnd 200 v -> bnd 401 (dadd v (dmul r (ts c))).
  Proof.
    intros H V. apply (bnd_add 400); [lia|apply (bnd_weaken 200); [lia|exact V]|].
    apply (bnd_mul 200 200); [lia|exact H|apply B].
  Qed.
  Lemma rate_mono r v w : bnd 200 r -> bnd 200 v -> bnd 200 w -> dle v w ->
    dle (dadd v (dmul r (ts c))) (dadd w (dmul r (ts c))).
  Proof.
    intros H V W L. apply dadd_mono; [exact L| |eapply bnd_notnan, rate_bnd; assumption|eapply bnd_notnan, rate_bnd; assumption].
    apply dle_refl. eapply bnd_notnan. apply (bnd_mul 200 200); [lia|exact H|apply B].
  Qed.
  Lemma dmax_mono a b a' b' : notnan a -> notnan a' -> notnan b -> notnan b' -> dle a a' -> dle b b' -> dle (dmax a b) (dmax a' b').
  Proof.
    intros Na Na' Nb Nb' H K. unfold dmax. destruct (dltb a b) eqn:E, (dltb a' b') eqn:E'.
    - exact K.
    - apply dle_trans with b'; [exact K|]. now apply dltb_false_dle.
    - apply dle_trans with a'; [exact H|]. now apply dlt_dle.
    - exact H.
  Qed.
  Lemma dmin_mono a b a' b' : notnan a -> notnan a' -> notnan b -> notnan b' -> dle a a' -> dle b b' -> dle (dmin a b) (dmin a' b').
  Proof.
    intros Na Na' Nb Nb' H K. unfold dmin. destruct (dltb b a) eqn:E, (dltb b' a') eqn:E'.
    - exact K.
    - apply dle_trans with a; [now apply dlt_dle|exact H].
    - apply dle_trans with b; [now apply dltb_false_dle|exact K].
    - exact H.
  Qed.
  Lemma slew_mono v w a b : bnd 200 v -> bnd 200 w -> bnd 200 a -> bnd 200 b -> dle v w -> dle a b ->
    dle (spec_slew c v a) (spec_slew c w b).
  Proof.
    intros V W Ba Bb H K. apply bnd_notnan in Ba. apply bnd_notnan in Bb.
    assert (N1 := rate_mono _ _ _ BN V W H). assert (P1 := rate_mono _ _ _ BP V W H).
    destruct (dle_notnan _ _ N1), (dle_notnan _ _ P1). unfold spec_slew.
    destruct (deqb (slewNeg c) d0), (deqb (slewPos c) d0); try assumption.
    - now apply dmin_mono.
    - now apply dmax_mono.
    - apply dmin_mono; try assumption; try now apply dmax_notnan. now apply dmax_mono.
  Qed.

  (** ** The evaluations of [x] *)
  Let step (i : pid_info_t) : pid_info_t := fst (pid i (fst x) (snd x)).
  Definition out (i : pid_info_t) : dbl := snd (pid i (fst x) (snd x)).
  Fixpoint states (i : pid_info_t) (n : nat) : pid_info_t :=
    match n with O => i | S n => fst (pid (states i n) (fst x) (snd x)) end.

  Lemma states_moder i n : moder c i -> moder c (states i n).
  Proof. intros M. induction n as [|n IH]; [exact M|]. cbn [states]. now apply moder_step. Qed.
  Lemma states_init i n : initialized (states i (S n)) = true.
  Proof. reflexivity. Qed.
  Lemma states_error i n : lastError (states i (S n)) = err.
  Proof. reflexivity. Qed.

  Definition unlimited : bool := deqb (slewNeg c) d0 && deqb (slewPos c) d0.

  (** Without rate limits the integral is the orbit of a monotone map and the output
      follows it. *)
  Lemma free_out i n : moder c i -> unlimited = true ->
    out (states i (S n)) = spec_unslewed c (integral (states i (S n))) err x.
  Proof.
    intros M U. unfold out. rewrite pid_out_form. destruct (states_moder i (S n) M) as (-> & _).
    rewrite states_init, states_error. unfold unlimited in U. apply andb_true_iff in U. destruct U as [U1 U2].
    unfold spec_slew. now rewrite U1, U2.
  Qed.
  Lemma free_integral i n : moder c i -> unlimited = true ->
    integral (states i (S n)) = limit (integralLimit c) (spec_I c (integral (states i n)) x).
  Proof.
    intros M U. cbn [states]. rewrite pid_integral_form. destruct (states_moder i n M) as (-> & _).
    unfold unlimited in U. rewrite U. cbn [negb]. now rewrite andb_false_r.
  Qed.
  Lemma bnd_dle_range v : bnd 200 v -> dfinite v /\ dle (D2 (-1) 200) v /\ dle v (D2 1 200).
  Proof. intros H. split; [eapply bnd_finite, H|]. apply bnd_in_limits in H. exact H. Qed.
  Lemma limit_bnd l v : limits_ordered l -> bnd 200 (lim_min l) -> bnd 200 (lim_max l) -> notnan v -> bnd 200 (limit l v).
  Proof. intros. rewrite limit_clamp. now apply clamp_bnd. Qed.

  Lemma free_orbit i : moder c i -> unlimited = true ->
    ((forall n, dle (integral (states i n)) (integral (states i (S n)))) \/
     (forall n, dle (integral (states i (S n))) (integral (states i n)))) /\
    exists n0, deq (integral (states i n0)) (integral (states i (S n0))) /\
      forall n, (n0 <= n)%nat -> deq (integral (states i n)) (integral (states i n0)).
  Proof.
    intros M U.
    assert (A1 : forall v, bnd 200 v -> bnd 200 (limit (integralLimit c) (spec_I c v x))).
    { intros v H. apply limit_bnd; [apply OL|apply B|apply B|]. destruct (steady_parts v H) as (_ & H2 & _). eapply bnd_notnan, H2. }
    assert (A2 : forall v w, bnd 200 v -> bnd 200 w -> dle v w ->
      dle (limit (integralLimit c) (spec_I c v x)) (limit (integralLimit c) (spec_I c w x))).
    { intros v w Hv Hw H. rewrite !limit_clamp. apply clamp_mono; [apply OL|]. now apply spec_I_mono. }
    assert (A3 : bnd 200 (integral (states i 0))) by apply M.
    split.
    - exact (orbit_way (bnd 200) (fun v => limit (integralLimit c) (spec_I c v x)) _ _ bnd_dle_range A1 A2
        (fun n => integral (states i n)) A3 (fun n => free_integral i n M U)).
    - exact (orbit_settles (bnd 200) (fun v => limit (integralLimit c) (spec_I c v x)) _ _ bnd_dle_range
        (proj1 (Rx_D2_npow 200 ltac:(lia))) (proj1 (Rx_D2_pow 200 ltac:(lia))) A1 A2
        (fun n => integral (states i n)) A3 (fun n => free_integral i n M U)).
  Qed.

  (** With rate limits the output itself is the orbit of a monotone map. *)
  Definition rated (v : dbl) : dbl :=
    spec_slew c v (spec_unslewed c (limit (integralLimit c) (dsub v (spec_P c x))) err x).
  Lemma back_bnd v : bnd 200 v -> bnd 402 (dsub v (spec_P c x)).
  Proof.
    intros H. apply (bnd_sub 401); [lia|apply (bnd_weaken 200); [lia|exact H]|].
    destruct (steady_parts v H) as (HP & _). exact HP.
  Qed.
  Lemma rated_step i n : moder c i -> unlimited = false -> out (states i (S (S n))) = rated (out (states i (S n))).
  Proof.
    intros M U. unfold out at 1. rewrite pid_out_form. destruct (states_moder i (S (S n)) M) as (-> & _).
    rewrite states_init, states_error. unfold rated.
    assert (E : lastOutput (states i (S (S n))) = out (states i (S n))).
    { change (states i (S (S n))) with (fst (pid (states i (S n)) (fst x) (snd x))). now rewrite pid_lastOutput. }
    rewrite E. f_equal. f_equal.
    change (states i (S (S n))) with (fst (pid (states i (S n)) (fst x) (snd x))) at 1.
    rewrite pid_integral_form. destruct (states_moder i (S n) M) as (-> & _). rewrite states_init.
    unfold unlimited in U. rewrite U. reflexivity.
  Qed.
  Lemma rated_mono v w : bnd 200 v -> bnd 200 w -> dle v w -> dle (rated v) (rated w).
  Proof.
    intros V W H. assert (Bv := back_bnd v V). assert (Bw := back_bnd w W). unfold rated.
    assert (Lv : bnd 200 (limit (integralLimit c) (dsub v (spec_P c x)))).
    { apply limit_bnd; [apply OL|apply B|apply B|eapply bnd_notnan, Bv]. }
    assert (Lw : bnd 200 (limit (integralLimit c) (dsub w (spec_P c x)))).
    { apply limit_bnd; [apply OL|apply B|apply B|eapply bnd_notnan, Bw]. }
    apply slew_mono; try assumption; try (apply steady_parts; assumption).
    apply unslewed_mono; try assumption. rewrite !limit_clamp. apply clamp_mono; [apply OL|].
    apply dsub_mono; [exact H| |eapply bnd_notnan, Bv|eapply bnd_notnan, Bw].
    destruct (steady_parts v V) as (HP & _). eapply dle_refl, bnd_notnan, HP.
  Qed.
  Lemma rated_bnd v : bnd 200 v -> bnd 200 (rated v).
  Proof.
    intros V. assert (Lv : bnd 200 (limit (integralLimit c) (dsub v (spec_P c x)))).
    { apply limit_bnd; [apply OL|apply B|apply B|eapply bnd_notnan, back_bnd, V]. }
    destruct (steady_parts _ Lv) as (_ & _ & _ & _ & _ & _ & _ & U). unfold rated.
    apply bnd_in_limits. assert (V2 := proj1 (bnd_in_limits _) V). assert (U2 := proj1 (bnd_in_limits _) U).
    destruct (spec_slew_in c _ v _ SL (or_intror V2) (or_intror U2)) as [N|H]; [|exact H].
    assert (N2 := spec_slew_keeps_notnan c v _ (bnd_notnan _ _ U)). unfold notnan in N2. congruence.
  Qed.
  Lemma out_bnd i n : moder c i -> bnd 200 (out (states i n)).
  Proof. intros M. destruct (moder_step c (states i n) x B OL SL Hx Hs (states_moder i n M)) as (_ & H & _). exact H. Qed.
  Lemma rated_orbit i : moder c i -> unlimited = false ->
    ((forall n, dle (out (states i (S n))) (out (states i (S (S n))))) \/
     (forall n, dle (out (states i (S (S n)))) (out (states i (S n))))) /\
    exists n0, deq (out (states i (S n0))) (out (states i (S (S n0)))) /\
      forall n, (n0 <= n)%nat -> deq (out (states i (S n))) (out (states i (S n0))).
  Proof.
    intros M U. split.
    - exact (orbit_way (bnd 200) rated _ _ bnd_dle_range rated_bnd rated_mono
        (fun n => out (states i (S n))) (out_bnd i 1 M) (fun n => rated_step i n M U)).
    - exact (orbit_settles (bnd 200) rated _ _ bnd_dle_range
        (proj1 (Rx_D2_npow 200 ltac:(lia))) (proj1 (Rx_D2_pow 200 ltac:(lia))) rated_bnd rated_mono
        (fun n => out (states i (S n))) (out_bnd i 1 M) (fun n => rated_step i n M U)).
  Qed.

  (** ** Both *)
  Lemma steady_way i : moder c i -> one_way (fun n => out (states i n)).
  Proof.
    intros M. destruct unlimited eqn:U.
    - destruct (free_orbit i M U) as [[W|W] _]; [left|right]; intros [|n] Hn; try lia; rewrite !free_out by assumption;
        (apply unslewed_mono; [apply states_moder; exact M|apply states_moder; exact M|apply W]).
    - destruct (rated_orbit i M U) as [[W|W] _]; [left|right]; intros [|n] Hn; try lia; apply W.
  Qed.
  Lemma steady_rest i : moder c i -> exists v, dfinite v /\ comes_to_rest_at (fun n => out (states i n)) v.
  Proof.
    intros M. destruct unlimited eqn:U.
    - destruct (free_orbit i M U) as [_ (n0 & _ & H)].
      exists (spec_unslewed c (integral (states i n0)) err x).
      assert (Bi : forall n, bnd 200 (integral (states i n))) by (intros n; apply states_moder; exact M).
      split; [eapply bnd_finite, steady_parts, Bi|]. exists (S n0). intros [|n] Hn; [lia|].
      rewrite free_out by assumption. assert (E := H (S n) ltac:(lia)).
      apply dle_antisym; apply unslewed_mono; auto using deq_le, deq_sym.
    - destruct (rated_orbit i M U) as [_ (n0 & _ & H)]. exists (out (states i (S n0))).
      split; [eapply bnd_finite, out_bnd, M|]. exists (S n0). intros [|n] Hn; [lia|]. apply H. lia.
  Qed.
End Steady.

(** ** Controllers *)

(** The input the loop works on, given the one it used last. *)
Definition held_input (c : pidinfo) (last r : dbl) : dbl :=
  if deqb (positiveHysteresis c) d0 && deqb (negativeHysteresis c) d0 then r
  else if negb (disfinite last) then r
  else if dgtb (dsub r last) (positiveHysteresis c) then r
  else if dgtb (dsub last r) (negativeHysteresis c) then r
  else last.
Lemma held_same c r : held_input c r r = r.
Proof.
  unfold held_input. destruct (_ && _); [reflexivity|]. destruct (negb _); [reflexivity|].
  destruct (dgtb _ _); [reflexivity|]. destruct (dgtb _ _); reflexivity.
Qed.
Lemma held_stays c l r : held_input c (held_input c l r) r = held_input c l r.
Proof.
  destruct (deqb (positiveHysteresis c) d0 && deqb (negativeHysteresis c) d0) eqn:E0; [unfold held_input; now rewrite !E0|].
  destruct (negb (disfinite l)) eqn:E1.
  { assert (K : held_input c l r = r) by (unfold held_input; now rewrite E0, E1). rewrite !K. apply held_same. }
  destruct (dgtb (dsub r l) (positiveHysteresis c)) eqn:E2.
  { assert (K : held_input c l r = r) by (unfold held_input; now rewrite E0, E1, E2). rewrite !K. apply held_same. }
  destruct (dgtb (dsub l r) (negativeHysteresis c)) eqn:E3.
  { assert (K : held_input c l r = r) by (unfold held_input; now rewrite E0, E1, E2, E3). rewrite !K. apply held_same. }
  assert (K : held_input c l r = l) by (unfold held_input; now rewrite E0, E1, E2, E3). now rewrite !K.
Qed.
Lemma process_held c st x : checkHysterWithSetpt c = false -> params (pc_info st) = c ->
  pid_process st (snd x) (fst x) =
  (let u := held_input c (pc_lastInput st) (fst x) in
   (PidCtrl (fst (pid (pc_info st) u (snd x))) u, snd (pid (pc_info st) u (snd x)))).
Proof.
  intros C P. unfold pid_process, calPIDOutput, held_input. rewrite P, C.
  destruct (deqb (positiveHysteresis c) d0 && deqb (negativeHysteresis c) d0); reflexivity.
Qed.

Definition ctrl_iter (x : sample) (st : pid_ctrl) (n : nat) : pid_ctrl :=
  fold_left (fun c x => fst (pid_process c (snd x) (fst x))) (repeat x n) st.
Lemma repeat_snoc {A} (x : A) n : repeat x (S n) = repeat x n ++ [x].
Proof. apply repeat_cons. Qed.
Lemma ctrl_iter_S x st n : ctrl_iter x st (S n) = fst (pid_process (ctrl_iter x st n) (snd x) (fst x)).
Proof. unfold ctrl_iter. rewrite repeat_snoc, fold_left_app. reflexivity. Qed.
Lemma steady_iter c h x n : steady c h x n = snd (pid_process (ctrl_iter x (ctrl_state c h) n) (snd x) (fst x)).
Proof. unfold steady, ctrl_out, ctrl_state, ctrl_iter. now rewrite fold_left_app. Qed.

Lemma iter_held c st x : checkHysterWithSetpt c = false -> params (pc_info st) = c ->
  let u := held_input c (pc_lastInput st) (fst x) in
  forall n, params (pc_info (ctrl_iter x st n)) = c /\
    pc_info (ctrl_iter x st n) = states (u, snd x) (pc_info st) n /\
    held_input c (pc_lastInput (ctrl_iter x st n)) (fst x) = u /\
    snd (pid_process (ctrl_iter x st n) (snd x) (fst x)) = out (u, snd x) (states (u, snd x) (pc_info st) n).
Proof.
  intros C P u n. assert (Q : params (pc_info (ctrl_iter x st n)) = c /\
    pc_info (ctrl_iter x st n) = states (u, snd x) (pc_info st) n /\
    held_input c (pc_lastInput (ctrl_iter x st n)) (fst x) = u).
  { induction n as [|n (P1 & E & L)]; [now repeat split|].
    rewrite ctrl_iter_S, (process_held c _ x C P1). cbn [fst snd pc_info pc_lastInput]. rewrite L.
    split; [now rewrite pid_params|]. split; [cbn [states fst snd]; now rewrite E|apply held_stays]. }
  destruct Q as (P1 & E & L). split; [exact P1|]. split; [exact E|]. split; [exact L|].
  rewrite (process_held c _ x C P1). cbn [fst snd]. rewrite L, E. reflexivity.
Qed.

(** Setpoint hysteresis: what happens is decided by the sample. *)
Lemma iter_above c st x : checkHysterWithSetpt c = true -> params (pc_info st) = c ->
  dgtb (fst x) (dadd (snd x) (positiveHysteresis c)) = true ->
  forall n, params (pc_info (ctrl_iter x st n)) = c /\
    pc_info (ctrl_iter x st n) = states x (pc_info st) n /\
    snd (pid_process (ctrl_iter x st n) (snd x) (fst x)) = out x (states x (pc_info st) n).
Proof.
  intros C P G n.
  assert (PR : forall st', params (pc_info st') = c -> pid_process st' (snd x) (fst x) =
    (PidCtrl (fst (pid (pc_info st') (fst x) (snd x))) (fst x), snd (pid (pc_info st') (fst x) (snd x)))).
  { intros st' P'. unfold pid_process, calPIDOutput. rewrite P', C, G. reflexivity. }
  assert (Q : params (pc_info (ctrl_iter x st n)) = c /\ pc_info (ctrl_iter x st n) = states x (pc_info st) n).
  { induction n as [|n (P1 & E)]; [now split|]. rewrite ctrl_iter_S, (PR _ P1). cbn [fst snd pc_info].
    split; [now rewrite pid_params|]. cbn [states]. now rewrite E. }
  destruct Q as (P1 & E). split; [exact P1|]. split; [exact E|]. rewrite (PR _ P1). cbn [snd]. now rewrite E.
Qed.
Lemma iter_below c st x : checkHysterWithSetpt c = true -> params (pc_info st) = c ->
  dgtb (fst x) (dadd (snd x) (positiveHysteresis c)) = false ->
  dltb (fst x) (dsub (snd x) (negativeHysteresis c)) = true ->
  forall n, params (pc_info (ctrl_iter x st n)) = c /\ snd (pid_process (ctrl_iter x st n) (snd x) (fst x)) = d0.
Proof.
  intros C P G L n.
  assert (PR : forall st', params (pc_info st') = c -> params (pc_info (fst (pid_process st' (snd x) (fst x)))) = c /\
    snd (pid_process st' (snd x) (fst x)) = d0).
  { intros st' P'. unfold pid_process, calPIDOutput. rewrite P', C, G, L. now split. }
  assert (Q : params (pc_info (ctrl_iter x st n)) = c).
  { induction n as [|n IH]; [exact P|]. rewrite ctrl_iter_S. now apply PR. }
  split; [exact Q|]. now apply PR.
Qed.
Lemma iter_between c st x : checkHysterWithSetpt c = true -> params (pc_info st) = c ->
  dgtb (fst x) (dadd (snd x) (positiveHysteresis c)) = false ->
  dltb (fst x) (dsub (snd x) (negativeHysteresis c)) = false ->
  forall n, (params (pc_info (ctrl_iter x st n)) = c /\ lastOutput (pc_info (ctrl_iter x st n)) = lastOutput (pc_info st)) /\
    snd (pid_process (ctrl_iter x st n) (snd x) (fst x)) = lastOutput (pc_info st).
Proof.
  intros C P G L n.
  assert (PR : forall st', params (pc_info st') = c -> params (pc_info (fst (pid_process st' (snd x) (fst x)))) = c /\
    lastOutput (pc_info (fst (pid_process st' (snd x) (fst x)))) = lastOutput (pc_info st') /\
    snd (pid_process st' (snd x) (fst x)) = lastOutput (pc_info st')).
  { intros st' P'. unfold pid_process, calPIDOutput. rewrite P', C, G, L. now repeat split. }
  assert (Q : params (pc_info (ctrl_iter x st n)) = c /\ lastOutput (pc_info (ctrl_iter x st n)) = lastOutput (pc_info st)).
  { induction n as [|n [P1 E]]; [now split|]. rewrite ctrl_iter_S. destruct (PR _ P1) as (A1 & A2 & _). now rewrite A1, A2. }
  destruct Q as [P1 E]. split; [now split|]. destruct (PR _ P1) as (_ & _ & A). now rewrite A.
Qed.

(** The state of a controller after any history. *)
Definition cmoder (c : pidinfo) (st : pid_ctrl) : Prop :=
  moder c (pc_info st) /\ (disfinite (pc_lastInput st) = true -> bnd 200 (pc_lastInput st)).
Lemma held_bnd c st r : cmoder c st -> bnd 200 r -> bnd 200 (held_input c (pc_lastInput st) r).
Proof.
  intros [_ L] R. unfold held_input. destruct (_ && _); [exact R|].
  destruct (disfinite (pc_lastInput st)) eqn:F; cbn [negb]; [|exact R].
  destruct (dgtb _ _); [exact R|]. destruct (dgtb _ _); [exact R|]. now apply L.
Qed.
Lemma cmoder_step c st x : bounded c -> ordered_limits c -> sane_slew c -> bnd 200 (fst x) -> bnd 200 (snd x) ->
  cmoder c st -> cmoder c (fst (pid_process st (snd x) (fst x))).
Proof.
  intros B OL SL Hx Hs M. assert (P := proj1 (proj1 M)). destruct (checkHysterWithSetpt c) eqn:C.
  - destruct (dgtb (fst x) (dadd (snd x) (positiveHysteresis c))) eqn:G.
    + assert (E : pid_process st (snd x) (fst x) =
        (PidCtrl (fst (pid (pc_info st) (fst x) (snd x))) (fst x), snd (pid (pc_info st) (fst x) (snd x)))).
      { unfold pid_process, calPIDOutput. rewrite P, C, G. reflexivity. }
      rewrite E. split; [|now intros _]. cbn [fst pc_info].
      destruct (moder_step c _ x B OL SL Hx Hs (proj1 M)) as (_ & _ & K). exact K.
    + destruct (dltb (fst x) (dsub (snd x) (negativeHysteresis c))) eqn:L.
      * assert (E : fst (pid_process st (snd x) (fst x)) =
          PidCtrl (PidInfoT (initialized (pc_info st)) d0 d0 (lastError (pc_info st)) c) (snd x)).
        { unfold pid_process, calPIDOutput. rewrite P, C, G, L. reflexivity. }
        rewrite E. destruct M as [(_ & _ & M3 & _) _].
        split; [|now intros _]. split; [reflexivity|]. split; [apply bnd_d0|]. split; [exact M3|apply bnd_d0].
      * assert (E : fst (pid_process st (snd x) (fst x)) =
          PidCtrl (PidInfoT (initialized (pc_info st)) (integral (pc_info st)) (lastOutput (pc_info st)) (lastError (pc_info st)) c) (fst x)).
        { unfold pid_process, calPIDOutput. rewrite P, C, G, L. cbn. now rewrite P. }
        rewrite E. destruct M as [(_ & M2 & M3 & M4) _].
        split; [|now intros _]. split; [reflexivity|]. now split.
  - rewrite (process_held c st x C P). cbn [fst]. assert (H := held_bnd c st (fst x) M Hx).
    split; [|now intros _]. cbn [pc_info].
    destruct (moder_step c (pc_info st) (held_input c (pc_lastInput st) (fst x), snd x) B OL SL H Hs (proj1 M)) as (_ & _ & K). exact K.
Qed.
Lemma cmoder_state c h : bounded c -> ordered_limits c -> sane_slew c -> Forall bounded_sample h -> cmoder c (ctrl_state c h).
Proof.
  intros B OL SL. induction h as [|x h IH] using rev_ind; intros F.
  - split; [|intros H; discriminate H]. split; [apply init_params|]. split; [apply bnd_d0|]. split; apply bnd_d0.
  - apply Forall_app in F. destruct F as [F1 F2]. inversion F2 as [|? ? [X1 X2] _]; subst.
    rewrite ctrl_state_app. apply cmoder_step; auto; (apply mag_le_bnd; [lia|assumption]).
Qed.

Lemma slews_bnd c : bounded_cfg c -> bnd 200 (slewNeg c) /\ bnd 200 (slewPos c).
Proof.
  intros [H _]. repeat match goal with H : Forall _ (_ :: _) |- _ => inversion H; clear H; subst end.
  split; (apply mag_le_bnd; [lia|assumption]).
Qed.
Lemma constant_rests (s : nat -> dbl) v : dfinite v -> (forall n, s n = v) ->
  one_way s /\ exists v, dfinite v /\ comes_to_rest_at s v.
Proof.
  intros F E. assert (N := finite_notnan _ F). split.
  - left. intros n _. rewrite !E. now apply dle_refl.
  - exists v. split; [exact F|]. exists 0%nat. intros n _. rewrite E. now apply deq_refl.
Qed.
Lemma same_rests (s t : nat -> dbl) : (forall n, s n = t n) -> one_way t -> (exists v, dfinite v /\ comes_to_rest_at t v) ->
  one_way s /\ exists v, dfinite v /\ comes_to_rest_at s v.
Proof.
  intros E W (v & F & n0 & R). split.
  - destruct W as [W|W]; [left|right]; intros n Hn; rewrite !E; auto.
  - exists v. split; [exact F|]. exists n0. intros n Hn. rewrite E. auto.
Qed.

Lemma rests_from c st x : bounded_cfg c -> ordered_limits c -> sane_slew c -> bnd 200 (fst x) -> bnd 200 (snd x) ->
  cmoder c st ->
  let s n := snd (pid_process (ctrl_iter x st n) (snd x) (fst x)) in
  one_way s /\ exists v, dfinite v /\ comes_to_rest_at s v.
Proof.
  intros BC OL SL Hx Hs M s. assert (B := bounded_cfg_bounded c BC). destruct (slews_bnd c BC) as [BN BP].
  assert (P := proj1 (proj1 M)).
  destruct (checkHysterWithSetpt c) eqn:C.
  - destruct (dgtb (fst x) (dadd (snd x) (positiveHysteresis c))) eqn:G.
    + apply (same_rests _ (fun n => out x (states x (pc_info st) n))).
      * intros n. now apply (iter_above c _ x C P G).
      * apply (steady_way c); auto; apply M.
      * apply (steady_rest c); auto; apply M.
    + destruct (dltb (fst x) (dsub (snd x) (negativeHysteresis c))) eqn:L.
      * apply (constant_rests _ d0); [reflexivity|]. intros n. now apply (iter_below c _ x C P G L).
      * apply (constant_rests _ (lastOutput (pc_info st))); [eapply bnd_finite; apply M|].
        intros n. now apply (iter_between c _ x C P G L).
  - set (u := held_input c (pc_lastInput st) (fst x)).
    assert (U : bnd 200 u) by (apply held_bnd; assumption).
    apply (same_rests _ (fun n => out (u, snd x) (states (u, snd x) (pc_info st) n))).
    + intros n. now apply (iter_held c _ x C P).
    + apply (steady_way c); auto; apply M.
    + apply (steady_rest c); auto; apply M.
Qed.
Lemma C106_rest_lemma c h x : bounded_cfg c -> ordered_limits c -> sane_slew c -> Forall bounded_sample (h ++ [x]) ->
  one_way (steady c h x) /\ exists v, dfinite v /\ comes_to_rest_at (steady c h x) v.
Proof.
  intros BC OL SL F. assert (B := bounded_cfg_bounded c BC).
  apply Forall_app in F. destruct F as [F1 F2]. inversion F2 as [|? ? [X1 X2] _]; subst.
  assert (Hx : bnd 200 (fst x)) by (apply mag_le_bnd; [lia|assumption]).
  assert (Hs : bnd 200 (snd x)) by (apply mag_le_bnd; [lia|assumption]).
  destruct (rests_from c (ctrl_state c h) x BC OL SL Hx Hs (cmoder_state c h B OL SL F1)) as [W R].
  apply (same_rests _ (fun n => snd (pid_process (ctrl_iter x (ctrl_state c h) n) (snd x) (fst x)))); auto.
  intros n. apply steady_iter.
Qed.

(** ** Where a rate limit leads *)
Lemma spec_I_none c mi x : deq (integralCoeff c) d0 -> spec_I c mi x = d0.
Proof. intros K. unfold spec_I. now rewrite K. Qed.
Lemma states_out c x i n : moder c (states x i (S n)) -> deq (integralCoeff c) d0 -> forall mi,
  out x (states x i (S n)) = spec_slew c (out x (states x i n)) (spec_unslewed c mi (dsub (snd x) (fst x)) x).
Proof.
  intros (P & _) K mi. unfold out at 1. rewrite pid_out_form. cbv zeta. rewrite P.
  change (initialized (states x i (S n))) with true. cbv iota.
  assert (E : lastOutput (states x i (S n)) = out x (states x i n)).
  { cbn [states]. now rewrite pid_lastOutput. }
  rewrite E. f_equal. unfold spec_unslewed. rewrite !(spec_I_none c) by exact K. reflexivity.
Qed.

Section Rate.
  Variables (c : pidinfo) (p t : dbl).
  Hypothesis (Np : notnan p) (Nt : notnan t)
    (UP : deq (slewPos c) d0 \/ dlt p (dadd p (largest_rise c)))
    (DN : deq (slewNeg c) d0 \/ dlt (dadd p (largest_fall c)) p).

  Lemma slew_cases : spec_slew c p t = t \/
    dlt p t /\ spec_slew c p t = dadd p (largest_rise c) /\ dlt p (dadd p (largest_rise c)) \/
    dlt t p /\ spec_slew c p t = dadd p (largest_fall c) /\ dlt (dadd p (largest_fall c)) p.
  Proof.
    unfold spec_slew. fold (largest_rise c) (largest_fall c).
    assert (UP' : deqb (slewPos c) d0 = true \/ deqb (slewPos c) d0 = false /\ dlt p (dadd p (largest_rise c))).
    { destruct (deqb (slewPos c) d0) eqn:E; [now left|]. right. split; [reflexivity|]. destruct UP as [U|U]; [|exact U]. unfold deq in U. congruence. }
    assert (DN' : deqb (slewNeg c) d0 = true \/ deqb (slewNeg c) d0 = false /\ dlt (dadd p (largest_fall c)) p).
    { destruct (deqb (slewNeg c) d0) eqn:E; [now left|]. right. split; [reflexivity|]. destruct DN as [U|U]; [|exact U]. unfold deq in U. congruence. }
    assert (HI : forall a, dle a p -> deqb (slewPos c) d0 = false -> dlt p (dadd p (largest_rise c)) ->
      dmin a (dadd p (largest_rise c)) = a).
    { intros a A _ U. unfold dmin. destruct (dltb (dadd p (largest_rise c)) a) eqn:E; [|reflexivity].
      exfalso. apply (dlt_irrefl p). apply dlt_le_trans with (dadd p (largest_rise c)); [exact U|].
      apply dle_trans with a; [now apply dlt_dle|exact A]. }
    assert (TOP : spec_slew c p t = t \/ True) by now right. clear TOP.
    destruct DN' as [DN'|[DN' DL]]; rewrite DN'; destruct UP' as [UP'|[UP' UL]]; rewrite UP'.
    - now left.
    - unfold dmin. destruct (dltb (dadd p (largest_rise c)) t) eqn:E; [|now left].
      right. left. split; [|now split]. eapply dlt_le_trans; [exact UL|]. now apply dlt_dle.
    - unfold dmax. destruct (dltb t (dadd p (largest_fall c))) eqn:E; [|now left].
      right. right. split; [|now split]. eapply dle_lt_trans; [|exact DL]. now apply dlt_dle.
    - unfold dmax. destruct (dltb t (dadd p (largest_fall c))) eqn:E.
      + right. right. split; [eapply dle_lt_trans; [|exact DL]; now apply dlt_dle|]. split; [|exact DL].
        apply HI; auto using dlt_dle.
      + unfold dmin. destruct (dltb (dadd p (largest_rise c)) t) eqn:E2; [|now left].
        right. left. split; [|now split]. eapply dlt_le_trans; [exact UL|]. now apply dlt_dle.
  Qed.
  Lemma slew_fixed : deq (spec_slew c p t) p -> deq p t.
  Proof.
    intros E. destruct slew_cases as [K|[(A & K & L)|(A & K & L)]]; rewrite K in E.
    - now apply deq_sym.
    - exfalso. apply (dlt_irrefl p). eapply dlt_le_trans; [exact L|now apply deq_le].
    - exfalso. apply (dlt_irrefl p). eapply dle_lt_trans; [|exact L]. apply deq_le. now apply deq_sym.
  Qed.
End Rate.

Lemma last_input_same c c' h : checkHysterWithSetpt c = false -> checkHysterWithSetpt c' = false ->
  positiveHysteresis c = positiveHysteresis c' -> negativeHysteresis c = negativeHysteresis c' ->
  pc_lastInput (ctrl_state c h) = pc_lastInput (ctrl_state c' h).
Proof.
  intros C C' P N. induction h as [|x h IH] using rev_ind; [reflexivity|].
  rewrite !ctrl_state_app, (process_held c _ x C (ctrl_params c h)), (process_held c' _ x C' (ctrl_params c' h)).
  cbn [fst pc_lastInput]. rewrite IH. unfold held_input. now rewrite P, N.
Qed.
Lemma without_bounded c : bounded_cfg c -> bounded_cfg (without_rate_limits c).
Proof.
  intros [H T]. split; [|exact T].
  repeat match goal with H : Forall _ (_ :: _) |- _ => inversion H; clear H; subst end.
  assert (Z : mag_le 200 d0) by (split; [reflexivity|split; vm_compute; reflexivity]).
  repeat (apply Forall_cons; [assumption|]). apply Forall_nil.
Qed.
Lemma without_sane c : bounded_cfg c -> sane_slew (without_rate_limits c).
Proof.
  intros H. apply unlimited_sane; [now apply without_bounded|]. split; reflexivity.
Qed.

Lemma steady_step c h x : bounded_cfg c -> ordered_limits c -> sane_slew c -> Forall bounded_sample (h ++ [x]) ->
  checkHysterWithSetpt c = false -> deq (integralCoeff c) d0 ->
  let t := steady (without_rate_limits c) h x 1 in
  bnd 200 t /\ (forall n, bnd 200 (steady c h x n)) /\ forall n, steady c h x (S n) = spec_slew c (steady c h x n) t.
Proof.
  intros BC OL SL F C K t. assert (B := bounded_cfg_bounded c BC).
  apply Forall_app in F. destruct F as [F1 F2]. inversion F2 as [|? ? [X1 X2] _]; subst.
  assert (Hx : bnd 200 (fst x)) by (apply mag_le_bnd; [lia|assumption]).
  assert (Hs : bnd 200 (snd x)) by (apply mag_le_bnd; [lia|assumption]).
  assert (M := cmoder_state c h B OL SL F1). assert (P := proj1 (proj1 M)).
  set (u := held_input c (pc_lastInput (ctrl_state c h)) (fst x)).
  assert (U : bnd 200 u) by (apply held_bnd; assumption).
  assert (ST : forall n, steady c h x n = out (u, snd x) (states (u, snd x) (pc_info (ctrl_state c h)) n)).
  { intros n. rewrite steady_iter. now apply (iter_held c _ x C P). }
  set (goal := spec_unslewed c d0 (dsub (snd x) u) (u, snd x)).
  assert (TT : t = goal).
  { set (w := without_rate_limits c) in *.
    assert (Bw := bounded_cfg_bounded w (without_bounded c BC)).
    assert (Mw := cmoder_state w h Bw OL (without_sane c BC) F1). assert (Pw := proj1 (proj1 Mw)).
    unfold t. rewrite steady_iter.
    destruct (iter_held w (ctrl_state w h) x C Pw 1) as (_ & _ & _ & E). rewrite E.
    assert (LI : pc_lastInput (ctrl_state w h) = pc_lastInput (ctrl_state c h)) by (apply last_input_same; auto).
    assert (HI : held_input w (pc_lastInput (ctrl_state w h)) (fst x) = u) by (rewrite LI; reflexivity).
    rewrite HI. rewrite (states_out w (u, snd x) _ 0) with (mi := d0); [reflexivity| |exact K].
    apply (states_moder w); auto; [apply (without_sane c BC)|apply Mw]. }
  split; [|split].
  - rewrite TT. unfold goal. apply (steady_parts c (u, snd x) B OL U Hs). apply bnd_d0.
  - intros n. rewrite ST. apply (out_bnd c (u, snd x)); auto. apply M.
  - intros n. rewrite !ST, TT. apply (states_out c (u, snd x)); [|exact K]. apply (states_moder c); auto. apply M.
Qed.

Lemma C106_rate_lemma c h x : bounded_cfg c -> ordered_limits c -> sane_slew c -> Forall bounded_sample (h ++ [x]) ->
  checkHysterWithSetpt c = false -> deq (integralCoeff c) d0 -> visible_rates c ->
  let t := steady (without_rate_limits c) h x 1 in
  comes_to_rest_at (steady c h x) t /\
  forall n, steady c h x (S n) = t \/
    dlt (steady c h x n) t /\ steady c h x (S n) = dadd (steady c h x n) (largest_rise c) \/
    dlt t (steady c h x n) /\ steady c h x (S n) = dadd (steady c h x n) (largest_fall c).
Proof.
  intros BC OL SL F C K V t. destruct (steady_step c h x BC OL SL F C K) as (Bt & OUT & STEP). fold t in Bt, STEP.
  assert (Nt := bnd_notnan _ _ Bt).
  assert (NO : forall n, notnan (steady c h x n)) by (intros n; eapply bnd_notnan, OUT).
  assert (IN : forall n, in_limits (outLim c) (steady c h x n)).
  { intros n. destruct (ctrl_output_in_limits c (h ++ repeat x n) x C (proj2 OL) SL) as [N|I']; [|exact I'].
    specialize (NO n). unfold notnan, steady in NO. congruence. }
  split.
  - destruct (C106_rest_lemma c h x BC OL SL F) as [_ (v & Fv & n0 & R)].
    assert (E0 := R n0 (le_n _)). assert (E1 := R (S n0) (le_S _ _ (le_n _))).
    assert (E : deq (steady c h x n0) t).
    { apply (slew_fixed c); auto; [apply V, IN|apply V, IN|]. rewrite <- STEP. eapply deq_trans; [exact E1|]. now apply deq_sym. }
    exists n0. intros n Hn. eapply deq_trans; [apply R, Hn|]. eapply deq_trans; [apply deq_sym, E0|exact E].
  - intros n. rewrite STEP. destruct (slew_cases c (steady c h x n) t) as [Q|[(Q1 & Q2 & _)|(Q1 & Q2 & _)]]; auto; apply V, IN.
Qed.

(** A rate that changes nothing keeps the output for ever. *)
Lemma stuck_lemma c h x v : bounded_cfg c -> ordered_limits c -> sane_slew c -> Forall bounded_sample (h ++ [x]) ->
  checkHysterWithSetpt c = false -> deq (integralCoeff c) d0 ->
  deq (steady c h x 0) v -> deq (spec_slew c v (steady (without_rate_limits c) h x 1)) v ->
  forall n, deq (steady c h x n) v.
Proof.
  intros BC OL SL F C K E0 E n. destruct (steady_step c h x BC OL SL F C K) as (Bt & OUT & STEP).
  destruct (slews_bnd c BC) as [BN BP]. assert (B := bounded_cfg_bounded c BC).
  assert (Bv : bnd 200 v).
  { specialize (OUT 0%nat). assert (E0' := deq_sym _ _ E0). apply deq_iff in E0'. destruct E0' as (Nv & _ & Ev). destruct OUT as [Fo Bo].
    split; [|now rewrite Ev]. apply finite_iff_Rx; [exact Nv|]. rewrite Ev. now apply Rx_finite_bound. }
  induction n as [|n IH]; [exact E0|]. rewrite STEP. eapply deq_trans; [|exact E].
  assert (Nt := bnd_notnan _ _ Bt).
  apply dle_antisym; apply slew_mono; auto using deq_le, deq_sym, dle_refl.
Qed.

(** ** Visible changes *)
Lemma real_up k v r : (-1000 <= k <= 200)%Z -> generic_format radix2 (FLT_exp (-1074) 53) v ->
  (Rabs v <= bpow radix2 k)%R -> (bpow radix2 (k - 52) <= r)%R -> (v < RN (v + r))%R.
Proof.
  intros Hk G Bv R. assert (V1 : Valid_exp (FLT_exp (-1074) 53)) by (apply FLT_exp_valid; reflexivity).
  assert (P1 := bpow_gt_0 radix2 (k - 52)).
  destruct (Req_dec v 0) as [->|N].
  { rewrite Rplus_0_l. apply Rlt_le_trans with (bpow radix2 (k - 52)); [exact P1|].
    rewrite <- (RN_bpow (k - 52)) by lia. now apply RN_mono. }
  apply Rlt_le_trans with (succ radix2 (FLT_exp (-1074) 53) v); [now apply succ_gt_id|].
  assert (Gw : generic_format radix2 (FLT_exp (-1074) 53) (succ radix2 (FLT_exp (-1074) 53) v)) by (apply generic_format_succ; assumption).
  assert (E : RN (succ radix2 (FLT_exp (-1074) 53) v) = succ radix2 (FLT_exp (-1074) 53) v).
  { unfold RN. apply round_generic; [apply valid_rnd_N|exact Gw]. }
  rewrite <- E. apply RN_mono.
  apply Rle_trans with (v + ulp radix2 (FLT_exp (-1074) 53) v)%R; [apply succ_le_plus_ulp; apply FLT_exp_monotone|].
  apply Rplus_le_compat_l. apply Rle_trans with (bpow radix2 (k - 52)); [|exact R].
  apply Rle_trans with (ulp radix2 (FLT_exp (-1074) 53) (bpow radix2 k)).
  { apply ulp_le; [exact V1|apply FLT_exp_monotone|]. rewrite (Rabs_pos_eq (bpow radix2 k)); [exact Bv|apply bpow_ge_0]. }
  rewrite ulp_bpow. apply bpow_le. unfold FLT_exp. lia.
Qed.
Lemma finite_format v : dfinite v -> generic_format radix2 (FLT_exp (-1074) 53) (Rx v).
Proof. intros F. rewrite (Rx_finite v F). exact (BinarySingleNaN.generic_format_B2R 53 1024 v). Qed.
Lemma clip_sum k v r : (-1000 <= k <= 200)%Z -> bnd k v -> bnd 601 r ->
  notnan (dadd v r) /\ Rx (dadd v r) = RN (Rx v + Rx r).
Proof.
  intros Hk Bv Br. destruct (dadd_Rx v r (bnd_finite _ _ Bv) (bnd_finite _ _ Br)) as [N E]. split; [exact N|].
  rewrite E. apply clip_id. apply Rle_lt_trans with (bpow radix2 602); [|apply bpow_lt; lia].
  apply RN_abs_le; [lia|]. destruct Bv as [_ Bv]. destruct Br as [_ Br].
  apply Rle_trans with (Rabs (Rx v) + Rabs (Rx r))%R; [apply Rabs_triang|].
  assert (L : (bpow radix2 k <= bpow radix2 601)%R) by (apply bpow_le; lia). change (bpow radix2 602) with (bpow radix2 (601 + 1)). rewrite (bpow_S 601). lra.
Qed.
Lemma visible_up k v r : (-1000 <= k <= 200)%Z -> bnd k v -> bnd 601 r -> dle (D2 1 (k - 52)) r -> dlt v (dadd v r).
Proof.
  intros Hk Bv Br R. destruct (Rx_D2_pow (k - 52) ltac:(lia)) as [_ E]. apply dle_iff in R. rewrite E in R. destruct R as (_ & _ & R).
  destruct (clip_sum k v r Hk Bv Br) as [N S1]. apply dlt_iff. split; [eapply bnd_notnan, Bv|]. split; [exact N|].
  rewrite S1. apply (real_up k); [exact Hk|apply finite_format, Bv|apply Bv|exact R].
Qed.
Lemma visible_down k v r : (-1000 <= k <= 200)%Z -> bnd k v -> bnd 601 r -> dle r (D2 (-1) (k - 52)) -> dlt (dadd v r) v.
Proof.
  intros Hk Bv Br R. destruct (Rx_D2_npow (k - 52) ltac:(lia)) as [_ E]. apply dle_iff in R. rewrite E in R. destruct R as (_ & _ & R).
  destruct (clip_sum k v r Hk Bv Br) as [N S1]. apply dlt_iff. split; [exact N|]. split; [eapply bnd_notnan, Bv|].
  rewrite S1. assert (Q := real_up k (- Rx v)%R (- Rx r)%R Hk (generic_format_opp _ _ _ (finite_format v (bnd_finite _ _ Bv)))).
  rewrite Rabs_Ropp in Q. specialize (Q (proj2 Bv) ltac:(lra)).
  replace (- Rx v + - Rx r)%R with (- (Rx v + Rx r))%R in Q by lra. rewrite RN_opp in Q. lra.
Qed.
Lemma mag_between k l v : (-1000 <= k <= 200)%Z -> mag_le k (lim_min l) -> mag_le k (lim_max l) -> in_limits l v -> bnd k v.
Proof. intros Hk A B [C D]. eapply bnd_between; [| |exact C|exact D]; (apply mag_le_bnd; [lia|assumption]). Qed.
Lemma clear_rates_visible k c : (-1000 <= k <= 200)%Z -> bounded_cfg c -> clear_rates k c -> visible_rates c.
Proof.
  intros Hk BC (M1 & M2 & UP & DN) v IN. assert (Bv := mag_between k _ v Hk M1 M2 IN).
  assert (B := bounded_cfg_bounded c BC). destruct (slews_bnd c BC) as [BN BP].
  assert (R : forall r, bnd 200 r -> bnd 601 (dmul r (ts c))).
  { intros r Br. apply (bnd_weaken 400); [lia|]. apply (bnd_mul 200 200); [lia|exact Br|apply B]. }
  split.
  - destruct UP as [U|U]; [now left|right]. apply (visible_up k); try assumption; apply R; assumption.
  - destruct DN as [U|U]; [now left|right]. apply (visible_down k); try assumption; apply R; assumption.
Qed.
Lemma clear_gain_visible up k c x : (-1000 <= k <= 200)%Z -> bounded_cfg c -> bounded_sample x -> clear_gain up k c x -> visible_gain up c x.
Proof.
  intros Hk BC [X1 X2] (M1 & M2 & G) v IN. assert (Bv := mag_between k _ v Hk M1 M2 IN).
  assert (B := bounded_cfg_bounded c BC).
  assert (BG : bnd 601 (gain c x)) by (apply gain_bnd; auto; (apply mag_le_bnd; [lia|assumption])).
  destruct up; [apply (visible_up k)|apply (visible_down k)]; auto.
Qed.

(** ** Where the integral leads *)
Lemma dadd_zero y z : dfinite y -> deq z d0 -> deq (dadd y z) y.
Proof.
  intros Fy E. assert (Fz : dfinite z).
  { destruct z as [s|s| |s m e Hz]; try reflexivity; try discriminate E; destruct s; discriminate E. }
  destruct (dadd_Rx y z Fy Fz) as [N R]. apply deq_iff in E. destruct E as (_ & _ & E).
  apply deq_iff. split; [exact N|]. split; [now apply finite_notnan|].
  rewrite R, E, Rx_d0, Rplus_0_r, (Rx_finite y Fy). apply clip_RN_B2R.
Qed.
Lemma steady_D c x : bounded c -> bnd 200 (fst x) -> bnd 200 (snd x) -> deq (spec_D c (dsub (snd x) (fst x)) x) d0.
Proof.
  intros B Hx Hs. unfold spec_D. set (e := dsub (snd x) (fst x)).
  assert (He : dfinite e) by (eapply bnd_finite; apply (bnd_sub 200); [lia|exact Hs|exact Hx]).
  destruct (dsub_Rx e e He He) as [N1 R1]. replace (Rx e - Rx e)%R with 0%R in R1 by lra. rewrite clip_RN_0 in R1.
  assert (F1 : dfinite (dsub e e)) by (apply finite_iff_Rx; [exact N1|]; rewrite R1; assert (G := big_pos); lra).
  assert (Ft : dfinite (ts c)) by (eapply bnd_finite; apply B).
  assert (Pt : (0 < Rx (ts c))%R) by (assert (L := b_ts_low c B); assert (G := bpow_gt_0 radix2 (-100)); lra).
  destruct (ddiv_Rx (dsub e e) (ts c) F1 Ft ltac:(lra)) as [N2 R2].
  rewrite R1 in R2. replace (0 / Rx (ts c))%R with 0%R in R2 by (unfold Rdiv; lra). rewrite clip_RN_0 in R2.
  assert (F2 : dfinite (ddiv (dsub e e) (ts c))) by (apply finite_iff_Rx; [exact N2|]; rewrite R2; assert (G := big_pos); lra).
  assert (Fd : dfinite (derivativeCoeff c)) by (eapply bnd_finite; apply B).
  destruct (dmul_Rx (derivativeCoeff c) _ Fd F2) as [N3 R3]. rewrite R2, Rmult_0_r, clip_RN_0 in R3.
  apply deq_iff. split; [exact N3|]. split; [reflexivity|]. now rewrite R3, Rx_d0.
Qed.

Lemma C106_saturates_lemma up c h x : bounded_cfg c -> ordered_limits c -> unlimited_rate c -> no_hysteresis c ->
  Forall bounded_sample (h ++ [x]) -> visible_gain up c x -> comes_to_rest_at (steady c h x) (saturated up c x).
Proof.
  intros BC OL UR (C & H1 & H2) F V. assert (B := bounded_cfg_bounded c BC).
  destruct (slews_bnd c BC) as [BN BP]. destruct (unlimited_sane c BC UR) as [SL T].
  apply Forall_app in F. destruct F as [F1 F2]. inversion F2 as [|? ? [X1 X2] _]; subst.
  assert (Hx : bnd 200 (fst x)) by (apply mag_le_bnd; [lia|assumption]).
  assert (Hs : bnd 200 (snd x)) by (apply mag_le_bnd; [lia|assumption]).
  assert (M := cmoder_state c h B OL SL F1). assert (P := proj1 (proj1 M)).
  assert (HI : held_input c (pc_lastInput (ctrl_state c h)) (fst x) = fst x) by (unfold held_input; now rewrite H1, H2).
  set (i := pc_info (ctrl_state c h)) in *.
  assert (ST : forall n, steady c h x n = out x (states x i n)).
  { intros n. rewrite steady_iter. destruct (iter_held c _ x C P n) as (_ & _ & _ & E). rewrite E, HI. now destruct x. }
  assert (MI : moder c i) by apply M.
  assert (UL : unlimited c = true) by (unfold unlimited; destruct UR as [-> ->]; reflexivity).
  set (L := integralLimit c) in *.
  assert (BI : forall n, bnd 200 (integral (states x i n))) by (intros n; apply (states_moder c); auto).
  assert (BG : forall v, bnd 200 v -> notnan (dadd v (gain c x))).
  { intros v Hv. apply (bnd_notnan 602). apply (bnd_add 601); [lia|apply (bnd_weaken 200); [lia|exact Hv]|now apply gain_bnd]. }
  assert (BL : bnd 200 (if up then lim_max L else lim_min L)) by (destruct up; apply B).
  assert (LIM : in_limits L (lim_min L) /\ in_limits L (lim_max L)).
  { destruct OL as [OI _]. destruct (dle_notnan _ _ OI) as [N1 N2]. split; split; auto using dle_refl. }
  assert (KI : deqb (integralCoeff c) d0 = false).
  { destruct (deqb (integralCoeff c) d0) eqn:E; [|reflexivity]. exfalso.
    assert (Z : deq (gain c x) d0).
    { assert (Q : deq (dmul (dsub (snd x) (fst x)) (integralCoeff c)) d0).
      { assert (Ne : bnd 401 (dmul (dsub (snd x) (fst x)) (integralCoeff c))).
        { apply (bnd_mul 201 200); [lia| |apply B]. apply (bnd_sub 200); [lia|exact Hs|exact Hx]. }
        destruct (dmul_comm_Rx _ _ (bnd_notnan _ _ Ne)) as [N R].
        assert (Z := zero_dmul _ _ E N). apply deq_iff in Z. apply deq_iff.
        split; [eapply bnd_notnan, Ne|]. split; [reflexivity|]. rewrite <- R. tauto. }
      apply zero_dmul; [exact Q|]. eapply bnd_notnan. now apply gain_bnd. }
    specialize (V _ (proj1 LIM)).
    assert (Q := dadd_zero (lim_min L) (gain c x) (bnd_finite _ _ (b_imin c B)) Z).
    destruct up.
    - apply (dlt_irrefl (lim_min L)). eapply dlt_le_trans; [exact V|now apply deq_le].
    - apply (dlt_irrefl (lim_min L)). eapply dle_lt_trans; [|exact V]. apply deq_le. now apply deq_sym. }
  assert (SI : forall v, spec_I c v x = limit L (dadd v (gain c x))) by (intros v; unfold spec_I; now rewrite KI).
  assert (NEXT : forall n, integral (states x i (S n)) = limit L (limit L (dadd (integral (states x i n)) (gain c x)))).
  { intros n. rewrite (free_integral c x); auto. now rewrite SI. }
  assert (INL : forall n, in_limits L (integral (states x i (S n)))).
  { intros n. rewrite NEXT, limit_clamp. match goal with |- in_limits _ (clamp ?y _ _) => destruct (clamp_in L y (proj1 OL)) as [N|Q] end; [|exact Q].
    exfalso. assert (Q := bnd_notnan _ _ (BI (S n))). rewrite NEXT, limit_clamp in Q. unfold notnan in Q. congruence. }
  (* once at rest, the integral is at its limit *)
  destruct (free_orbit c x B OL SL Hx Hs i MI UL) as [_ (n0 & _ & R)].
  assert (SAT : forall n, (S n0 <= n)%nat -> spec_I c (integral (states x i n)) x = if up then lim_max L else lim_min L).
  { intros [|n] Hn; [lia|]. set (J := integral (states x i (S n))).
    assert (E : deq (integral (states x i (S (S n)))) J).
    { eapply deq_trans; [apply R; lia|]. apply deq_sym, R. lia. }
    rewrite NEXT in E. fold J in E. rewrite SI.
    assert (JL : in_limits L J) by apply INL. specialize (V J JL).
    assert (NG := BG J (BI (S n))). destruct (dle_notnan _ _ (proj1 OL)) as [Nmin Nmax]. fold L in Nmin, Nmax.
    assert (IDEM : forall y, notnan y -> limit L (limit L y) = limit L y).
    { intros y Ny. assert (Q : in_limits L (limit L y)).
      { rewrite limit_clamp. destruct (clamp_in L y (proj1 OL)) as [N|Q]; [|exact Q]. exfalso.
        assert (Bq := limit_bnd L y (proj1 OL) (b_imin c B) (b_imax c B) Ny). apply bnd_notnan in Bq. rewrite limit_clamp in Bq.
        unfold notnan in Bq. congruence. }
      unfold limit at 1. rewrite (dle_not_lt _ _ (proj1 Q)), (dle_not_lt _ _ (proj2 Q)). reflexivity. }
    rewrite (IDEM _ NG) in E. unfold limit in *. destruct up.
    - assert (A : dltb (dadd J (gain c x)) (lim_min L) = false).
      { apply dle_not_lt. apply dle_trans with J; [apply JL|now apply dlt_dle]. }
      rewrite A in *. destruct (dltb (lim_max L) (dadd J (gain c x))); [reflexivity|].
      exfalso. apply (dlt_irrefl J). eapply dlt_le_trans; [exact V|now apply deq_le].
    - destruct (dltb (dadd J (gain c x)) (lim_min L)); [reflexivity|].
      assert (A : dltb (lim_max L) (dadd J (gain c x)) = false).
      { apply dle_not_lt. apply dle_trans with J; [now apply dlt_dle|apply JL]. }
      rewrite A in *. exfalso. apply (dlt_irrefl J). eapply dle_lt_trans; [|exact V]. apply deq_le. now apply deq_sym. }
  exists (S n0). intros [|n] Hn; [lia|]. rewrite ST, (free_out c x B OL SL Hx Hs i n MI UL).
  assert (S1 := SAT (S n) Hn).
  destruct (steady_parts c x B OL Hx Hs _ (BI (S n))) as (HP & HI2 & HD & HF & A1 & A2 & A3 & _).
  unfold spec_unslewed, saturated in *. rewrite S1 in *. fold L.
  change (dmul (proportionalCoeff c) (dsub (snd x) (fst x))) with (spec_P c x).
  change (dmul (dadd (snd x) (feedFwdOffset c)) (feedFwdGain c)) with (spec_FF c x).
  assert (Z := dadd_zero _ _ (bnd_finite _ _ A1) (steady_D c x B Hx Hs)).
  assert (A4 : bnd 403 (dadd (dadd (spec_P c x) (if up then lim_max L else lim_min L)) (spec_FF c x))).
  { apply (bnd_add 402); [lia|exact A1|]. apply (bnd_weaken 401); [lia|exact HF]. }
  rewrite !limit_clamp. apply dle_antisym; (apply clamp_mono; [apply OL|]);
    (apply dadd_mono; [apply deq_le; auto using deq_sym|eapply dle_refl, bnd_notnan, HF|eapply bnd_notnan; eassumption|eapply bnd_notnan; eassumption]).
Qed.
