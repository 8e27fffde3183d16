(** * Proofs for C98: two histories of one temperature loop. *)
From Coq Require Import ZArith Reals Bool List String Lia Lra.
From Flocq Require Import Core BinarySingleNaN.
From Verif Require Import Base Dbl DblFacts DblOrder DblBound PidModel SpecPid PidProofs ExactProofs SpecHeat.
Import ListNotations.
Local Arguments pid : simpl never.

Lemma toward_refl up x : notnan x -> toward up x x.
Proof. destruct up; simpl; apply dle_refl. Qed.
Lemma toward_trans up x y z : toward up x y -> toward up y z -> toward up x z.
Proof. destruct up; simpl; intros H K; eapply dle_trans; eauto. Qed.

Lemma zero_dmul c v : deq c d0 -> notnan (dmul c v) -> deq (dmul c v) d0.
Proof.
  intros H N. destruct c as [sc| sc| |sc mc ec Hc]; try discriminate H; try (destruct sc; discriminate H).
  destruct v; try discriminate N; reflexivity.
Qed.
Lemma zeros_le x y : deq x d0 -> deq y d0 -> dle x y.
Proof. intros H K. apply deq_le. eapply deq_trans; [exact H|now apply deq_sym]. Qed.

(** Terms of the formula when the input is hotter. *)
Lemma error_toward up sp x y : notnan (dsub sp x) -> notnan (dsub sp y) -> toward up x y ->
  toward (negb up) (dsub sp x) (dsub sp y).
Proof.
  intros Nx Ny H. destruct (notnan_dsub_inv _ _ Nx) as [Nsp _].
  destruct up; simpl in *; apply dsub_mono; auto using dle_refl.
Qed.
Lemma coeff_l up k a b : toward up k d0 -> toward (negb up) a b -> notnan (dmul k a) -> notnan (dmul k b) ->
  dle (dmul k a) (dmul k b).
Proof. destruct up; simpl; intros K H Na Nb; [now apply dmul_anti_l|now apply dmul_mono_l]. Qed.
Lemma coeff_r up k a b : toward up k d0 -> toward (negb up) a b -> notnan (dmul a k) -> notnan (dmul b k) ->
  dle (dmul a k) (dmul b k).
Proof. destruct up; simpl; intros K H Na Nb; [now apply dmul_anti_r|now apply dmul_mono_r]. Qed.

Section OneLoop.
  Variables (up : bool) (c : pidinfo).
  Hypothesis (CO : cools up c) (T : dlt d0 (ts c)) (OL : ordered_limits c).

  Lemma gain_le sp x y :
    notnan (dmul (dmul (dsub sp x) (integralCoeff c)) (ts c)) ->
    notnan (dmul (dmul (dsub sp y) (integralCoeff c)) (ts c)) -> toward up x y ->
    dle (dmul (dmul (dsub sp x) (integralCoeff c)) (ts c)) (dmul (dmul (dsub sp y) (integralCoeff c)) (ts c)).
  Proof.
    intros Qx Qy H. destruct CO as (_ & KI & _).
    destruct (notnan_dmul_inv _ _ Qx) as [Rx' _]. destruct (notnan_dmul_inv _ _ Qy) as [Ry' _].
    destruct (notnan_dmul_inv _ _ Rx') as [Ex _]. destruct (notnan_dmul_inv _ _ Ry') as [Ey _].
    apply dmul_mono_r; auto using dlt_dle. apply coeff_r with up; auto using error_toward.
  Qed.

  Lemma integral_le mi1 mi2 sp x y : dle mi1 mi2 -> toward up x y ->
    notnan (spec_I c mi1 (x, sp)) -> notnan (spec_I c mi2 (y, sp)) ->
    dle (spec_I c mi1 (x, sp)) (spec_I c mi2 (y, sp)).
  Proof.
    unfold spec_I. simpl fst. simpl snd. intros M H N1 N2. destruct OL as (LI & _).
    destruct (deqb (integralCoeff c) d0); [apply dle_refl; reflexivity|].
    assert (Jx := limit_notnan _ _ N1). assert (Jy := limit_notnan _ _ N2).
    rewrite !limit_clamp. apply clamp_mono; [exact LI|].
    destruct (notnan_dadd_inv _ _ Jx) as [_ Qx]. destruct (notnan_dadd_inv _ _ Jy) as [_ Qy].
    apply dadd_mono; auto. now apply gain_le.
  Qed.

  Lemma unslewed_parts mi me x sp : notnan (spec_unslewed c mi me (x, sp)) ->
    notnan (spec_P c (x, sp)) /\ notnan (spec_I c mi (x, sp)) /\ notnan (spec_D c me (x, sp)) /\
    notnan (spec_FF c (x, sp)) /\
    notnan (dadd (spec_P c (x, sp)) (spec_I c mi (x, sp))) /\
    notnan (dadd (dadd (spec_P c (x, sp)) (spec_I c mi (x, sp))) (spec_D c me (x, sp))) /\
    notnan (dadd (dadd (dadd (spec_P c (x, sp)) (spec_I c mi (x, sp))) (spec_D c me (x, sp))) (spec_FF c (x, sp))).
  Proof.
    intros N. unfold spec_unslewed in N. assert (A := limit_notnan _ _ N).
    destruct (notnan_dadd_inv _ _ A) as [B ?]. destruct (notnan_dadd_inv _ _ B) as [C ?].
    destruct (notnan_dadd_inv _ _ C) as [? ?]. tauto.
  Qed.

  Lemma sum_le mi1 mi2 me1 me2 sp x y : toward up x y ->
    dle (spec_I c mi1 (x, sp)) (spec_I c mi2 (y, sp)) ->
    notnan (spec_unslewed c mi1 me1 (x, sp)) -> notnan (spec_unslewed c mi2 me2 (y, sp)) ->
    dle (spec_unslewed c mi1 me1 (x, sp)) (spec_unslewed c mi2 me2 (y, sp)).
  Proof.
    intros H LI N1 N2. destruct (unslewed_parts _ _ _ _ N1) as (P1 & I1 & D1 & F1 & S1 & S2 & S3).
    destruct (unslewed_parts _ _ _ _ N2) as (P2 & I2 & D2 & F2 & U1 & U2 & U3).
    destruct CO as (KP & KI & KD). destruct OL as (_ & LO).
    unfold spec_unslewed. rewrite !limit_clamp. apply clamp_mono; [exact LO|].
    apply dadd_mono; auto; [|apply dle_refl, F1].
    apply dadd_mono; auto.
    - apply dadd_mono; auto. unfold spec_P in *. simpl fst in *. simpl snd in *.
      destruct (notnan_dmul_inv _ _ P1) as [_ E1]. destruct (notnan_dmul_inv _ _ P2) as [_ E2].
      apply coeff_l with up; auto. now apply error_toward.
    - unfold spec_D in *. apply zeros_le; apply zero_dmul; assumption.
  Qed.
  Lemma unslewed_le mi1 mi2 me1 me2 sp x y : dle mi1 mi2 -> toward up x y ->
    notnan (spec_unslewed c mi1 me1 (x, sp)) -> notnan (spec_unslewed c mi2 me2 (y, sp)) ->
    dle (spec_unslewed c mi1 me1 (x, sp)) (spec_unslewed c mi2 me2 (y, sp)) /\
    dle (spec_I c mi1 (x, sp)) (spec_I c mi2 (y, sp)).
  Proof.
    intros M H N1 N2. destruct (unslewed_parts _ _ _ _ N1) as (_ & I1 & _).
    destruct (unslewed_parts _ _ _ _ N2) as (_ & I2 & _).
    assert (LI := integral_le _ _ _ _ _ M H I1 I2). split; [now apply sum_le|exact LI].
  Qed.

  (** The integral grows while the input is on the hot side of the setpoint. *)
  Lemma gain_pos sp x : dfinite sp -> dfinite x -> dfinite (dsub sp x) -> dfinite (integralCoeff c) ->
    notnan (dmul (dmul (dsub sp x) (integralCoeff c)) (ts c)) -> toward up sp x ->
    dle d0 (dmul (dmul (dsub sp x) (integralCoeff c)) (ts c)).
  Proof.
    intros Fs Fx Fe Fk Q H. destruct CO as (_ & KI & _).
    destruct (dsub_Rx sp x Fs Fx) as [Ne Ee]. destruct (dmul_Rx _ _ Fe Fk) as [Nm Em].
    apply dmul_sign_nonneg; auto using dlt_dle. apply dle_iff. split; [reflexivity|]. split; [exact Nm|].
    rewrite Rx_d0, Em. rewrite <- clip_RN_0. apply clip_mono, RN_mono.
    assert (Z : forall r s : R, (r <= 0 -> s <= 0 -> 0 <= r * s)%R) by (intros; nra).
    destruct up; simpl in H, KI; apply dle_iff in H, KI; rewrite ?Rx_d0 in KI;
      destruct H as (_ & _ & H), KI as (_ & _ & KI).
    - apply Z; [|exact KI]. rewrite Ee, <- clip_RN_0. apply clip_mono, RN_mono. lra.
    - apply Rmult_le_pos; [|exact KI]. rewrite Ee, <- clip_RN_0. apply clip_mono, RN_mono. lra.
  Qed.
End OneLoop.

(** ** Histories *)
Lemma zero_slew c prev u : unlimited_rate c -> spec_slew c prev u = u.
Proof. intros (A & B). unfold spec_slew. rewrite A, B. reflexivity. Qed.

Lemma plain_out c h x : unlimited_rate c ->
  pid_out c h x = spec_unslewed c (integral (pid_state c h)) (lastError (pid_state c h)) x.
Proof.
  intros U. unfold pid_out. rewrite pid_out_form, pid_state_params.
  destruct (initialized _); [now apply zero_slew|reflexivity].
Qed.
Lemma plain_integral c h x : unlimited_rate c ->
  integral (pid_state c (h ++ [x])) = limit (integralLimit c) (spec_I c (integral (pid_state c h)) x).
Proof.
  intros (A & B). rewrite pid_state_app, pid_integral_form, pid_state_params.
  rewrite A, B. simpl. rewrite andb_false_r. reflexivity.
Qed.
Lemma unlimited_sane c : bounded_cfg c -> unlimited_rate c -> sane_slew c /\ dlt d0 (ts c).
Proof.
  intros (_ & B) (U & V). assert (P : dlt d0 (ts c)).
  { eapply dlt_le_trans; [|exact B]. vm_compute. reflexivity. }
  split; [|exact P]. split; [now apply deq_le|]. split; [now apply deq_le, deq_sym|]. now apply dlt_dle.
Qed.

Lemma hotter_bounded up h k : hotter_history up h k -> Forall bounded_sample h /\ Forall bounded_sample k.
Proof.
  intros H. induction H as [|a b h k (A & B & _) H (IH & IK)]; split; constructor; auto.
Qed.
Lemma Forall2_snoc {A B : Type} (R : A -> B -> Prop) l1 l2 a b :
  Forall2 R l1 l2 -> R a b -> Forall2 R (l1 ++ [a]) (l2 ++ [b]).
Proof. intros H K. apply Forall2_app; auto. Qed.
Lemma Forall2_snoc_inv {A B : Type} (R : A -> B -> Prop) l1 a l2 :
  Forall2 R (l1 ++ [a]) l2 -> exists l b, l2 = l ++ [b] /\ Forall2 R l1 l /\ R a b.
Proof.
  intros H. apply Forall2_app_inv_l in H. destruct H as (l & r & H1 & H2 & ->).
  inversion H2 as [|? b ? ? Hab Hr]; subst. inversion Hr; subst. eauto.
Qed.

Section Histories.
  Variables (up : bool) (c : pidinfo).
  Hypothesis (B : bounded_cfg c) (CO : cools up c) (U : unlimited_rate c) (OL : ordered_limits c).

  Lemma out_finite h x : Forall bounded_sample (h ++ [x]) ->
    dfinite (pid_out c h x) /\ dfinite (integral (pid_state c (h ++ [x]))).
  Proof.
    intros F. destruct (unlimited_sane c B U) as (S & _). destruct OL as (LI & LO).
    destruct (pid_no_nan c h x B LI LO S F) as (A1 & A2 & _). auto.
  Qed.
  Lemma out_notnan h x : Forall bounded_sample (h ++ [x]) ->
    notnan (spec_unslewed c (integral (pid_state c h)) (lastError (pid_state c h)) x).
  Proof. intros F. rewrite <- plain_out by exact U. apply finite_notnan, out_finite, F. Qed.

  Lemma both_le h k : hotter_history up h k -> dle (integral (pid_state c h)) (integral (pid_state c k)) /\
    (forall a b, hotter_sample up a b -> dle (pid_out c h a) (pid_out c k b)).
  Proof.
    destruct (unlimited_sane c B U) as (_ & T).
    assert (G : forall h k, hotter_history up h k -> dle (integral (pid_state c h)) (integral (pid_state c k)) ->
      forall a b, hotter_sample up a b ->
        dle (pid_out c h a) (pid_out c k b) /\
        dle (integral (pid_state c (h ++ [a]))) (integral (pid_state c (k ++ [b])))).
    { clear h k. intros h k H M [x sp] [y sp'] (Ba & Bb & X & E). simpl in X, E. subst sp'.
      destruct (hotter_bounded _ _ _ H) as (Fh & Fk).
      assert (N1 : Forall bounded_sample (h ++ [(x, sp)])) by (apply Forall_app; auto).
      assert (N2 : Forall bounded_sample (k ++ [(y, sp)])) by (apply Forall_app; auto).
      destruct (unslewed_le up c CO T OL _ _ _ _ sp x y M X (out_notnan _ _ N1) (out_notnan _ _ N2)) as (L1 & L2).
      rewrite !plain_out, !plain_integral by exact U. split; [exact L1|].
      rewrite !limit_clamp. apply clamp_mono; [apply OL|exact L2]. }
    intros H.
    assert (M : dle (integral (pid_state c h)) (integral (pid_state c k))).
    { revert k H. induction h as [|a h IH] using rev_ind; intros k H.
      - inversion H; subst. apply dle_refl. reflexivity.
      - apply Forall2_snoc_inv in H. destruct H as (k' & b & -> & H & Hab). now apply G; [|apply IH|]. }
    split; [exact M|]. intros a b Hab. now apply G.
  Qed.

  (** *** Staying hot *)
  Lemma hot_step sp : mag_le 200 sp -> forall inputs x, Forall (mag_le 200) inputs -> mag_le 200 x ->
    toward up sp x -> let h := map (fun v => (v, sp)) inputs in
    forall y, mag_le 200 y -> toward up sp y -> toward up x y ->
    dle (pid_out c h (x, sp)) (pid_out c (h ++ [(x, sp)]) (y, sp)).
  Proof.
    intros Bs inputs x Fi Bx Hx h y By Hy Hxy. destruct (unlimited_sane c B U) as (_ & T).
    assert (Fh : Forall bounded_sample h).
    { unfold h. apply Forall_forall. intros s I. apply in_map_iff in I. destruct I as (v & <- & I).
      split; [|exact Bs]. simpl. rewrite Forall_forall in Fi. auto. }
    assert (N1 : Forall bounded_sample (h ++ [(x, sp)])).
    { apply Forall_app. split; [exact Fh|]. constructor; [split; assumption|constructor]. }
    assert (N2 : Forall bounded_sample ((h ++ [(x, sp)]) ++ [(y, sp)])).
    { apply Forall_app. split; [exact N1|]. constructor; [split; assumption|constructor]. }
    assert (O1 := out_notnan _ _ N1). assert (O2 := out_notnan _ _ N2).
    rewrite !plain_out by exact U. rewrite plain_integral in * by exact U.
    set (mi := integral (pid_state c h)) in *. set (me := lastError (pid_state c h)) in *.
    set (me' := lastError (pid_state c (h ++ [(x, sp)]))) in *.
    assert (LI : dle (spec_I c mi (x, sp)) (spec_I c (limit (integralLimit c) (spec_I c mi (x, sp))) (y, sp))).
    { destruct (unslewed_parts _ _ _ _ _ O1) as (_ & I1 & _). destruct (unslewed_parts _ _ _ _ _ O2) as (_ & I2 & _).
      clear O1 O2. unfold spec_I in I1, I2 |- *. simpl fst in *. simpl snd in *.
      destruct (deqb (integralCoeff c) d0); [apply dle_refl; reflexivity|].
      rewrite !limit_clamp in *. destruct OL as (Li & _). unfold limits_ordered in Li.
      set (i1 := clamp (dadd mi _) _ _) in *.
      assert (IN : in_limits (integralLimit c) i1).
      { destruct (clamp_in (integralLimit c) (dadd mi (dmul (dmul (dsub sp x) (integralCoeff c)) (ts c))) Li) as [Q|Q];
          [exfalso; unfold notnan, i1 in I1; congruence|exact Q]. }
      assert (E : clamp i1 (lim_min (integralLimit c)) (lim_max (integralLimit c)) = i1).
      { unfold clamp, dgtb. destruct IN as (A1 & A2). now rewrite (dle_not_lt _ _ A1), (dle_not_lt _ _ A2). }
      rewrite E in I2 |- *. rewrite <- E at 1. apply clamp_mono; [exact Li|].
      rewrite <- limit_clamp in I2. assert (Jy := limit_notnan _ _ I2).
      destruct (notnan_dadd_inv _ _ Jy) as [_ Qy].
      apply dadd_nonneg; [|exact Jy].
      assert (fin : forall v, mag_le 200 v -> dfinite v) by (intros v V; apply V).
      apply gain_pos with up; auto.
      - assert (K : forall v, mag_le 200 v -> bnd 200 v) by (intros v V; apply mag_le_bnd; [lia|exact V]).
        apply (bnd_finite 201). apply (bnd_sub 200); [lia|now apply K|now apply K].
      - destruct B as (BF & _). rewrite Forall_forall in BF. apply fin, BF. simpl. tauto. }
    now apply sum_le with up.
  Qed.

  Lemma outs_snoc cfg h x : pid_outs cfg (h ++ [x]) = pid_outs cfg h ++ [pid_out cfg h x].
  Proof.
    assert (G : forall h i, pid_outs_from i (h ++ [x]) = pid_outs_from i h ++
      [snd (pid (fold_left (fun i x => fst (pid i (fst x) (snd x))) h i) (fst x) (snd x))]).
    { clear h. induction h as [|y h IH]; intros i.
      - cbn [app]. rewrite pid_outs_cons. reflexivity.
      - cbn [app]. rewrite !pid_outs_cons, IH. reflexivity. }
    apply G.
  Qed.

  Lemma outs_le h k : hotter_history up h k -> Forall2 dle (pid_outs c h) (pid_outs c k).
  Proof.
    revert k. induction h as [|a h IH] using rev_ind; intros k H.
    - inversion H; subst. constructor.
    - apply Forall2_snoc_inv in H. destruct H as (k' & b & -> & H & Hab).
      rewrite !outs_snoc. apply Forall2_snoc; [now apply IH|]. now apply both_le.
  Qed.

  Lemma outs_length cfg h : List.length (pid_outs cfg h) = List.length h.
  Proof.
    induction h as [|x h IH] using rev_ind; [reflexivity|]. rewrite outs_snoc, !app_length, IH. reflexivity.
  Qed.
  Lemma hot_outs sp inputs : mag_le 200 sp -> stays_hot up sp inputs ->
    forall i a b, nth_error (pid_outs c (map (fun v => (v, sp)) inputs)) i = Some a ->
      nth_error (pid_outs c (map (fun v => (v, sp)) inputs)) (S i) = Some b -> dle a b.
  Proof.
    intros Bs. induction inputs as [|y inputs IH] using rev_ind; intros (F & G & M) i a b Ha Hb.
    - destruct i; discriminate.
    - apply Forall_app in F, G. destruct F as (F & Fy), G as (G & Gy).
      inversion Fy as [|? ? By _]; subst. inversion Gy as [|? ? Hy _]; subst.
      rewrite map_app in Ha, Hb. cbn [map] in Ha, Hb. rewrite outs_snoc in Ha, Hb.
      set (outs := pid_outs c (map (fun v => (v, sp)) inputs)) in *.
      assert (Len : List.length outs = List.length inputs) by (unfold outs; now rewrite outs_length, map_length).
      destruct (Nat.lt_ge_cases (S i) (List.length outs)) as [L|L].
      + rewrite nth_error_app1 in Ha, Hb by lia. apply (IH) with i; auto.
        split; [exact F|]. split; [exact G|]. intros j u v Hu Hv. apply (M j).
        * rewrite nth_error_app1; [exact Hu|]. apply nth_error_Some. congruence.
        * rewrite nth_error_app1; [exact Hv|]. apply nth_error_Some. congruence.
      + assert (E : S i = List.length outs).
        { assert (S i < List.length (outs ++ [pid_out c (map (fun v => (v, sp)) inputs) (y, sp)])).
          { apply nth_error_Some. congruence. } rewrite app_length in H. simpl in H. lia. }
        rewrite nth_error_app2 in Hb by lia. rewrite E, Nat.sub_diag in Hb. injection Hb as <-.
        rewrite nth_error_app1 in Ha by lia.
        destruct (exists_last (l := inputs)) as (ins & x & ->).
        { intros K. rewrite K in Len. simpl in Len. lia. }
        clear IH. unfold outs in Ha, E, Len. rewrite map_app in *. cbn [map] in *. rewrite outs_snoc in Ha.
        rewrite outs_snoc, app_length in E. simpl in E.
        rewrite nth_error_app2 in Ha by lia.
        replace (i - List.length (pid_outs c (map (fun v => (v, sp)) ins))) with 0 in Ha by lia.
        injection Ha as <-. apply Forall_app in F, G. destruct F as (F & Fx), G as (G & Gx).
        inversion Fx as [|? ? Bx _]; subst. inversion Gx as [|? ? Hx _]; subst.
        apply hot_step; auto.
        rewrite <- app_assoc in M. cbn [app] in M. apply (M (List.length ins)).
        * rewrite nth_error_app2, Nat.sub_diag by lia. reflexivity.
        * rewrite nth_error_app2 by lia. replace (S (List.length ins) - List.length ins) with 1 by lia. reflexivity.
  Qed.
End Histories.

Lemma ctrl_plain_outs c h : no_hysteresis c -> ctrl_outs c h = pid_outs c h.
Proof.
  intros (C & P & N). unfold ctrl_outs, pid_outs.
  rewrite (ctrl_plain c C); [reflexivity| |apply init_params]. now rewrite P, N.
Qed.

Lemma C98_hotter_lemma up c h k : bounded_cfg c -> cools up c -> unlimited_rate c -> no_hysteresis c ->
  ordered_limits c -> hotter_history up h k -> Forall2 dle (ctrl_outs c h) (ctrl_outs c k).
Proof. intros B CO U NH OL H. rewrite !ctrl_plain_outs by exact NH. now apply outs_le with up. Qed.
Lemma C98_stays_lemma up c sp inputs : bounded_cfg c -> cools up c -> unlimited_rate c -> no_hysteresis c ->
  ordered_limits c -> mag_le 200 sp -> stays_hot up sp inputs ->
  forall i a b, nth_error (ctrl_outs c (map (fun v => (v, sp)) inputs)) i = Some a ->
    nth_error (ctrl_outs c (map (fun v => (v, sp)) inputs)) (S i) = Some b -> dle a b.
Proof. intros B CO U NH OL Bs SH i a b. rewrite !ctrl_plain_outs by exact NH. now apply hot_outs with up. Qed.
