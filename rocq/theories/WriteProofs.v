(** * Proofs about fan writers and reading normalisation (C32-C35). *)
From Coq Require Import Reals ZArith Bool List Lia Lra Psatz.
From Coq Require Import Floats.SpecFloat.
From Flocq Require Import Core IEEE754.BinarySingleNaN Plus_error.
From Verif Require Import Base BaseFacts Dbl DblFacts DblOrder DblBound ZoneModel SensorModel WriteModel
  SpecSensor SpecWrite SensorProofs.
Import ListNotations.
Local Open Scope Z_scope.

Lemma clip_RN_IZR (z : Z) : Z.abs z <= 2 ^ 53 -> clip (RN (IZR z)) = IZR z.
Proof.
  intro H. destruct (D_exact z H) as [F E]. rewrite <- E, (Rx_finite _ F). apply clip_RN_B2R.
Qed.

Lemma between_exact (lo hi x : R) : clip (RN lo) = lo -> clip (RN hi) = hi -> (lo <= x <= hi)%R ->
  (lo <= clip (RN x) <= hi)%R.
Proof.
  intros L H [A B]. split.
  - rewrite <- L at 1. apply clip_mono, RN_mono. exact A.
  - rewrite <- H. apply clip_mono, RN_mono. exact B.
Qed.

Lemma finite_of_bounds (x : dbl) (lo hi : Z) : Z.abs lo <= 2 ^ 53 -> Z.abs hi <= 2 ^ 53 ->
  notnan x -> (IZR lo <= Rx x <= IZR hi)%R -> dfinite x.
Proof.
  intros L H N [A B]. apply (finite_iff_Rx x N).
  destruct (D_exact lo L) as [F1 E1]. destruct (D_exact hi H) as [F2 E2].
  pose proof (Rx_finite_bound _ F1). pose proof (Rx_finite_bound _ F2). lra.
Qed.

(** The real number behind the raw value. *)
Lemma ovalue_spec min max v :
  Z.abs min <= 2 ^ 53 -> Z.abs max <= 2 ^ 53 -> min <= max -> max - min <= 2 ^ 53 ->
  dle d0 v -> dle v (D 1) ->
  dfinite (percent_ovalue min max v) /\
  (0 <= Rx v <= 1)%R /\
  Rx (percent_ovalue min max v) =
    clip (RN (clip (RN (IZR (max - min) * Rx v)) + IZR min)) /\
  (IZR min <= Rx (percent_ovalue min max v) <= IZR max)%R.
Proof.
  intros Hm HM L W V0 V1.
  destruct (D_exact min Hm) as [F1 E1]. destruct (D_exact max HM) as [F2 E2].
  apply dle_iff in V0. destruct V0 as (_ & NV & V0). rewrite Rx_d0 in V0.
  apply dle_iff in V1. destruct V1 as (_ & _ & V1).
  destruct (D_exact 1) as [_ ED1]; [lia|]. rewrite ED1 in V1.
  assert (FV : dfinite v). { apply (finite_of_bounds v 0 1); [lia|lia|exact NV|]. split; assumption. }
  unfold percent_ovalue. cbv zeta.
  destruct (dsub_Rx (D max) (D min) F2 F1) as [N3 E3].
  rewrite E1, E2, <- minus_IZR, clip_RN_IZR in E3 by lia.
  assert (F3 : dfinite (dsub (D max) (D min))).
  { apply (finite_of_bounds _ 0 (max - min)); [lia|lia|exact N3|]. rewrite E3. split; [apply IZR_le; lia|lra]. }
  destruct (dmul_Rx (dsub (D max) (D min)) v F3 FV) as [N4 E4]. rewrite E3 in E4.
  assert (P : (0 <= IZR (max - min))%R) by (apply IZR_le; lia).
  assert (B4 : (IZR 0 <= Rx (dmul (dsub (D max) (D min)) v) <= IZR (max - min))%R).
  { rewrite E4. apply between_exact; [apply clip_RN_IZR; lia|apply clip_RN_IZR; lia|]. split; nra. }
  assert (F4 : dfinite (dmul (dsub (D max) (D min)) v)).
  { apply (finite_of_bounds _ 0 (max - min)); [lia|lia|exact N4|exact B4]. }
  destruct (dadd_Rx (dmul (dsub (D max) (D min)) v) (D min) F4 F1) as [N5 E5]. rewrite E1 in E5.
  assert (B5 : (IZR min <= Rx (dadd (dmul (dsub (D max) (D min)) v) (D min)) <= IZR max)%R).
  { rewrite E5. apply between_exact; [apply clip_RN_IZR; lia|apply clip_RN_IZR; lia|].
    rewrite minus_IZR in B4. lra. }
  split; [apply (finite_of_bounds _ min max); assumption|].
  split; [lra|]. split; [rewrite E5, E4; reflexivity|exact B5].
Qed.

Lemma Ztrunc_between (x : R) (lo hi : Z) : (IZR lo <= x <= IZR hi)%R -> lo <= Ztrunc x <= hi.
Proof.
  intros [A B]. apply Ztrunc_le in A. apply Ztrunc_le in B. rewrite Ztrunc_IZR in A, B. lia.
Qed.

Definition exact_bounds (min max : Z) : Prop :=
  Z.abs min <= 2 ^ 53 /\ Z.abs max <= 2 ^ 53 /\ min <= max /\ max - min <= 2 ^ 53.

Lemma raw_spec min max v :
  Z.abs min <= 2 ^ 53 -> Z.abs max <= 2 ^ 53 -> min <= max -> max - min <= 2 ^ 53 ->
  dle d0 v -> dle v (D 1) ->
  to_int64 (percent_ovalue min max v) = Some (Ztrunc (Rx (percent_ovalue min max v))) /\
  min <= Ztrunc (Rx (percent_ovalue min max v)) <= max.
Proof.
  intros. destruct (ovalue_spec min max v) as (F & _ & _ & B); try assumption.
  apply Ztrunc_between in B. split; [|exact B]. apply dtrunc_spec; [exact F|].
  unfold int64_min, int64_max. lia.
Qed.

Lemma C32_bounds_lemma min max v :
  Z.abs min <= 2 ^ 53 -> Z.abs max <= 2 ^ 53 -> min <= max -> max - min <= 2 ^ 53 ->
  dle d0 v -> dle v (D 1) ->
  exists raw, to_int64 (percent_ovalue min max v) = Some raw /\ min <= raw <= max.
Proof. intros. destruct (raw_spec min max v) as [E B]; try assumption. eexists; split; [exact E|exact B]. Qed.

Lemma C32_ends_lemma min max v :
  Z.abs min <= 2 ^ 53 -> Z.abs max <= 2 ^ 53 -> min <= max -> max - min <= 2 ^ 53 ->
  (deq v d0 -> to_int64 (percent_ovalue min max v) = Some min) /\
  (deq v (D 1) -> to_int64 (percent_ovalue min max v) = Some max).
Proof.
  intros Hm HM L W.
  assert (N1 : notnan (D 1)) by reflexivity.
  assert (O : dle d0 (D 1)) by reflexivity.
  assert (E1 : Rx (D 1) = 1%R) by (apply D_exact; lia).
  split; intro E.
  - assert (V0 : dle d0 v) by (apply deq_le, deq_sym; exact E).
    assert (V1 : dle v (D 1)) by (apply (dle_trans v d0); [apply deq_le; exact E|exact O]).
    destruct (ovalue_spec min max v) as (F & _ & S & B); try assumption.
    destruct (raw_spec min max v) as (T & _); try assumption. rewrite T. f_equal.
    apply deq_iff in E. destruct E as (_ & _ & E). rewrite Rx_d0 in E.
    rewrite S, E, Rmult_0_r, clip_RN_0, Rplus_0_l, clip_RN_IZR by assumption. apply Ztrunc_IZR.
  - assert (V1 : dle v (D 1)) by (apply deq_le; exact E).
    assert (V0 : dle d0 v) by (apply (dle_trans d0 (D 1)); [exact O|apply deq_le, deq_sym; exact E]).
    destruct (ovalue_spec min max v) as (F & _ & S & B); try assumption.
    destruct (raw_spec min max v) as (T & _); try assumption. rewrite T. f_equal.
    apply deq_iff in E. destruct E as (_ & _ & E). rewrite E1 in E.
    rewrite S, E, Rmult_1_r, clip_RN_IZR by lia. rewrite <- plus_IZR.
    replace (max - min + min) with max by ring. rewrite clip_RN_IZR by assumption. apply Ztrunc_IZR.
Qed.

Lemma C32_monotone_lemma min max v v' r r' :
  Z.abs min <= 2 ^ 53 -> Z.abs max <= 2 ^ 53 -> min <= max -> max - min <= 2 ^ 53 ->
  dle d0 v -> dle v v' -> dle v' (D 1) ->
  to_int64 (percent_ovalue min max v) = Some r ->
  to_int64 (percent_ovalue min max v') = Some r' ->
  r <= r'.
Proof.
  intros Hm HM L W V0 V V1 T T'.
  assert (V1' : dle v (D 1)) by (apply (dle_trans _ v'); assumption).
  assert (V0' : dle d0 v') by (apply (dle_trans _ v); assumption).
  destruct (ovalue_spec min max v) as (F & RV & S & B); try assumption.
  destruct (ovalue_spec min max v') as (F' & RV' & S' & B'); try assumption.
  destruct (raw_spec min max v) as (U & _); try assumption.
  destruct (raw_spec min max v') as (U' & _); try assumption.
  rewrite U in T. rewrite U' in T'. injection T as <-. injection T' as <-.
  apply Ztrunc_le. rewrite S, S'. apply clip_mono, RN_mono, Rplus_le_compat_r, clip_mono, RN_mono.
  apply dle_iff in V. destruct V as (_ & _ & V).
  apply Rmult_le_compat_l; [apply IZR_le; lia|exact V].
Qed.

(** A percentage between 0 and 100 becomes a fraction between 0 and 1. *)
Lemma fraction_of_percent p : dle d0 p -> dle p (D 100) ->
  dle d0 (ddiv p (D 100)) /\ dle (ddiv p (D 100)) (D 1).
Proof.
  intros P0 P1.
  apply dle_iff in P0. destruct P0 as (_ & NP & P0). rewrite Rx_d0 in P0.
  apply dle_iff in P1. destruct P1 as (_ & _ & P1).
  destruct (D_exact 100) as [F100 E100]; [lia|]. destruct (D_exact 1) as [F1 E1]; [lia|].
  rewrite E100 in P1.
  assert (FP : dfinite p). { apply (finite_of_bounds p 0 100); [lia|lia|exact NP|split; assumption]. }
  assert (NZ : Rx (D 100) <> 0%R) by (rewrite E100; lra).
  destruct (ddiv_Rx p (D 100) FP F100 NZ) as [N E]. rewrite E100 in E.
  assert (B : (IZR 0 <= Rx (ddiv p (D 100)) <= IZR 1)%R).
  { rewrite E. apply between_exact; [apply clip_RN_IZR; lia|apply clip_RN_IZR; lia|]. lra. }
  split; apply dle_iff.
  - split; [reflexivity|]. split; [exact N|]. rewrite Rx_d0. apply B.
  - split; [exact N|]. split; [reflexivity|]. rewrite E1. apply B.
Qed.

(** ** C33, C34 *)

Lemma to_uint64_of_int64 x r : to_int64 x = Some r -> 0 <= r -> to_uint64 x = Some r.
Proof.
  unfold to_int64, to_uint64, dtrunc. destruct (is_finite x); [|discriminate]. cbv zeta.
  destruct ((int64_min <=? Btrunc x) && (Btrunc x <=? int64_max)) eqn:E; [|discriminate].
  intros H P. injection H as <-. apply andb_true_iff in E. destruct E as [_ E].
  apply Z.leb_le in E. unfold int64_max in E.
  destruct (Z.leb_spec 0 (Btrunc x)); [|lia].
  destruct (Z.leb_spec (Btrunc x) uint64_max); [reflexivity|unfold uint64_max in *; lia].
Qed.

Lemma dbus_write_step v force ok w r :
  0 <= r -> to_int64 (dw_target w v) = Some r ->
  dbus_write v force ok w =
    Ok (MkDbusWriter (dw_percent w) (dw_min w) (dw_max w) r
          ((if negb (r =? dw_oldValue w) || force then [(r, ok)] else []) ++ dw_calls w), r).
Proof.
  intros P H. unfold dbus_write. cbv zeta. rewrite H, (to_uint64_of_int64 _ _ H P).
  rewrite (Z.eqb_sym r). destruct (Z.eqb_spec (dw_oldValue w) r) as [E|E]; cbn [negb orb andb].
  - destruct force; cbn [negb app]; [reflexivity|]. destruct w; cbn in *. subst. reflexivity.
  - reflexivity.
Qed.

Lemma C33_run : forall ws w rs, raws w ws rs ->
  dbus_write_all ws w =
    Ok (MkDbusWriter (dw_percent w) (dw_min w) (dw_max w) (last rs (dw_oldValue w))
          (rev (expected_calls (dw_oldValue w) ws rs) ++ dw_calls w)).
Proof.
  induction ws as [|[[v force] ok] ws IH]; intros w rs H; inversion H; subst.
  - cbn. destruct w; reflexivity.
  - rename y into r, l' into rs'. destruct H2 as [P T].
    unfold dbus_write_all. cbn [foldM]. rewrite (dbus_write_step v force ok w r P T). cbn [bind].
    fold (dbus_write_all ws). unfold dbus_write_all in IH.
    match goal with |- foldM _ ws ?w1 = _ => rewrite (IH w1 rs') end.
    + cbn [dw_percent dw_min dw_max dw_oldValue dw_calls].
      replace (last (r :: rs') (dw_oldValue w)) with (last rs' r).
      2:{ destruct rs' as [|a rs']; [reflexivity|].
          assert (LL : forall (l : list Z) x d d', last (x :: l) d = last (x :: l) d').
          { induction l as [|y l IHl]; intros; [reflexivity|]. cbn [last]. apply (IHl y). }
          cbn [last]. apply (LL rs' a r). }
      do 2 f_equal. cbn [expected_calls]. rewrite rev_app_distr, <- app_assoc. f_equal.
      destruct (negb (r =? dw_oldValue w) || force); reflexivity.
    + exact H4.
Qed.

Lemma C33_calls_lemma percent min max ws rs :
  raws (dbus_writer_new percent min max) ws rs ->
  exists w, dbus_write_all ws (dbus_writer_new percent min max) = Ok w /\
            rev (dw_calls w) = expected_calls (-1) ws rs.
Proof.
  intro H. rewrite (C33_run _ _ _ H). eexists. split; [reflexivity|].
  cbn [dw_calls dbus_writer_new dw_oldValue]. rewrite app_nil_r, rev_involutive. reflexivity.
Qed.

Lemma fan_target_app before p mn mx old l1 l2 :
  fan_target before (MkDbusWriter p mn mx old (l1 ++ l2)) =
  fan_target (fan_target before (MkDbusWriter p mn mx old l2)) (MkDbusWriter p mn mx old l1).
Proof.
  unfold fan_target. cbn [dw_calls]. rewrite filter_app.
  destruct (filter (fun c => snd c) l1) as [|[v b] r]; reflexivity.
Qed.

Lemma target_tracks before : forall ws w rs,
  raws w ws rs -> Forall (fun '(_, _, ok) => ok = true) ws ->
  fan_target before w = dw_oldValue w ->
  exists w', dbus_write_all ws w = Ok w' /\ fan_target before w' = dw_oldValue w' /\
             dw_oldValue w' = last rs (dw_oldValue w).
Proof.
  induction ws as [|[[v force] ok] ws IH]; intros w rs H A T; inversion H; subst.
  - exists w. split; [reflexivity|]. split; [exact T|reflexivity].
  - rename y into r, l' into rs'. destruct H2 as [P E]. inversion A; subst.
    unfold dbus_write_all. cbn [foldM]. rewrite (dbus_write_step v force true w r P E). cbn [bind].
    fold (dbus_write_all ws). unfold dbus_write_all in IH.
    match goal with |- exists _, foldM _ ws ?w1 = _ /\ _ => destruct (IH w1 rs') as (w' & I1 & I2 & I3) end.
    + exact H4.
    + assumption.
    + unfold fan_target. cbn [dw_calls dw_oldValue].
      destruct (Z.eqb_spec r (dw_oldValue w)) as [Er|Er]; destruct force; cbn [negb orb app filter snd]; try reflexivity.
      exact (eq_trans T (eq_sym Er)).
    + exists w'. split; [exact I1|]. split; [exact I2|]. rewrite I3. cbn [dw_oldValue].
      destruct rs' as [|a rs']; [reflexivity|].
      assert (LL : forall (l : list Z) x d d', last (x :: l) d = last (x :: l) d').
      { induction l as [|y l IHl]; intros; [reflexivity|]. cbn [last]. apply (IHl y). }
      cbn [last]. apply (LL rs' a r).
Qed.

Lemma C33_target_lemma before percent min max ws rs r :
  raws (dbus_writer_new percent min max) (ws) (rs ++ [r]) ->
  Forall (fun '(_, _, ok) => ok = true) ws ->
  exists w, dbus_write_all ws (dbus_writer_new percent min max) = Ok w /\
            fan_target before w = r.
Proof.
  intros H A.
  (* the first write always reaches the fan, because a raw value is never -1 *)
  destruct ws as [|[[v force] ok] ws].
  { inversion H. destruct rs; discriminate. }
  inversion H as [|x y l l' H2 H4 Q1 Q2]; subst. destruct H2 as [P E]. inversion A; subst.
  unfold dbus_write_all. cbn [foldM]. rewrite (dbus_write_step v force true _ y P E). cbn [bind].
  replace (negb (y =? dw_oldValue (dbus_writer_new percent min max)) || force) with true.
  2:{ cbn. destruct (Z.eqb_spec y (-1)); [lia|reflexivity]. }
  match goal with |- exists _, foldM _ ws ?w1 = _ /\ _ =>
    destruct (target_tracks before ws w1 l') as (w' & I1 & I2 & I3) end.
  - exact H4.
  - assumption.
  - reflexivity.
  - exists w'. split; [exact I1|]. rewrite I2, I3. cbn [dw_oldValue].
    assert (LA : forall (l : list Z) x d, last (l ++ [x]) d = x).
    { induction l as [|b l IHl]; intros; [reflexivity|]. cbn [app]. rewrite <- (IHl x d) at 2.
      cbn [last]. destruct (l ++ [x]) eqn:Q; [destruct l; discriminate|reflexivity]. }
    destruct rs as [|b rs]; cbn [app] in Q2; injection Q2 as -> ->; [reflexivity|]. apply LA.
Qed.

Lemma C34_lemma before w v force ok r w' raw :
  0 <= r -> to_int64 (dw_target w v) = Some r ->
  dbus_write v force ok w = Ok (w', raw) ->
  (ok = false -> fan_target before w' = fan_target before w) /\
  (ok = true -> force = true \/ r <> dw_oldValue w -> fan_target before w' = r).
Proof.
  intros P T H. rewrite (dbus_write_step _ _ _ _ _ P T) in H. injection H as <- <-.
  unfold fan_target. cbn [dw_calls]. split; intros ->.
  - destruct (negb (r =? dw_oldValue w) || force); reflexivity.
  - intro C. replace (negb (r =? dw_oldValue w) || force) with true; [reflexivity|].
    destruct C as [->|C]; [rewrite orb_true_r; reflexivity|].
    destruct (Z.eqb_spec r (dw_oldValue w)); [contradiction|reflexivity].
Qed.

(** ** C35 *)

Lemma dsub_pos (a b : dbl) : dfinite a -> dfinite b -> (Rx a < Rx b)%R -> (0 < Rx (dsub b a))%R.
Proof.
  intros Fa Fb L. destruct (dsub_Rx b a Fb Fa) as [N E]. rewrite E.
  rewrite (Rx_finite a Fa), (Rx_finite b Fb) in *.
  assert (NZ : RN (B2R b - B2R a) <> 0%R).
  { unfold RN, Rminus. change (SpecFloat.fexp 53 1024) with (FLT_exp (-1074) 53).
    assert (P : Prec_gt_0 53) by reflexivity.
    apply round_plus_neq_0.
    - apply FLT_exp_valid. exact P.
    - apply monotone_exp_not_FTZ; [apply FLT_exp_valid; exact P|apply FLT_exp_monotone].
    - apply valid_rnd_N.
    - apply (generic_format_B2R 53 1024 b).
    - apply generic_format_opp. apply (generic_format_B2R 53 1024 a).
    - lra. }
  assert (NN : (0 <= RN (B2R b - B2R a))%R) by (rewrite <- RN_0; apply RN_mono; lra).
  unfold clip. pose proof big_pos.
  destruct (Rlt_bool_spec (Rabs (RN (B2R b - B2R a))) big); [lra|].
  destruct (Rlt_bool_spec (RN (B2R b - B2R a)) 0); lra.
Qed.

(** Quotient of two values of the same sign pattern as in [scaleSensorReading]. *)
Lemma normalise_Rx min max v :
  dlt d0 max -> dlt min max -> dfinite (dsub max min) -> dfinite min -> dfinite max ->
  dle min v -> dle v max ->
  dfinite v /\ (0 < Rx (dsub max min))%R /\
  notnan (normalise min max v) /\
  Rx (normalise min max v) = clip (RN (clip (RN (Rx v - Rx min)) / Rx (dsub max min))) /\
  (0 <= clip (RN (Rx v - Rx min)) <= Rx (dsub max min))%R.
Proof.
  intros P L FR Fn Fx V0 V1.
  unfold normalise. rewrite P, L. cbn [andb].
  apply dlt_iff in L. destruct L as (Nn & Nx & L).
  apply dle_iff in V0. destruct V0 as (_ & NV & V0). apply dle_iff in V1. destruct V1 as (_ & _ & V1).
  assert (FV : dfinite v).
  { apply (finite_iff_Rx v NV). pose proof (Rx_finite_bound _ Fn). pose proof (Rx_finite_bound _ Fx). lra. }
  pose proof (dsub_pos _ _ Fn Fx L) as DP.
  destruct (dsub_Rx v min FV Fn) as [N1 E1]. destruct (dsub_Rx max min Fx Fn) as [N2 E2].
  assert (B : (0 <= Rx (dsub v min) <= Rx (dsub max min))%R).
  { rewrite E1, E2. split.
    - rewrite <- clip_RN_0. apply clip_mono, RN_mono. lra.
    - apply clip_mono, RN_mono. lra. }
  assert (F1 : dfinite (dsub v min)).
  { apply (finite_iff_Rx _ N1). pose proof (Rx_finite_bound _ FR). pose proof big_pos. lra. }
  assert (NZ : Rx (dsub max min) <> 0%R) by lra.
  destruct (ddiv_Rx (dsub v min) (dsub max min) F1 FR NZ) as [N3 E3].
  split; [exact FV|]. split; [exact DP|]. split; [exact N3|]. rewrite E3, E1. split; [reflexivity|].
  rewrite <- E1. exact B.
Qed.

Lemma C35_bounds_lemma min max v :
  dlt d0 max -> dlt min max -> dfinite (dsub max min) -> dfinite min -> dfinite max ->
  dle min v -> dle v max ->
  dle d0 (scaleSensorReading min max v) /\ dle (scaleSensorReading min max v) (D 1) /\
  (deq v min -> deq (scaleSensorReading min max v) d0) /\
  (deq v max -> deq (scaleSensorReading min max v) (D 1)).
Proof.
  intros P L FR Fn Fx V0 V1.
  rewrite scale_normalise by (apply finite_notnan; assumption).
  destruct (normalise_Rx min max v) as (FV & DP & N & E & B); try assumption.
  assert (E1 : Rx (D 1) = 1%R) by (apply D_exact; lia).
  assert (N1 : notnan (D 1)) by reflexivity.
  assert (Q : (IZR 0 <= Rx (normalise min max v) <= IZR 1)%R).
  { rewrite E. apply between_exact; [apply clip_RN_IZR; lia|apply clip_RN_IZR; lia|]. split.
    - apply Rmult_le_pos; [tauto|]. left. apply Rinv_0_lt_compat. exact DP.
    - apply (Rmult_le_reg_r (Rx (dsub max min))); [exact DP|]. unfold Rdiv. rewrite Rmult_assoc, Rinv_l by lra. lra. }
  repeat split.
  - apply dle_iff. rewrite Rx_d0. split; [reflexivity|]. split; [exact N|tauto].
  - apply dle_iff. rewrite E1. split; [exact N|]. split; [reflexivity|tauto].
  - intro Q0. apply deq_iff in Q0. destruct Q0 as (_ & _ & Q0).
    apply deq_iff. split; [exact N|]. split; [reflexivity|]. rewrite Rx_d0, E, Q0.
    replace (Rx min - Rx min)%R with 0%R by ring. rewrite clip_RN_0. unfold Rdiv. rewrite Rmult_0_l. apply clip_RN_0.
  - intro Q0. apply deq_iff in Q0. destruct Q0 as (_ & _ & Q0).
    apply deq_iff. split; [exact N|]. split; [reflexivity|]. rewrite E1, E, Q0.
    destruct (dsub_Rx max min Fx Fn) as [_ E2]. rewrite <- E2. unfold Rdiv. rewrite Rinv_r by lra.
    change 1%R with (IZR 1). apply clip_RN_IZR. lia.
Qed.

Lemma C35_monotone_lemma min max v v' :
  dlt d0 max -> dlt min max -> dfinite (dsub max min) -> dfinite min -> dfinite max ->
  dle min v -> dle v v' -> dle v' max ->
  dle (scaleSensorReading min max v) (scaleSensorReading min max v').
Proof.
  intros P L FR Fn Fx V0 V V1.
  assert (V1' : dle v max) by (apply (dle_trans _ v'); assumption).
  assert (V0' : dle min v') by (apply (dle_trans _ v); assumption).
  rewrite !scale_normalise by (apply finite_notnan; assumption).
  destruct (normalise_Rx min max v) as (FV & DP & N & E & B); try assumption.
  destruct (normalise_Rx min max v') as (FV' & DP' & N' & E' & B'); try assumption.
  apply dle_iff. split; [exact N|]. split; [exact N'|]. rewrite E, E'.
  apply clip_mono, RN_mono. apply Rmult_le_compat_r; [left; apply Rinv_0_lt_compat; exact DP|].
  apply clip_mono, RN_mono. apply dle_iff in V. destruct V as (_ & _ & V). lra.
Qed.

Lemma C35_passthrough_lemma min max v :
  dle max d0 \/ dle max min -> scaleSensorReading min max v = v.
Proof.
  unfold scaleSensorReading, dle. intros [->| ->]; [reflexivity|]. rewrite orb_true_r. reflexivity.
Qed.

(** ** C32 on the writers themselves *)

Lemma C32_dbus_lemma w v force ok :
  dw_percent w = true -> usable_range (dw_min w) (dw_max w) ->
  dle d0 v -> dle v (D 1) ->
  exists w' raw, dbus_write v force ok w = Ok (w', raw) /\ dw_min w <= raw <= dw_max w /\
    Forall (fun c => In c (dw_calls w) \/ c = (raw, ok)) (dw_calls w').
Proof.
  intros P (U0 & U1 & U2) V0 V1.
  destruct (C32_bounds_lemma (dw_min w) (dw_max w) v) as (raw & T & B); try assumption; try lia.
  assert (T' : to_int64 (dw_target w v) = Some raw) by (unfold dw_target; rewrite P; exact T).
  rewrite (dbus_write_step v force ok w raw) by (assumption || lia).
  eexists _, raw. split; [reflexivity|]. split; [exact B|]. cbn [dw_calls].
  apply Forall_forall. intros c I. apply in_app_iff in I. destruct I as [I|I]; [|left; exact I].
  destruct (negb (raw =? dw_oldValue w) || force); [|destruct I]. destruct I as [<-|[]]. right. reflexivity.
Qed.

Lemma C32_sysfs_lemma min max v file :
  Z.abs min <= 2 ^ 53 -> Z.abs max <= 2 ^ 53 -> min <= max -> max - min <= 2 ^ 53 ->
  dle d0 v -> dle v (D 1) ->
  exists raw, sysfs_write true min max v true file = Ok (Some raw) /\ min <= raw <= max.
Proof.
  intros. destruct (C32_bounds_lemma min max v) as (raw & T & B); try assumption.
  exists raw. unfold sysfs_write. rewrite T. split; [reflexivity|exact B].
Qed.

Lemma C32_same_lemma w v ok file :
  dw_percent w = true -> usable_range (dw_min w) (dw_max w) -> dle d0 v -> dle v (D 1) ->
  forall w' raw, dbus_write v true ok w = Ok (w', raw) ->
  sysfs_write true (dw_min w) (dw_max w) v true file = Ok (Some raw).
Proof.
  intros P (U0 & U1 & U2) V0 V1 w' raw H.
  destruct (C32_bounds_lemma (dw_min w) (dw_max w) v) as (r & T & B); try assumption; try lia.
  assert (T' : to_int64 (dw_target w v) = Some r) by (unfold dw_target; rewrite P; exact T).
  rewrite (dbus_write_step v true ok w r) in H by (assumption || lia). injection H as _ <-.
  unfold sysfs_write. rewrite T. reflexivity.
Qed.

Lemma C32_dbus_ends w v force ok w' raw :
  dw_percent w = true -> usable_range (dw_min w) (dw_max w) ->
  dbus_write v force ok w = Ok (w', raw) ->
  (deq v d0 -> raw = dw_min w) /\ (deq v (D 1) -> raw = dw_max w).
Proof.
  intros P (U0 & U1 & U2) H.
  destruct (C32_ends_lemma (dw_min w) (dw_max w) v) as [E0 E1]; try assumption; try lia.
  assert (TT : forall r, to_int64 (percent_ovalue (dw_min w) (dw_max w) v) = Some r -> 0 <= r -> raw = r).
  { intros r T R. assert (T' : to_int64 (dw_target w v) = Some r) by (unfold dw_target; rewrite P; exact T).
    rewrite (dbus_write_step v force ok w r) in H by assumption. injection H as _ <-. reflexivity. }
  split; intro Q; apply TT; auto; lia.
Qed.

Lemma C32_dbus_monotone w1 w2 v v' f f' ok ok' w1' w2' r r' :
  dw_percent w1 = true -> dw_percent w2 = true -> dw_min w1 = dw_min w2 -> dw_max w1 = dw_max w2 ->
  usable_range (dw_min w1) (dw_max w1) ->
  dle d0 v -> dle v v' -> dle v' (D 1) ->
  dbus_write v f ok w1 = Ok (w1', r) -> dbus_write v' f' ok' w2 = Ok (w2', r') -> r <= r'.
Proof.
  intros P1 P2 Em Ex (U0 & U1 & U2) V0 V V1 H H'.
  assert (V1' : dle v (D 1)) by (apply (dle_trans _ v'); assumption).
  assert (V0' : dle d0 v') by (apply (dle_trans _ v); assumption).
  destruct (C32_bounds_lemma (dw_min w1) (dw_max w1) v) as (q & T & B); try assumption; try lia.
  destruct (C32_bounds_lemma (dw_min w1) (dw_max w1) v') as (q' & T' & B'); try assumption; try lia.
  rewrite (dbus_write_step v f ok w1 q) in H; [|lia|unfold dw_target; rewrite P1; exact T].
  rewrite (dbus_write_step v' f' ok' w2 q') in H'; [|lia|unfold dw_target; rewrite P2, <- Em, <- Ex; exact T'].
  injection H as _ <-. injection H' as _ <-.
  apply (C32_monotone_lemma (dw_min w1) (dw_max w1) v v'); try assumption; lia.
Qed.

Lemma C34_repeat_lemma : exists v r before,
  to_int64 (dw_target (dbus_writer_new true 50 250) v) = Some r /\ before <> r /\
  forall n, exists w,
    dbus_write_all ((v, false, false) :: repeat (v, false, true) n) (dbus_writer_new true 50 250) = Ok w /\
    fan_target before w = before.
Proof.
  exists (ddiv (D 1) (D 2)), 150, 60.
  assert (T : to_int64 (dw_target (dbus_writer_new true 50 250) (ddiv (D 1) (D 2))) = Some 150) by (vm_compute; reflexivity).
  set (v := ddiv (D 1) (D 2)) in *. clearbody v. split; [exact T|]. split; [discriminate|].
  intro n. eexists. split.
  { unfold dbus_write_all. cbn [foldM]. rewrite (dbus_write_step v false false _ 150); [|discriminate|exact T].
    cbn [bind fst]. fold dbus_write_all.
    instantiate (1 := MkDbusWriter true 50 250 150 [(150, false)]).
    change (negb (150 =? dw_oldValue (dbus_writer_new true 50 250)) || false) with true. cbn [app dw_calls dbus_writer_new dw_percent dw_min dw_max].
    induction n as [|n IH]; [reflexivity|].
    cbn [repeat foldM]. rewrite (dbus_write_step v false true _ 150); [|discriminate|exact T].
    cbn [bind fst dw_oldValue dw_calls dw_percent dw_min dw_max Z.eqb Pos.eqb negb orb app]. exact IH. }
  reflexivity.
Qed.
