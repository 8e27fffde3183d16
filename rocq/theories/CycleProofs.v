(** * Proofs about cycle times (C44). *)
From Coq Require Import Reals ZArith Bool List String Lia Lra.
From Coq Require Import Floats.SpecFloat.
From Flocq Require Import Core IEEE754.BinarySingleNaN.
From Verif Require Import Base BaseFacts Dbl DblFacts DblOrder DblBound ConfigModel WriteProofs.
Import ListNotations.
Local Open Scope Z_scope.
Local Open Scope outcome_scope.

Lemma period_ok n : 1 <= n <= 9223372036854 -> timer_period_ns n = Ok (n * 1000000).
Proof.
  intro H. unfold timer_period_ns, to_signed64, int64_min, int64_max.
  destruct (Z.ltb_spec n (2 ^ 63)); [|change (2 ^ 63) with 9223372036854775808 in *; lia].
  destruct (Z.leb_spec (- 2 ^ 63) (n * 1000000)); [|change (2 ^ 63) with 9223372036854775808 in *; lia].
  destruct (Z.leb_spec (n * 1000000) (2 ^ 63 - 1)); [|change (2 ^ 63) with 9223372036854775808 in *; lia]. reflexivity.
Qed.

Lemma finite_between a b d : dfinite a -> dfinite b -> dle a d -> dle d b -> dfinite d.
Proof.
  intros A B L U. destruct d as [s|s| |s m e]; try reflexivity.
  - exfalso. destruct s.
    + apply (dle_dninf_inv a) in L. subst. discriminate.
    + apply (dle_dinf_inv b) in U. subst. discriminate.
  - apply dleb_notnan in L. destruct L as [_ L]. discriminate.
Qed.

Lemma to_uint64_ge1 d n : dle (D 1) d -> to_uint64 d = Some n -> 1 <= n < 2 ^ 64.
Proof.
  intros L T. unfold to_uint64, dtrunc in T. destruct (is_finite d) eqn:F; [|discriminate].
  cbv zeta in T. destruct ((0 <=? Btrunc d) && (Btrunc d <=? uint64_max)) eqn:B; [|discriminate].
  inversion T; subst. apply andb_true_iff in B. destruct B as [_ B]. apply Z.leb_le in B. unfold uint64_max in B.
  split; [|lia]. rewrite (Btrunc_Rx d F). apply dle_iff in L. destruct L as (_ & _ & L). destruct (D_exact 1) as [_ E]; [cbn; lia|]. rewrite E in L.
  apply Ztrunc_le in L. rewrite Ztrunc_IZR in L. exact L.
Qed.

Lemma C44_dbus_lemma props attr default n :
  1 <= default < 2 ^ 64 -> getCycleTimeSetting_dbus props attr default = Ok n -> 1 <= n < 2 ^ 64.
Proof.
  intros H E. unfold getCycleTimeSetting_dbus in E. destruct (mget attr props) as [v|]; [|congruence].
  destruct (variant_to_double v) as [d| |]; cbn [bind] in E; try discriminate.
  destruct (dgeb d (D 1)) eqn:G; [|congruence].
  destruct (to_uint64 d) as [m|] eqn:T; [|discriminate]. inversion E; subst. eapply to_uint64_ge1; eassumption.
Qed.

Lemma C44_json_lemma zone attr default n :
  1 <= default < 2 ^ 64 ->
  (forall k, mget attr zone = Some (JUint k) -> k < 2 ^ 64) ->
  getCycleTimeSetting_json zone attr default = Ok n -> 1 <= n < 2 ^ 64.
Proof.
  intros H J E. unfold getCycleTimeSetting_json in E. destruct (mget attr zone) as [j|]; [|congruence].
  destruct (json_to_uint64 j) as [m| |] eqn:K; cbn [bind] in E; try discriminate.
  assert (m < 2 ^ 64).
  { destruct j; cbn in K; try discriminate.
    - inversion K; subst. apply J. reflexivity.
    - inversion K; subst. apply Z.mod_pos_bound. lia.
    - destruct (to_uint64 d) as [q|] eqn:T; [|discriminate]. inversion K; subst. unfold to_uint64, dtrunc in T.
      destruct (is_finite d); [|discriminate]. cbv zeta in T. destruct ((0 <=? Btrunc d) && (Btrunc d <=? uint64_max)) eqn:B; [|discriminate].
      inversion T; subst. apply andb_true_iff in B. destruct B as [_ B]. apply Z.leb_le in B. unfold uint64_max in B. lia. }
  destruct (Z.leb_spec 1 m); inversion E; subst; lia.
Qed.

Lemma C44_dbus_period_lemma props attr default :
  1 <= default <= 9223372036854 ->
  (forall v, mget attr props = Some v ->
     exists d, variant_to_double v = Ok d /\ (notnan d -> dle d (D 9223372036854))) ->
  exists n, getCycleTimeSetting_dbus props attr default = Ok n /\ 1 <= n /\
            timer_period_ns n = Ok (n * 1000000).
Proof.
  intros H V. unfold getCycleTimeSetting_dbus. destruct (mget attr props) as [v|].
  2: { exists default. split; [reflexivity|]. split; [lia|apply period_ok; exact H]. }
  destruct (V v eq_refl) as (d & -> & B). cbn [bind]. destruct (dgeb d (D 1)) eqn:G.
  2: { exists default. split; [reflexivity|]. split; [lia|apply period_ok; exact H]. }
  change (dle (D 1) d) in G. assert (N : notnan d) by (apply dle_iff in G; tauto). specialize (B N).
  destruct (D_exact 1) as [F1 E1]; [cbn; lia|]. destruct (D_exact 9223372036854) as [F2 E2]; [cbn; lia|].
  assert (F : dfinite d) by (exact (finite_between _ _ d F1 F2 G B)).
  apply dle_iff in G. destruct G as (_ & _ & G). apply dle_iff in B. destruct B as (_ & _ & B). rewrite E1 in G. rewrite E2 in B.
  assert (T := Ztrunc_between (Rx d) 1 9223372036854 (conj G B)).
  assert (U : to_uint64 d = Some (Ztrunc (Rx d))).
  { apply dtrunc_spec; [exact F|]. unfold uint64_max. change (2 ^ 64) with 18446744073709551616. lia. }
  rewrite U. exists (Ztrunc (Rx d)). split; [reflexivity|]. split; [lia|]. apply period_ok. lia.
Qed.

Lemma C44_json_period_lemma zone attr default :
  1 <= default <= 9223372036854 ->
  (forall j, mget attr zone = Some j -> exists k, j = JUint k /\ 0 <= k <= 9223372036854) ->
  exists n, getCycleTimeSetting_json zone attr default = Ok n /\ 1 <= n /\
            timer_period_ns n = Ok (n * 1000000).
Proof.
  intros H J. unfold getCycleTimeSetting_json. destruct (mget attr zone) as [j|].
  2: { exists default. split; [reflexivity|]. split; [lia|apply period_ok; exact H]. }
  destruct (J j eq_refl) as (k & -> & B). cbn [json_to_uint64 bind]. destruct (Z.leb_spec 1 k).
  - exists k. split; [reflexivity|]. split; [lia|apply period_ok; lia].
  - exists default. split; [reflexivity|]. split; [lia|apply period_ok; exact H].
Qed.

Lemma C44_dbus_value_lemma props attr default :
  (mget attr props = None -> getCycleTimeSetting_dbus props attr default = Ok default) /\
  (forall v k, mget attr props = Some v -> variant_to_double v = Ok (D k) -> Z.abs k <= 2 ^ 53 ->
     getCycleTimeSetting_dbus props attr default = Ok (if 1 <=? k then k else default)) /\
  (forall v, mget attr props = Some v -> variant_to_double v = Ok dnan ->
     getCycleTimeSetting_dbus props attr default = Ok default).
Proof.
  unfold getCycleTimeSetting_dbus. split; [intros ->; reflexivity|]. split.
  - intros v k -> -> B. cbn [bind]. destruct (D_exact 1) as [F1 E1]; [cbn; lia|]. destruct (D_exact k B) as [F E].
    unfold dgeb. destruct (dleb (D 1) (D k)) eqn:G.
    + apply dleb_Rx in G; [|apply D_notnan; cbn; lia|apply D_notnan; exact B]. rewrite E1, E in G. apply le_IZR in G.
      destruct (Z.leb_spec 1 k); [|lia].
      assert (T : to_uint64 (D k) = Some (Ztrunc (Rx (D k)))).
      { apply dtrunc_spec; [exact F|]. rewrite E, Ztrunc_IZR. unfold uint64_max.
        change (2 ^ 53) with 9007199254740992 in B. change (2 ^ 64) with 18446744073709551616. lia. }
      rewrite T, E, Ztrunc_IZR. reflexivity.
    + apply dleb_Rx_false in G; [|apply D_notnan; cbn; lia|apply D_notnan; exact B]. rewrite E1, E in G. apply lt_IZR in G.
      destruct (Z.leb_spec 1 k); [lia|]. reflexivity.
  - intros v -> ->. cbn [bind]. unfold dgeb. rewrite dleb_nan_r by reflexivity. reflexivity.
Qed.

Lemma C44_json_value_lemma zone attr default :
  (mget attr zone = None -> getCycleTimeSetting_json zone attr default = Ok default) /\
  (forall k, mget attr zone = Some (JUint k) -> 0 <= k ->
     getCycleTimeSetting_json zone attr default = Ok (if k =? 0 then default else k)).
Proof.
  unfold getCycleTimeSetting_json. split; [intros ->; reflexivity|]. intros k -> K. cbn.
  destruct (Z.eqb_spec k 0), (Z.leb_spec 1 k); try lia; reflexivity.
Qed.
