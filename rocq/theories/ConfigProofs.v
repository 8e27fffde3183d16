(** * Proofs of the configuration properties (C36, C37, C43, C44) and of C42. *)
From Coq Require Import ZArith Bool List String Ascii Lia.
From Verif Require Import Base BaseFacts Dbl DblFacts DblOrder ZoneModel ConfigModel SpecConfig SensorProofs IpmiModel.
From Verif Require BuilderModel.
Import ListNotations.
Local Open Scope string_scope.
Local Open Scope Z_scope.
Local Open Scope outcome_scope.

(** ** C36 *)

Lemma index_used_In zones i : index_used zones i = true <-> exists n, In (n, i) zones.
Proof.
  unfold index_used. rewrite existsb_exists. split.
  - intros ((n, j) & I & E). apply Z.eqb_eq in E. cbn in E. subst. eauto.
  - intros (n & I). exists (n, i). split; [exact I|]. apply Z.eqb_eq. reflexivity.
Qed.

Definition above (i : Z) (zones : smap Z) : nat :=
  List.length (filter (fun e => i <=? snd e) zones).

Lemma above_le i zones : (above (i + 1) zones <= above i zones)%nat.
Proof.
  induction zones as [|[n j] r IH]; [reflexivity|]. unfold above in *. cbn [filter snd].
  destruct (Z.leb_spec (i + 1) j), (Z.leb_spec i j); cbn [List.length]; lia.
Qed.
Lemma above_used i zones : index_used zones i = true -> (above (i + 1) zones < above i zones)%nat.
Proof.
  intro U. apply index_used_In in U. destruct U as [n I].
  induction zones as [|[m j] r IH]; [destruct I|]. destruct I as [E|I].
  - inversion E; subst. unfold above. cbn [filter snd].
    destruct (Z.leb_spec (i + 1) i); [lia|]. destruct (Z.leb_spec i i); [|lia]. cbn [List.length].
    pose proof (above_le i r). unfold above in *. lia.
  - specialize (IH I). unfold above in *. cbn [filter snd].
    destruct (Z.leb_spec (i + 1) j), (Z.leb_spec i j); cbn [List.length]; lia.
Qed.

Lemma free_index_spec : forall fuel zones index,
  (above index zones < fuel)%nat ->
  match free_index fuel zones index with
  | Ok i => index <= i /\ index_used zones i = false /\
            (forall j, index <= j < i -> index_used zones j = true) /\
            i <= index + Z.of_nat (above index zones)
  | UB _ => index <= int64_max -> forall j, index <= j <= int64_max -> index_used zones j = true
  | Throw _ => False
  end.
Proof.
  induction fuel as [|fuel IH]; intros zones index F; [lia|]. cbn [free_index].
  destruct (index_used zones index) eqn:U.
  - destruct (Z.eqb_spec index int64_max) as [->|NE].
    + intros _ j J. assert (j = int64_max) by lia. subst. exact U.
    + pose proof (above_used _ _ U) as A. specialize (IH zones (index + 1)).
      destruct (free_index fuel zones (index + 1)) as [i| |]; [|apply IH; lia|].
      * destruct IH as (H1 & H2 & H3 & H4); [lia|]. split; [lia|]. split; [exact H2|]. split; [|lia].
        intros j J. destruct (Z.eq_dec j index) as [->|]; [exact U|]. apply H3. lia.
      * intros L j J. destruct (Z.eq_dec j index) as [->|]; [exact U|]. apply IH; lia.
  - split; [lia|]. split; [exact U|]. split; [intros; lia|lia].
Qed.

Definition good_zones (zones : smap Z) : Prop :=
  sorted_map zones /\ forall n1 n2 i, mget n1 zones = Some i -> mget n2 zones = Some i -> n1 = n2.

Lemma taken_used zones i : sorted_map zones -> (taken i zones <-> index_used zones i = true).
Proof.
  intro S. rewrite index_used_In. unfold taken, number_of. split; intros [n H]; exists n.
  - apply mget_In. exact H.
  - apply sorted_In_mget; assumption.
Qed.

Lemma setZoneIndex_spec name zones index :
  good_zones zones ->
  match setZoneIndex name zones index with
  | Ok (i, zones') =>
      good_zones zones' /\ mget name zones' = Some i /\
      (forall n, n <> name -> mget n zones' = mget n zones) /\
      (forall j, mget name zones = Some j -> i = j) /\
      (mget name zones = None ->
       index <= i /\ ~ taken i zones /\ forall j, index <= j < i -> taken j zones)
  | Throw _ => False
  | UB _ => mget name zones = None /\ (index <= int64_max -> forall j, index <= j <= int64_max -> taken j zones)
  end.
Proof.
  intros [S U]. unfold setZoneIndex. destruct (mget name zones) as [i|] eqn:G.
  - split; [split; assumption|]. split; [exact G|]. split; [reflexivity|]. split; [congruence|discriminate].
  - pose proof (free_index_spec (Datatypes.S (List.length zones)) zones index) as F.
    assert (A : (above index zones < Datatypes.S (List.length zones))%nat).
    { unfold above. clear. induction zones as [|e r IH]; cbn [filter]; [cbn; lia|].
      destruct (index <=? snd e); cbn [List.length]; lia. }
    specialize (F A). destruct (free_index _ zones index) as [i| |]; cbn [bind].
    + destruct F as (H1 & H2 & H3 & _). assert (NT : ~ taken i zones).
      { rewrite taken_used by exact S. congruence. }
      split; [split|].
      * apply sorted_mset. exact S.
      * intros n1 n2 j. rewrite !mget_mset.
        destruct (String.eqb_spec n1 name) as [->|N1], (String.eqb_spec n2 name) as [->|N2]; intros E1 E2.
        -- reflexivity.
        -- exfalso. apply NT. exists n2. unfold number_of. congruence.
        -- exfalso. apply NT. exists n1. unfold number_of. congruence.
        -- eapply U; eassumption.
      * split; [apply mget_mset_same|]. split; [intros n N; apply mget_mset_other; congruence|].
        split; [discriminate|]. intros _. split; [exact H1|]. split; [exact NT|].
        intros j J. rewrite taken_used by exact S. apply H3. exact J.
    + exact F.
    + split; [reflexivity|]. intros L j J. rewrite taken_used by exact S. apply F; assumption.
Qed.

Lemma zone_op_as_set o zones : zone_op_step zones o = match o with ZSet n i => setZoneIndex n zones i | ZGet n => setZoneIndex n zones 0 end.
Proof. destruct o; [reflexivity|]. cbn. unfold getZoneIndex, setZoneIndex. destruct (mget name zones); reflexivity. Qed.

Lemma zone_op_spec o zones :
  good_zones zones ->
  match zone_op_step zones o with
  | Ok (i, zones') =>
      good_zones zones' /\ mget (zone_op_name o) zones' = Some i /\
      (forall n, n <> zone_op_name o -> mget n zones' = mget n zones) /\
      (forall j, mget (zone_op_name o) zones = Some j -> i = j)
  | Throw _ => False
  | UB _ => True
  end.
Proof.
  intro G. rewrite zone_op_as_set. destruct o as [n i|n]; cbn [zone_op_name].
  - pose proof (setZoneIndex_spec n zones i G) as S. destruct (setZoneIndex n zones i) as [[j zs]| |]; tauto.
  - pose proof (setZoneIndex_spec n zones 0 G) as S. destruct (setZoneIndex n zones 0) as [[j zs]| |]; tauto.
Qed.

Lemma zone_ops_spec : forall ops zones zones',
  good_zones zones -> zone_ops ops zones = Ok zones' ->
  good_zones zones' /\ forall n i, mget n zones = Some i -> mget n zones' = Some i.
Proof.
  induction ops as [|o ops IH]; intros zones zones' G E; cbn in E.
  - inversion E; subst. auto.
  - pose proof (zone_op_spec o zones G) as S. destruct (zone_op_step zones o) as [[i zs]| |]; cbn in E; [|destruct S|discriminate].
    destruct S as (S1 & S2 & S3 & S4). destruct (IH zs zones' S1 E) as [I1 I2]. split; [exact I1|].
    intros n j M. apply I2. destruct (String.eqb_spec n (zone_op_name o)) as [->|N].
    + rewrite S2. f_equal. symmetry. symmetry. apply S4. exact M.
    + rewrite S3 by exact N. exact M.
Qed.

Lemma good_nil : good_zones [].
Proof. split; [apply sorted_nil|]. intros n1 n2 i E. discriminate. Qed.

Lemma C36_unique_lemma ops zones n1 n2 i :
  zone_ops ops [] = Ok zones ->
  number_of n1 zones = Some i -> number_of n2 zones = Some i -> n1 = n2.
Proof. intros E. destruct (zone_ops_spec _ _ _ good_nil E) as [[_ U] _]. apply U. Qed.

Lemma C36_stable_lemma ops more zones zones' n i :
  zone_ops ops [] = Ok zones -> number_of n zones = Some i -> zone_ops more zones = Ok zones' ->
  number_of n zones' = Some i /\
  forall o r, zone_op_name o = n -> zone_op_step zones' o = Ok r -> r = (i, zones').
Proof.
  intros E M E'. destruct (zone_ops_spec _ _ _ good_nil E) as [G _].
  destruct (zone_ops_spec _ _ _ G E') as [G' K]. specialize (K n i M). split; [exact K|].
  intros o r N. rewrite zone_op_as_set. unfold number_of in K.
  destruct o as [m j|m]; cbn in N; subst m; unfold setZoneIndex; rewrite K; congruence.
Qed.

Lemma C36_granted_lemma ops zones n index i zones' :
  zone_ops ops [] = Ok zones -> number_of n zones = None ->
  setZoneIndex n zones index = Ok (i, zones') ->
  number_of n zones' = Some i /\ index <= i /\ ~ taken i zones /\
  (forall j, index <= j < i -> taken j zones) /\
  (forall m, m <> n -> number_of m zones' = number_of m zones).
Proof.
  intros E M H. destruct (zone_ops_spec _ _ _ good_nil E) as [G _].
  pose proof (setZoneIndex_spec n zones index G) as S. rewrite H in S. destruct S as (S1 & S2 & S3 & S4 & S5).
  specialize (S5 M). unfold number_of in *. tauto.
Qed.

Lemma C36_lookup_lemma ops zones n :
  zone_ops ops [] = Ok zones -> number_of n zones = None ->
  getZoneIndex n zones = setZoneIndex n zones 0.
Proof. intros _ M. unfold getZoneIndex, number_of in *. rewrite M. reflexivity. Qed.

Lemma C36_total_lemma ops zones n index :
  zone_ops ops [] = Ok zones -> index + Z.of_nat (List.length zones) <= int64_max ->
  exists i zones', setZoneIndex n zones index = Ok (i, zones').
Proof.
  intros E L. destruct (zone_ops_spec _ _ _ good_nil E) as [G _].
  unfold setZoneIndex. destruct (mget n zones) as [i|]; [eauto|].
  assert (K : forall fuel k, (above k zones < fuel)%nat -> k + Z.of_nat (above k zones) <= int64_max ->
     exists i, free_index fuel zones k = Ok i).
  { clear. induction fuel as [|fuel IH]; intros k A L; [lia|]. cbn [free_index].
    destruct (index_used zones k) eqn:U; [|eauto]. pose proof (above_used _ _ U).
    destruct (Z.eqb_spec k int64_max) as [->|NE]; [lia|]. apply IH; [lia|].
    pose proof (above_le k zones). lia. }
  assert (A : (above index zones <= List.length zones)%nat).
  { unfold above. clear. induction zones as [|e r IH]; cbn [filter]; [cbn; lia|].
    destruct (index <=? snd e); cbn [List.length]; lia. }
  destruct (K (S (List.length zones)) index) as [i ->]; [lia|lia|]. cbn. eauto.
Qed.

(** ** C37 *)

Lemma splice_margins_length : forall l zs, List.length (splice_margins l zs) = List.length l.
Proof. induction l as [|i l IH]; destruct zs; cbn; auto. Qed.
Lemma splice_margins_nth : forall l zs k i,
  nth_error l k = Some i ->
  nth_error (splice_margins l zs) k =
    Some (match nth_error zs k with Some z => set_margin z i | None => i end).
Proof.
  induction l as [|x l IH]; intros zs [|k] i H; cbn in H; try discriminate.
  - inversion H; subst. destruct zs; reflexivity.
  - destruct zs as [|z zs]; cbn.
    + rewrite H. reflexivity.
    + apply IH. exact H.
Qed.

Lemma C37_lemma names zeros acceptable k name :
  nth_error names k = Some name ->
  exists i, nth_error (spliceInputs names zeros acceptable) k = Some i /\
    si_name i = name /\
    (si_missingIsAcceptable i = true <-> In name acceptable) /\
    match nth_error zeros k with
    | Some z => si_convertTempToMargin i = true /\ si_convertMarginZero i = z
    | None => si_convertTempToMargin i = false
    end.
Proof.
  intro H. unfold spliceInputs.
  pose proof (splice_margins_nth (map (fun n => MkInput n dnan false false) names) zeros k (MkInput name dnan false false)) as S.
  rewrite nth_error_map, H in S. specialize (S eq_refl).
  erewrite map_nth_error; [|exact S]. eexists. split; [reflexivity|].
  destruct (nth_error zeros k) as [z|]; cbn [si_name set_margin].
  - destruct (smem name acceptable) eqn:M; cbn.
    + apply smem_In in M. intuition.
    + apply smem_false in M. intuition; discriminate.
  - destruct (smem name acceptable) eqn:M; cbn.
    + apply smem_In in M. intuition.
    + apply smem_false in M. intuition; discriminate.
Qed.

Lemma C37_names_lemma names zeros acceptable : splitNames (spliceInputs names zeros acceptable) = names.
Proof.
  unfold splitNames, spliceInputs. rewrite map_map.
  rewrite (map_ext _ si_name); [|intro i; destruct (smem (si_name i) acceptable); reflexivity].
  revert zeros. induction names as [|n r IH]; intros [|z zs]; cbn; [reflexivity|reflexivity| |].
  - f_equal. rewrite map_map. apply map_id.
  - f_equal. apply IH.
Qed.

(** ** C43 *)

Lemma occurs_iff n s : n <> "" -> (str_contains n s = true <-> occurs n s).
Proof. apply str_contains_iff. Qed.
Lemma occurs_iff_false n s : n <> "" -> (str_contains n s = false <-> ~ occurs n s).
Proof. intro N. rewrite <- occurs_iff by exact N. destruct (str_contains n s); intuition congruence. Qed.

Lemma C43_read_lemma path :
  (getReadInterfaceType path = IoNONE <-> path = "" \/ path = "None") /\
  (getReadInterfaceType path = IoEXTERNAL <-> occurs "/xyz/openbmc_project/extsensors/" path) /\
  (getReadInterfaceType path = IoDBUSPASSIVE <->
     occurs "/xyz/openbmc_project/" path /\ ~ occurs "/xyz/openbmc_project/extsensors/" path) /\
  (getReadInterfaceType path = IoSYSFS <-> occurs "/sys/" path /\ ~ occurs "/xyz/openbmc_project/" path) /\
  (getReadInterfaceType path = IoUNKNOWN <->
     path <> "" /\ path <> "None" /\ ~ occurs "/sys/" path /\ ~ occurs "/xyz/openbmc_project/" path) /\
  getReadInterfaceType path <> IoDBUSACTIVE.
Proof.
  assert (SUB : occurs "/xyz/openbmc_project/extsensors/" path -> occurs "/xyz/openbmc_project/" path).
  { intros (a & b & ->). exists a, ("extsensors/" ++ b). reflexivity. }
  assert (L : forall a b c : string, (String.length (a ++ b ++ c) = String.length a + String.length b + String.length c)%nat).
  { assert (LL : forall x y : string, String.length (x ++ y) = (String.length x + String.length y)%nat).
    { induction x as [|ch x IHx]; intro y; cbn; [reflexivity|]. rewrite IHx. reflexivity. }
    intros. rewrite !LL. lia. }
  assert (SH : forall n, (4 < String.length n)%nat -> occurs n path -> path <> "" /\ path <> "None").
  { intros n N (a & b & ->). split; intro E; apply (f_equal String.length) in E; rewrite L in E; cbn in E; lia. }
  assert (S1 := SH "/sys/"). assert (S2 := SH "/xyz/openbmc_project/"). cbn in S1, S2.
  specialize (S1 ltac:(lia)). specialize (S2 ltac:(lia)).
  unfold getReadInterfaceType, external_sensor, openbmc_sensor, sysfs.
  destruct (String.eqb_spec path "") as [P1|P1]; cbn [orb].
  { intuition (try discriminate; try congruence). }
  destruct (String.eqb_spec "None" path) as [P2|P2].
  { intuition (try discriminate; try congruence). }
  destruct (str_contains "/xyz/openbmc_project/extsensors/" path) eqn:E1;
    [apply occurs_iff in E1; [|discriminate]|apply occurs_iff_false in E1; [|discriminate]].
  { intuition (try discriminate; try congruence). }
  destruct (str_contains "/xyz/openbmc_project/" path) eqn:E2;
    [apply occurs_iff in E2; [|discriminate]|apply occurs_iff_false in E2; [|discriminate]].
  { intuition (try discriminate; try congruence). }
  destruct (str_contains "/sys/" path) eqn:E3;
    [apply occurs_iff in E3; [|discriminate]|apply occurs_iff_false in E3; [|discriminate]];
  intuition (try discriminate; try congruence).
Qed.

Lemma C43_write_lemma path :
  (getWriteInterfaceType path = IoNONE <-> path = "" \/ path = "None") /\
  (getWriteInterfaceType path = IoSYSFS <-> occurs "/sys/" path) /\
  (getWriteInterfaceType path = IoDBUSACTIVE <-> occurs "/xyz/openbmc_project/" path /\ ~ occurs "/sys/" path) /\
  (getWriteInterfaceType path = IoUNKNOWN <->
     path <> "" /\ path <> "None" /\ ~ occurs "/sys/" path /\ ~ occurs "/xyz/openbmc_project/" path) /\
  getWriteInterfaceType path <> IoDBUSPASSIVE /\ getWriteInterfaceType path <> IoEXTERNAL.
Proof.
  assert (L : forall a b c : string, (String.length (a ++ b ++ c) = String.length a + String.length b + String.length c)%nat).
  { assert (LL : forall x y : string, String.length (x ++ y) = (String.length x + String.length y)%nat).
    { induction x as [|ch x IHx]; intro y; cbn; [reflexivity|]. rewrite IHx. reflexivity. }
    intros. rewrite !LL. lia. }
  assert (SH : forall n, (4 < String.length n)%nat -> occurs n path -> path <> "" /\ path <> "None").
  { intros n N (a & b & ->). split; intro E; apply (f_equal String.length) in E; rewrite L in E; cbn in E; lia. }
  assert (S1 := SH "/sys/"). assert (S2 := SH "/xyz/openbmc_project/"). cbn in S1, S2.
  specialize (S1 ltac:(lia)). specialize (S2 ltac:(lia)).
  unfold getWriteInterfaceType, openbmc_sensor, sysfs.
  destruct (String.eqb_spec path "") as [P1|P1]; cbn [orb].
  { intuition (try discriminate; try congruence). }
  destruct (String.eqb_spec "None" path) as [P2|P2].
  { intuition (try discriminate; try congruence). }
  destruct (str_contains "/sys/" path) eqn:E3;
    [apply occurs_iff in E3; [|discriminate]|apply occurs_iff_false in E3; [|discriminate]].
  { intuition (try discriminate; try congruence). }
  destruct (str_contains "/xyz/openbmc_project/" path) eqn:E2;
    [apply occurs_iff in E2; [|discriminate]|apply occurs_iff_false in E2; [|discriminate]];
  intuition (try discriminate; try congruence).
Qed.

(** ** C42 *)

Lemma C42_reads_lemma be req : Forall (fun i => (i < List.length req)%nat) (rp_read (manualModeControl be req)).
Proof.
  unfold manualModeControl. destruct (Z.ltb_spec (Z.of_nat (List.length req)) 2) as [|L]; [constructor|].
  assert (B : forall n, (n <? 2) = true \/ 2 <= n) by (intro n; destruct (Z.ltb_spec n 2); auto).
  cbn [rp_read]. constructor; [lia|].
  assert (G : forall p, Forall (fun i => (i < List.length req)%nat) (rp_read (get_state p be req (Z.of_nat (List.length req))))).
  { intro p. unfold get_state. destruct (Z.ltb_spec (Z.of_nat (List.length req)) 2); [constructor|].
    destruct (zc_get be (byte_at req 1) p) as [[rc c]|e|e]; [destruct (negb (rc =? 0))| |]; cbn; repeat constructor; lia. }
  destruct (byte_at req 0 =? 0); [apply G|]. destruct (byte_at req 0 =? 1); [|destruct (byte_at req 0 =? 2); [apply G|constructor]].
  unfold setManualModeState. destruct (Z.ltb_spec (Z.of_nat (List.length req)) 3); [constructor|].
  cbn. repeat constructor; lia.
Qed.

Lemma C42_set_lemma be req zone value property :
  In (ZcSet zone value property) (rp_calls (manualModeControl be req)) ->
  exists v rest, req = 1 :: zone :: v :: rest /\ (value = true <-> v <> 0) /\ property = "Manual".
Proof.
  unfold manualModeControl. destruct (Z.ltb_spec (Z.of_nat (List.length req)) 2) as [|L]; [intros []|]. cbn [rp_calls].
  assert (G : forall p, ~ In (ZcSet zone value property) (rp_calls (get_state p be req (Z.of_nat (List.length req))))).
  { intro p. unfold get_state. destruct (Z.ltb_spec (Z.of_nat (List.length req)) 2); [intros []|].
    destruct (zc_get be (byte_at req 1) p) as [[rc c]|e|e]; [destruct (negb (rc =? 0))| |]; intros [E|[]]; discriminate. }
  destruct (byte_at req 0 =? 0); [intro H; destruct (G _ H)|].
  destruct (Z.eqb_spec (byte_at req 0) 1) as [C|_]; [|destruct (byte_at req 0 =? 2); [intro H; destruct (G _ H)|intros []]].
  unfold setManualModeState. destruct (Z.ltb_spec (Z.of_nat (List.length req)) 3); [intros []|].
  destruct req as [|a [|b [|c rest]]]; cbn [List.length] in *; try lia. cbn in C. subst a.
  intros [E|[]]. unfold byte_at in E. cbn in E. inversion E; subst. exists c, rest. split; [reflexivity|]. split; [|reflexivity].
  destruct (Z.eqb_spec c 0); cbn; split; congruence.
Qed.

Lemma C42_set_does_lemma be zone v rest :
  let r := manualModeControl be (1 :: zone :: v :: rest) in
  rp_calls r = [ZcSet zone (negb (v =? 0)) "Manual"] /\ rp_code r = zc_set be zone (negb (v =? 0)) "Manual" /\
  rp_data r = None.
Proof.
  cbv zeta. unfold manualModeControl. cbn [List.length].
  destruct (Z.ltb_spec (Z.of_nat (S (S (S (List.length rest))))) 2); [lia|]. cbn [byte_at nth].
  change (1 =? 0) with false. change (1 =? 1) with true. cbv iota.
  unfold setManualModeState. destruct (Z.ltb_spec (Z.of_nat (S (S (S (List.length rest))))) 3); [lia|].
  repeat split.
Qed.

Lemma C42_get_lemma be cmd zone rest property :
  cmd = 0 /\ property = "Manual" \/ cmd = 2 /\ property = "FailSafe" ->
  let r := manualModeControl be (cmd :: zone :: rest) in
  rp_calls r = [ZcGet zone property] /\
  (forall current, zc_get be zone property = Ok (0, current) ->
   rp_code r = Ok 0 /\ rp_len r = 1 /\ rp_data r = Some (if current then 1 else 0)) /\
  (forall rc current, zc_get be zone property = Ok (rc, current) -> rc <> 0 ->
   rp_code r = Ok rc /\ rp_data r = None) /\
  (forall e, zc_get be zone property = Throw e -> rp_code r = Throw e /\ rp_data r = None).
Proof.
  intro C. cbv zeta. unfold manualModeControl. cbn [List.length].
  destruct (Z.ltb_spec (Z.of_nat (S (S (List.length rest)))) 2); [lia|]. cbn [byte_at nth].
  assert (G : let r := get_state property be (cmd :: zone :: rest) (Z.of_nat (S (S (List.length rest)))) in
    rp_calls r = [ZcGet zone property] /\
  (forall current, zc_get be zone property = Ok (0, current) ->
   rp_code r = Ok 0 /\ rp_len r = 1 /\ rp_data r = Some (if current then 1 else 0)) /\
  (forall rc current, zc_get be zone property = Ok (rc, current) -> rc <> 0 ->
   rp_code r = Ok rc /\ rp_data r = None) /\
  (forall e, zc_get be zone property = Throw e -> rp_code r = Throw e /\ rp_data r = None)).
  { unfold get_state. destruct (Z.ltb_spec (Z.of_nat (S (S (List.length rest)))) 2); [lia|]. cbn [byte_at nth].
    destruct (zc_get be zone property) as [[rc c]|e|e].
    - split; [destruct (negb (rc =? 0)); reflexivity|].
      split; [|split].
      + intros current E. inversion E; subst. repeat split.
      + intros rc' current E N. inversion E; subst. destruct (Z.eqb_spec rc' 0); [congruence|]. repeat split.
      + intros e E. discriminate.
    - split; [reflexivity|]. split; [intros current E; discriminate|]. split; [intros rc' current E; discriminate|].
      intros e' E. inversion E; subst. repeat split.
    - split; [reflexivity|]. split; [intros current E; discriminate|]. split; [intros rc' current E; discriminate|].
      intros e' E. discriminate. }
  destruct C as [[-> ->]|[-> ->]]; exact G.
Qed.

Lemma C42_reject_lemma be req :
  (List.length req < 2)%nat \/ (exists c rest, req = c :: rest /\ c <> 0 /\ c <> 1 /\ c <> 2) \/
  (exists z, req = [1; z]) ->
  let r := manualModeControl be req in
  rp_code r = Ok 193 /\ rp_calls r = [] /\ rp_data r = None.
Proof.
  intro C. cbv zeta. unfold manualModeControl.
  destruct (Z.ltb_spec (Z.of_nat (List.length req)) 2) as [|L]; [repeat split|].
  destruct C as [C|[(c & rest & -> & N0 & N1 & N2)|[z ->]]]; [lia| |].
  - cbn [byte_at nth].
    destruct (Z.eqb_spec c 0); [congruence|]. destruct (Z.eqb_spec c 1); [congruence|].
    destruct (Z.eqb_spec c 2); [congruence|]. repeat split.
  - repeat split.
Qed.

Lemma low_zone_path zone : 0 <= zone < 128 ->
  ipmi_getControlPath zone = objectPath ++ to_string zone /\ object_path_valid (ipmi_getControlPath zone) = true.
Proof.
  intro H. split.
  - unfold ipmi_getControlPath. destruct (Z.ltb_spec zone 128); [reflexivity|lia].
  - assert (A : forallb (fun n => object_path_valid (ipmi_getControlPath (Z.of_nat n))) (seq 0 128) = true) by (vm_compute; reflexivity).
    rewrite forallb_forall in A. specialize (A (Z.to_nat zone)). rewrite Z2Nat.id in A by lia. apply A. apply in_seq. lia.
Qed.

Lemma high_zone_path zone : 128 <= zone < 256 -> object_path_valid (ipmi_getControlPath zone) = false.
Proof.
  intro H.
  assert (A : forallb (fun n => negb (object_path_valid (ipmi_getControlPath (Z.of_nat n)))) (seq 128 128) = true) by (vm_compute; reflexivity).
  rewrite forallb_forall in A. specialize (A (Z.to_nat zone)). rewrite Z2Nat.id in A by lia.
  apply negb_true_iff. apply A. apply in_seq. lia.
Qed.

Lemma C42_dbus_lemma bus sends zone :
  0 <= zone < 128 ->
  let be := dbus_backend bus sends in
  let path := "/xyz/openbmc_project/settings/fanctrl/zone" ++ to_string zone in
  (forall v rest, rp_code (manualModeControl be (1 :: zone :: v :: rest)) = Ok (if sends path then 0 else 193)) /\
  (forall cmd property rest, cmd = 0 /\ property = "Manual" \/ cmd = 2 /\ property = "FailSafe" ->
     let r := manualModeControl be (cmd :: zone :: rest) in
     match bus path with
     | Some props => rp_code r = Ok 0 /\
         rp_data r = Some (match mget property props with Some true => 1 | _ => 0 end)
     | None => rp_code r = Ok 193 /\ rp_data r = None
     end).
Proof.
  intro L. destruct (low_zone_path zone L) as [P V]. unfold objectPath in P. cbv zeta. split.
  - intros v rest. destruct (C42_set_does_lemma (dbus_backend bus sends) zone v rest) as (_ & -> & _).
    cbn [dbus_backend zc_set]. unfold dbus_setFanCtrlProperty, new_method_call. rewrite V, P. destruct (sends _); reflexivity.
  - intros cmd property rest H.
    destruct (C42_get_lemma (dbus_backend bus sends) cmd zone rest property H) as (_ & G1 & G2 & _).
    cbn [dbus_backend zc_get] in G1, G2. unfold dbus_getFanCtrlProperty, new_method_call in G1, G2.
    rewrite V, P in G1, G2.
    destruct (bus _) as [props|].
    + destruct (G1 _ eq_refl) as (-> & _ & ->). split; [reflexivity|]. destruct (mget property props) as [[]|]; reflexivity.
    + destruct (G2 _ _ eq_refl) as (-> & ->); [discriminate|]. split; reflexivity.
Qed.

Lemma C42_high_lemma bus sends zone cmd rest :
  128 <= zone < 256 ->
  (rp_calls (manualModeControl (dbus_backend bus sends) (cmd :: zone :: rest)) <> [] ->
   exists e, rp_code (manualModeControl (dbus_backend bus sends) (cmd :: zone :: rest)) = Throw e) /\
  rp_data (manualModeControl (dbus_backend bus sends) (cmd :: zone :: rest)) = None.
Proof.
  intro H. pose proof (high_zone_path zone H) as V.
  assert (G : forall p, dbus_getFanCtrlProperty bus zone p = Throw "sd_bus_message_new_method_call")
    by (intro p; unfold dbus_getFanCtrlProperty, new_method_call; rewrite V; reflexivity).
  assert (W : forall v p, dbus_setFanCtrlProperty sends zone v p = Throw "sd_bus_message_new_method_call")
    by (intros v p; unfold dbus_setFanCtrlProperty, new_method_call; rewrite V; reflexivity).
  unfold manualModeControl. cbn [List.length].
  destruct (Z.ltb_spec (Z.of_nat (S (S (List.length rest)))) 2); [lia|]. cbn [byte_at nth].
  unfold getManualModeState, getFailsafeModeState, setManualModeState, get_state.
  destruct (Z.ltb_spec (Z.of_nat (S (S (List.length rest)))) 2); [lia|].
  unfold byte_at. cbn [nth]. cbn [dbus_backend zc_get zc_set]. rewrite !G, !W.
  destruct (cmd =? 0); [cbn; split; [eexists; reflexivity|reflexivity]|].
  destruct (cmd =? 1).
  { destruct (_ <? 3); cbn; split; auto; [congruence|eexists; reflexivity]. }
  destruct (cmd =? 2); cbn; split; auto; [eexists; reflexivity|congruence].
Qed.

Lemma C42_path_lemma zone id :
  0 <= zone < 256 ->
  (ipmi_getControlPath zone = BuilderModel.getControlPath id <-> id = if zone <? 128 then zone else zone - 256).
Proof.
  intro H. unfold ipmi_getControlPath, BuilderModel.getControlPath, objectPath. split.
  - intro E. apply append_inj in E. apply to_string_inj in E. congruence.
  - intros ->. reflexivity.
Qed.
