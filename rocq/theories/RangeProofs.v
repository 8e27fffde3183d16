(** * Fan commands stay in range: one zone (C79). *)
From Coq Require Import ZArith Bool List String Lia.
From Coq Require Import Floats.SpecFloat.
From Coq Require Import Reals Lra.
From Flocq Require Import Core IEEE754.BinarySingleNaN.
From Verif Require Import Base BaseFacts Dbl DblFacts DblBound DblOrder PidModel SpecPid PidProofs ZoneModel LoopModel SpecZone
  ZoneFrame ZoneThermal ZoneFan ZoneProofs LoopProofs ConfigModel SensorModel SpecSensor WriteModel BuilderModel SpecBuilder
  BuilderProofs BuilderRun SystemModel SpecSystem SpecRange SystemProofs4.
Import ListNotations.
Local Open Scope string_scope.
Local Open Scope list_scope.
Local Arguments pid_process : simpl never.
Local Arguments stepwise_process : simpl never.

(** ** PID controllers, with limits wider than their own *)

(** Set by the lower branch of the setpoint hysteresis, the last output may lie
    outside the output limits; [L] contains both. *)
Definition wide (L : limits) (c : pidinfo) : Prop :=
  limits_ordered (outLim c) /\ dle (lim_min L) (lim_min (outLim c)) /\ dle (lim_max (outLim c)) (lim_max L) /\
  dle (lim_min L) d0 /\ dle d0 (lim_max L).

Lemma wide_in L c x : wide L c -> in_limits_or_nan (outLim c) x -> in_limits_or_nan L x.
Proof.
  intros (_ & A & B & _) [H|(H1 & H2)]; [left; exact H|right]. split; eapply dle_trans; eauto.
Qed.
Lemma wide_d0 L c : wide L c -> in_limits_or_nan L d0.
Proof. intros (_ & _ & _ & A & B). right. split; assumption. Qed.

(** Output in [L] or NaN, whatever the inputs. *)
Definition any_inv (L : limits) (c : pidinfo) (p : pid_ctrl) : Prop :=
  params (pc_info p) = c /\ in_limits_or_nan L (lastOutput (pc_info p)).

Lemma any_pid L c i u s : wide L c -> sane_slew c -> params i = c -> in_limits_or_nan L (lastOutput i) ->
  in_limits_or_nan L (snd (pid i u s)).
Proof.
  intros W S P H. change (pid i u s) with (pid i (fst (u, s)) (snd (u, s))). rewrite pid_out_form, P.
  assert (U : in_limits_or_nan L (spec_unslewed c (integral i) (lastError i) (u, s))).
  { apply (wide_in _ c); [exact W|]. unfold spec_unslewed. rewrite limit_clamp. apply clamp_in. apply W. }
  destruct (initialized i); [|exact U]. apply spec_slew_in; auto.
Qed.

Lemma any_process L c p s u : wide L c -> sane_slew c -> any_inv L c p ->
  in_limits_or_nan L (snd (pid_process p s u)) /\ any_inv L c (fst (pid_process p s u)).
Proof.
  intros W S (P & H). unfold pid_process, calPIDOutput. cbv zeta. rewrite P.
  assert (Q : forall v, params (fst (pid (pc_info p) v s)) = c).
  { intros v. change (pid (pc_info p) v s) with (pid (pc_info p) (fst (v, s)) (snd (v, s))). rewrite pid_params. exact P. }
  assert (O : forall v, in_limits_or_nan L (snd (pid (pc_info p) v s))) by (intros v; apply (any_pid L c); auto).
  destruct (checkHysterWithSetpt c).
  - destruct (dgtb u (dadd s (positiveHysteresis c))).
    + specialize (Q u). specialize (O u). destruct (pid (pc_info p) u s) as [i o]. cbn in *. unfold any_inv. cbn. auto.
    + destruct (dltb u (dsub s (negativeHysteresis c))); cbn; unfold any_inv; cbn.
      * split; [apply (wide_d0 _ c); exact W|]. split; [reflexivity|apply (wide_d0 _ c); exact W].
      * auto.
  - destruct (_ && _).
    + specialize (Q u). specialize (O u). destruct (pid (pc_info p) u s) as [i o]. cbn in *. unfold any_inv. cbn. auto.
    + match goal with |- context [pid (pc_info p) ?v s] => specialize (Q v); specialize (O v); destruct (pid (pc_info p) v s) as [i o] end.
      cbn in *. unfold any_inv. cbn. auto.
Qed.

(** Bounded inputs: no NaN either. *)
Definition num_inv (L : limits) (c : pidinfo) (p : pid_ctrl) : Prop :=
  params (pc_info p) = c /\ bnd 200 (integral (pc_info p)) /\ bnd 201 (lastError (pc_info p)) /\
  in_limits L (lastOutput (pc_info p)) /\ (dfinite (pc_lastInput p) -> bnd 200 (pc_lastInput p)).

Lemma in_or_nan_notnan L x : in_limits_or_nan L x -> notnan x -> in_limits L x.
Proof. intros [H|H] N; [unfold notnan in N; congruence|exact H]. Qed.

Lemma num_pid L c i u s : wide L c -> sane_slew c -> bounded c -> limits_ordered (integralLimit c) ->
  bnd 200 (lim_min L) -> bnd 200 (lim_max L) -> bnd 200 u -> bnd 200 s ->
  params i = c -> bnd 200 (integral i) -> bnd 201 (lastError i) -> in_limits L (lastOutput i) ->
  let '(i', o) := pid i u s in
  in_limits L o /\ params i' = c /\ bnd 200 (integral i') /\ bnd 201 (lastError i') /\ lastOutput i' = o.
Proof.
  intros W S B LI L1 L2 Hu Hs P Ii Ie Io.
  assert (X : pid i u s = pid i (fst (u, s)) (snd (u, s))) by reflexivity.
  set (x := (u, s)) in *. rewrite X.
  assert (Eo : lastOutput (fst (pid i (fst x) (snd x))) = snd (pid i (fst x) (snd x))) by apply pid_lastOutput.
  assert (Ep : params (fst (pid i (fst x) (snd x))) = c) by (rewrite pid_params; exact P).
  destruct (spec_parts_bnd c (integral i) (lastError i) x B LI Ii Ie Hu Hs) as (HE & HP & HI & HD & HF).
  assert (U : bnd 200 (spec_unslewed c (integral i) (lastError i) x)).
  { unfold spec_unslewed. apply clamp_bnd; [|apply W|apply B|apply B].
    apply (bnd_notnan 504). apply (bnd_add 503); [lia| |apply (bnd_weaken 401); [lia|assumption]].
    apply (bnd_add 502); [lia| |assumption].
    apply (bnd_weaken 402); [lia|]. apply (bnd_add 401); [lia|assumption|].
    apply (bnd_weaken 200); [lia|assumption]. }
  assert (O : in_limits L (snd (pid i (fst x) (snd x)))).
  { apply in_or_nan_notnan; [apply (any_pid L c); auto; right; exact Io|]. rewrite pid_out_form, P.
    destruct (initialized i); [apply spec_slew_keeps_notnan|]; eapply bnd_notnan; exact U. }
  assert (OB : bnd 200 (snd (pid i (fst x) (snd x)))).
  { destruct O as [O1 O2]. exact (bnd_between 200 _ _ _ L1 L2 O1 O2). }
  assert (G1 : bnd 200 (integral (fst (pid i (fst x) (snd x))))).
  { rewrite pid_integral_form, P. apply clamp_bnd; try assumption; try apply B.
    destruct (_ && _).
    + apply (bnd_notnan 402). apply (bnd_sub 401); [lia|apply (bnd_weaken 200); [lia|assumption]|assumption].
    + now apply (bnd_notnan 200). }
  assert (G2 : bnd 201 (lastError (fst (pid i (fst x) (snd x))))) by (rewrite pid_error_form; exact HE).
  destruct (pid i (fst x) (snd x)) as [i' o]. cbn [fst snd] in *. auto.
Qed.

Lemma num_process L c p s u : wide L c -> sane_slew c -> bounded c -> limits_ordered (integralLimit c) ->
  bnd 200 (lim_min L) -> bnd 200 (lim_max L) -> bnd 200 u -> bnd 200 s -> num_inv L c p ->
  in_limits L (snd (pid_process p s u)) /\ num_inv L c (fst (pid_process p s u)).
Proof.
  intros W S B LI L1 L2 Hu Hs (P & Ii & Ie & Io & Il). unfold pid_process, calPIDOutput. cbv zeta. rewrite P.
  assert (N : forall v, bnd 200 v -> let '(i', o) := pid (pc_info p) v s in
    in_limits L o /\ params i' = c /\ bnd 200 (integral i') /\ bnd 201 (lastError i') /\ lastOutput i' = o).
  { intros v Hv. apply (num_pid L c); auto. }
  assert (Z0 : in_limits L d0) by (destruct W as (_ & _ & _ & A & A'); split; assumption).
  destruct (checkHysterWithSetpt c).
  - destruct (dgtb u (dadd s (positiveHysteresis c))).
    + specialize (N u Hu). destruct (pid (pc_info p) u s) as [i o]. destruct N as (N1 & N2 & N3 & N4 & N5).
      cbn in *. unfold num_inv. cbn. auto 8.
    + destruct (dltb u (dsub s (negativeHysteresis c))); cbn; unfold num_inv; cbn.
      * repeat split; auto using bnd_d0; try apply bnd_d0; try apply Z0; try apply Ie; try apply Hs.
      * auto 8.
  - destruct (_ && _).
    + specialize (N u Hu). destruct (pid (pc_info p) u s) as [i o]. destruct N as (N1 & N2 & N3 & N4 & N5).
      cbn in *. unfold num_inv. cbn. auto 8.
    + match goal with |- context [pid (pc_info p) ?v s] =>
        assert (Hv : bnd 200 v); [|specialize (N v Hv); destruct (pid (pc_info p) v s) as [i o]] end.
      { unfold negb. destruct (disfinite (pc_lastInput p)) eqn:F; [|exact Hu].
        destruct (dgtb _ _); [exact Hu|]. destruct (dgtb _ _); [exact Hu|]. apply Il. exact F. }
      destruct N as (N1 & N2 & N3 & N4 & N5). cbn in *. unfold num_inv. cbn. auto 8.
Qed.

Definition percents : limits := Limits d0 (D 100).
Lemma percents_in x : in_limits percents x <-> percent_ok x. Proof. reflexivity. Qed.

Lemma mag_bnd k j x : (-1074 <= k <= 1023)%Z -> (k <= j)%Z -> mag_le k x -> bnd j x.
Proof. intros A B H. apply (bnd_weaken k); [exact B|]. now apply mag_le_bnd. Qed.

Lemma fan_wide p : sensible_fan p -> wide percents p.
Proof.
  intros [_ _ O _ A B]. split; [exact O|]. split; [apply A|]. split; [apply B|]. split; vm_compute; reflexivity.
Qed.
Lemma bnd_D z k : (Z.abs z <= 2 ^ 53)%Z -> (53 <= k)%Z -> bnd k (D z).
Proof.
  intros H K. apply (bnd_weaken 53); [exact K|]. destruct (D_exact z H) as (F & E). split; [exact F|]. rewrite E.
  rewrite <- abs_IZR. change (bpow radix2 53) with (IZR (2 ^ 53)). now apply IZR_le.
Qed.

(** ** Upper bounds of sums of requests *)
Definition ub (r : R) (x : dbl) : Prop := is_nan x = true \/ (Rx x <= r)%R.
Definition unit : R := bpow radix2 100.
Definition units (i : Z) : R := (IZR i * unit)%R.

Lemma unit_pos : (0 < unit)%R. Proof. apply bpow_gt_0. Qed.
Lemma units_mono i j : (i <= j)%Z -> (units i <= units j)%R.
Proof. intros H. unfold units. apply Rmult_le_compat_r; [apply Rlt_le, unit_pos|now apply IZR_le]. Qed.
Lemma units_big i : (0 <= i <= 2 ^ 50)%Z -> (0 <= units i <= bpow radix2 150)%R.
Proof.
  intros [A B]. split.
  - apply Rmult_le_pos; [now apply (IZR_le 0)|apply Rlt_le, unit_pos].
  - apply Rle_trans with (units (2 ^ 50)); [now apply units_mono|]. unfold units, unit.
    change (IZR (2 ^ 50)) with (bpow radix2 50). rewrite <- bpow_plus. apply Rle_refl.
Qed.
Lemma RN_units i : (0 <= i <= 2 ^ 50)%Z -> RN (units i) = units i.
Proof.
  intros H. unfold RN. apply round_generic; [apply valid_rnd_N|].
  change (SpecFloat.fexp 53 1024) with (FLT_exp (-1074) 53).
  apply generic_format_FLT. exists (Float radix2 i 100); [reflexivity| |cbn; lia].
  cbn [Fnum]. rewrite Z.abs_eq by lia. apply Z.le_lt_trans with (2 ^ 50)%Z; [lia|]. reflexivity.
Qed.
Lemma big150 : (bpow radix2 150 < big)%R.
Proof. unfold big. apply bpow_lt. lia. Qed.

Lemma ub_add i a b : (0 <= i < 2 ^ 50)%Z -> ub (units i) a -> ub (units 1) b -> ub (units (i + 1)) (dadd a b).
Proof.
  intros Hi Ha Hb. destruct (nan_dec (dadd a b)) as [N|N]; [|left; exact N]. right.
  destruct (notnan_dadd_inv _ _ N) as (Na & Nb).
  destruct Ha as [Ha|Ha]; [unfold notnan in Na; congruence|].
  destruct Hb as [Hb|Hb]; [unfold notnan in Nb; congruence|].
  assert (Bi := units_big i ltac:(lia)). assert (B1 := units_big 1 ltac:(lia)).
  assert (Bs := units_big (i + 1) ltac:(lia)). assert (G := big150).
  assert (Ea : dfinite a \/ a = dninf).
  { destruct (finite_or_inf a Na) as [F|[F|F]]; auto. subst a. rewrite Rx_dinf in Ha. lra. }
  assert (Eb : dfinite b \/ b = dninf).
  { destruct (finite_or_inf b Nb) as [F|[F|F]]; auto. subst b. rewrite Rx_dinf in Hb. lra. }
  assert (K : dadd a b = dninf -> (Rx (dadd a b) <= units (i + 1))%R).
  { intros ->. rewrite Rx_dninf. assert (P := big_pos). lra. }
  destruct Ea as [Fa| ->]; [destruct Eb as [Fb| ->]|].
  - destruct (dadd_Rx a b Fa Fb) as (_ & ->).
    apply Rle_trans with (clip (RN (units (i + 1)))).
    + apply clip_mono, RN_mono. replace (units (i + 1)) with (units i + units 1)%R; [lra|].
      unfold units. rewrite plus_IZR. ring.
    + rewrite RN_units by lia. rewrite clip_id; [apply Rle_refl|]. rewrite Rabs_pos_eq; lra.
  - apply K. destruct a; try discriminate Fa; reflexivity.
  - apply K. destruct b as [s|s| |s m e Hm]; try reflexivity; [|discriminate Nb].
    destruct s; [reflexivity|]. cbn in N. discriminate N.
Qed.
Lemma ub_mono i j x : (i <= j)%Z -> ub (units i) x -> ub (units j) x.
Proof. intros H [A|A]; [left; exact A|right]. assert (M := units_mono _ _ H). lra. Qed.
Lemma ub_d0 i : (0 <= i)%Z -> ub (units i) d0.
Proof.
  intros H. right. rewrite Rx_d0. apply Rmult_le_pos; [now apply (IZR_le 0)|apply Rlt_le, unit_pos].
Qed.
Lemma ub1_of x : ~ dlt (D2 1 100) x -> ub (units 1) x.
Proof.
  intros H. destruct (nan_dec x) as [N|N]; [right|left; exact N].
  destruct (Rx_D2_pow 100 ltac:(lia)) as (F & E). unfold units, unit. rewrite Rmult_1_l, <- E.
  apply Rnot_lt_le. intros L. apply H. apply dlt_iff. split; [now apply finite_notnan|]. auto.
Qed.
Lemma ub1_le x : dle x (D2 1 100) -> ub (units 1) x.
Proof. intros H. apply ub1_of. intros L. exact (dlt_not_le _ _ L H). Qed.

Definition req_inv (i : Z) (s : smap dbl * dbl * string) : Prop :=
  let '(m, mx, _) := s in
  (forall p v, mget p m = Some v -> ub (units i) v) /\ notnan mx /\ (Rx mx <= units i)%R.

Lemma add_req_inv acc i s r : (0 <= i < 2 ^ 50)%Z -> ub (units 1) (snd r) -> req_inv i s -> req_inv (i + 1) (add_req acc s r).
Proof.
  destruct s as [[m mx] nm]. intros Hi Hr (A & B & C). unfold add_req. cbn [req_inv].
  set (p := if acc then profile_of (fst r) else fst r).
  assert (O : ub (units i) match mget p m with Some v => v | None => d0 end).
  { destruct (mget p m) as [v|] eqn:E; [eapply A; exact E|apply ub_d0; lia]. }
  set (old := match mget p m with Some v => v | None => d0 end) in *.
  assert (N : ub (units (i + 1)) (if acc then dadd old (snd r) else if dltb old (snd r) then snd r else old)).
  { destruct acc; [apply ub_add; assumption|].
    destruct (dltb old (snd r)); [apply (ub_mono 1); [lia|assumption]|apply (ub_mono i); [lia|assumption]]. }
  set (new := if acc then dadd old (snd r) else if dltb old (snd r) then snd r else old) in *.
  assert (Mi := units_mono i (i + 1) ltac:(lia)).
  split; [|split].
  - intros q v. rewrite mget_mset. destruct (String.eqb_spec q p) as [E|E].
    + intros X. injection X as <-. exact N.
    + intros X. apply (ub_mono i); [lia|]. eapply A. exact X.
  - destruct (dltb mx new) eqn:L; [|exact B]. apply dltb_notnan in L. tauto.
  - destruct (dltb mx new) eqn:L; [|lra]. apply dltb_notnan in L. destruct L as (_ & L).
    destruct N as [N|N]; [unfold notnan in L; congruence|exact N].
Qed.

Lemma add_reqs_inv acc l : forall i s, (0 <= i)%Z -> (i + Z.of_nat (List.length l) <= 2 ^ 50)%Z ->
  Forall (fun r => ub (units 1) (snd r)) l -> req_inv i s ->
  req_inv (i + Z.of_nat (List.length l)) (fold_left (add_req acc) l s).
Proof.
  induction l as [|r l IH]; intros i s Hi Hl F I; cbn [fold_left List.length] in *.
  - rewrite Z.add_0_r. exact I.
  - inversion F; subst. rewrite Nat2Z.inj_succ in *.
    replace (i + Z.succ (Z.of_nat (List.length l)))%Z with ((i + 1) + Z.of_nat (List.length l))%Z by lia.
    apply IH; [lia|lia|assumption|]. apply add_req_inv; [lia|assumption|assumption].
Qed.

(** ** Thermal controllers *)
Definition warm : limits := Limits dninf (D2 1 100).

Definition therm_ok (t : ThermalCtl) : Prop :=
  match t with
  | TPid _ _ _ _ p => exists c, sensible_thermal c /\ any_inv warm c p
  | TStep _ _ c => sensible_stepwise (sc_info c) /\ ub (units 1) (sc_lastOutput c)
  end.

Lemma thermal_wide c : sensible_thermal c -> wide warm c.
Proof.
  intros (O & _ & H). split; [exact O|]. split; [|split; [exact H|]].
  - apply dle_dninf. apply dle_notnan in O. tauto.
  - split; vm_compute; reflexivity.
Qed.
Lemma warm_ub x : in_limits_or_nan warm x -> ub (units 1) x.
Proof. intros [H|(_ & H)]; [left; exact H|apply ub1_le; exact H]. Qed.

Lemma stepwise_loop_ub info input : sensible_stepwise info -> forall n ii v,
  (ii + n <= maxStepwisePoints)%nat -> ub (units 1) v -> ub (units 1) (stepwise_loop info input ii n v).
Proof.
  intros S. induction n as [|n IH]; intros ii v H U; cbn; [exact U|].
  destruct (disnan _); [exact U|]. destruct (dgtb _ _); [exact U|].
  apply IH; [lia|]. apply ub1_of. apply S. lia.
Qed.
Lemma stepwise_ub info input : sensible_stepwise info -> ub (units 1) (stepwise info input).
Proof.
  intros S. unfold stepwise. apply stepwise_loop_ub; [exact S|unfold maxStepwisePoints; lia|].
  apply ub1_of. apply S. unfold maxStepwisePoints. lia.
Qed.

Lemma therm_step rd t : therm_ok t -> ub (units 1) (ctl_output rd t) /\ therm_ok (ctl_next rd t).
Proof.
  destruct t as [id inputs ty sp p|id inputs c]; cbn [therm_ok ctl_output ctl_next].
  - intros (c & S & I). destruct (any_process warm c p sp (thermal_input rd ty inputs sp)) as (A & B);
      [now apply thermal_wide|apply S|exact I|]. split; [now apply warm_ub|]. exists c. auto.
  - intros (S & U). assert (G := stepwise_ub (sc_info c) (stepwise_input rd inputs) S).
    unfold stepwise_process. cbv zeta.
    destruct (disnan _); [cbn; auto|]. destruct (dgtb _ _); [cbn; auto|]. destruct (dgtb _ _); cbn; auto.
Qed.

(** ** Fan controllers *)
Definition fan_ok (fans : list string) (o : option FanController) : Prop :=
  match o with
  | Some c => (exists p, sensible_fan p /\ num_inv percents p (fan_pid c)) /\ incl (fan_inputs c) fans
  | None => True
  end.
Definition cache_ok (z : zone) : Prop :=
  forall n e, In n (z_fanInputs z) -> mget n (z_cachedValuesByName z) = Some e -> dfinite (unscaled e) ->
    bnd 200 (unscaled e).

Lemma fan_in_bnd z names : cache_ok z -> incl names (z_fanInputs z) ->
  bnd 200 (match fan_readings (cached_raw z) names with [] => d0 | v :: r => fold_left dmin r v end).
Proof.
  intros C I.
  assert (H : forall x, In x (fan_readings (cached_raw z) names) -> bnd 200 x).
  { intros x J. unfold fan_readings in J. apply in_flat_map in J. destruct J as (n & Jn & J).
    unfold fan_reading, cached_raw in J. destruct (mget n (z_cachedValuesByName z)) as [e|] eqn:E; [|destruct J].
    cbn in J. destruct (disfinite (unscaled e)) eqn:F; [|destruct J].
    cbn in J. destruct (dgtb _ _); [|destruct J]. destruct J as [<-|[]]. eapply C; [apply I; exact Jn|exact E|exact F]. }
  destruct (fan_readings (cached_raw z) names) as [|v r]; [apply bnd_d0|]. apply H. apply fold_dmin_in.
Qed.

Lemma bnd_percents : bnd 200 (lim_min percents) /\ bnd 200 (lim_max percents).
Proof. split; [apply bnd_d0|apply bnd_D; lia]. Qed.

Lemma fan_step_ok z c : cache_ok z -> bnd 200 (z_maximumSetPoint z) -> fan_ok (z_fanInputs z) (Some c) ->
  percent_ok (fan_output z c) /\ forall c', fan_next z c c' -> fan_ok (z_fanInputs z) (Some c').
Proof.
  intros C M ((p & S & N) & I). assert (B := fan_in_bnd z _ C I). destruct bnd_percents as (P1 & P2).
  destruct (num_process percents p (fan_pid c) (z_maximumSetPoint z)
     (match fan_readings (cached_raw z) (fan_inputs c) with [] => d0 | v :: r => fold_left dmin r v end)) as (O & N');
    auto using fan_wide; try apply S; try (apply bounded_cfg_bounded; apply S).
  split; [exact O|]. intros c' (_ & E & F). cbn. rewrite E, F. split; [exists p; auto|exact I].
Qed.

(** ** The zone *)
Record rinv (z : zone) : Prop := RInv {
  ri_fans : Forall (fan_ok (z_fanInputs z)) (z_fans z);
  ri_therm : Forall therm_ok (z_thermals z);
  ri_len : (Z.of_nat (List.length (z_thermals z)) <= 2 ^ 40)%Z;
  ri_cache : cache_ok z;
  ri_min : bnd 100 (z_minThermalOutputSetPt z);
  ri_zone : percent_ok (z_zoneFailSafePercent z);
  ri_own : forall n, percent_ok (own_percent z n)
}.

Lemma rinv_frame z z' : rinv z -> conf z' = conf z -> z_fans z' = z_fans z -> z_thermals z' = z_thermals z ->
  cache_ok z' -> rinv z'.
Proof.
  intros [A B C D0 E F G] Cf Ef Et K. constructor; rewrite ?Ef, ?Et; auto.
  - use_conf Cf. exact A.
  - use_conf Cf. exact E.
  - use_conf Cf. exact F.
  - intros n. rewrite (own_percent_conf _ _ _ Cf). apply G.
Qed.

Lemma view_modest fans env n v : modest_speeds fans env -> In n fans -> pe_sensor env n = Some v ->
  dfinite (sv_unscaled v) -> bnd 200 (sv_unscaled v).
Proof. intros M I E F. apply mag_le_bnd; [lia|]. eapply M; eauto. Qed.

Lemma cache_polled z z' names env : conf z' = conf z -> cache_ok z -> modest_speeds (z_fanInputs z) env ->
  (forall n, mget n (z_cachedValuesByName z') =
    if smem n names
    then option_map (fun v => Entry (sv_value v) (sv_unscaled v)) (pe_sensor env n)
    else mget n (z_cachedValuesByName z)) -> cache_ok z'.
Proof.
  intros Cf C M H n e I E F. assert (Ef : z_fanInputs z' = z_fanInputs z) by (use_conf Cf; reflexivity).
  rewrite Ef in I. rewrite H in E. destruct (smem n names).
  - destruct (pe_sensor env n) as [v|] eqn:Ev; [|discriminate]. cbn in E. injection E as <-. cbn in *.
    eapply view_modest; eauto.
  - eapply C; eauto.
Qed.

Lemma rinv_telemetry f env z z' : rinv z -> modest_speeds (z_fanInputs z) env ->
  updateFanTelemetry f env z = Ok z' -> rinv z' /\ z_maximumSetPoint z' = z_maximumSetPoint z.
Proof.
  intros R M H. apply updateFanTelemetry_spec in H. destruct H as (C & _ & S & K & _ & _ & V & _).
  unfold ctls in K. unfold sps in S. injection K as K1 K2 _. injection S as _ _ S _ _. split; [|exact S].
  apply (rinv_frame z); auto. eapply cache_polled; eauto. apply R.
Qed.

Lemma floor_bnd mn mx : bnd 100 mn -> notnan mx -> (Rx mx <= bpow radix2 150)%R ->
  bnd 200 (if dgeb mn mx then mn else mx).
Proof.
  intros B N U. destruct (dgeb mn mx) eqn:E; [apply (bnd_weaken 100); [lia|exact B]|].
  unfold dgeb in E. apply dleb_Rx_false in E; [|exact N|exact (bnd_notnan _ _ B)].
  destruct B as (F & B). apply Rabs_le_inv in B.
  assert (P1 : (bpow radix2 100 <= bpow radix2 200)%R) by (apply bpow_le; lia).
  assert (P2 : (bpow radix2 150 <= bpow radix2 200)%R) by (apply bpow_le; lia).
  assert (G := big150).
  assert (A : (Rabs (Rx mx) <= bpow radix2 200)%R) by (apply Rabs_le; lra).
  split; [|exact A]. apply finite_iff_Rx; [exact N|]. assert (P := bpow_lt radix2 100 1024 ltac:(lia)). unfold big in *. lra.
Qed.

Lemma det_core_max z : bnd 100 (z_minThermalOutputSetPt z) -> notnan (z_maximumSetPoint z) ->
  (Rx (z_maximumSetPoint z) <= bpow radix2 150)%R -> bnd 200 (z_maximumSetPoint (det_core z)).
Proof.
  intros B N U.
  set (mx := match z_rpmCeilings z with [] => z_maximumSetPoint z
             | c :: r => if dltb (min_element c r) (z_maximumSetPoint z) then min_element c r else z_maximumSetPoint z end).
  assert (E : z_maximumSetPoint (det_core z) = if dgeb (z_minThermalOutputSetPt z) mx then z_minThermalOutputSetPt z else mx).
  { unfold det_core, apply_ceilings, mx. destruct (z_rpmCeilings z) as [|c r]; [|destruct (dltb _ _)];
      cbv zeta; destruct (z_accumulateSetPoint _); cbn;
      match goal with |- context [if dgeb ?a ?b then _ else _] => destruct (dgeb a b) end; try reflexivity;
      destruct (negb _); reflexivity. }
  rewrite E. apply floor_bnd; [exact B| |]; unfold mx; destruct (z_rpmCeilings z) as [|c r]; auto.
  - destruct (dltb (min_element c r) (z_maximumSetPoint z)) eqn:L; [|exact N]. apply dltb_notnan in L. tauto.
  - destruct (dltb (min_element c r) (z_maximumSetPoint z)) eqn:L; [|exact U].
    assert (L' := L). apply dltb_notnan in L'. apply dltb_Rx in L; [lra|tauto|tauto].
Qed.

Lemma file_max g c z z' : int_file c -> bnd 200 (z_maximumSetPoint z) -> fileParseRpm g c z = Ok z' ->
  bnd 200 (z_maximumSetPoint z').
Proof.
  intros I B H. destruct c as [|v|]; cbn in H; [injection H as <-; exact B| |discriminate].
  destruct (v <=? 0)%Z eqn:E0; [injection H as <-; exact B|].
  destruct (v <=? 100)%Z; injection H as <-; [exact B|]. cbn. cbn in I. apply bnd_D; [|lia].
  apply Z.leb_gt in E0. assert (2 ^ 31 <= 2 ^ 53)%Z by (apply Z.pow_le_mono_r; lia). lia.
Qed.

Lemma requests_ub rd z : Forall therm_ok (z_thermals z) ->
  Forall (fun r => ub (units 1) (snd r)) (requests rd z) /\
  (List.length (requests rd z) <= List.length (z_thermals z))%nat.
Proof.
  unfold requests. induction 1 as [|t r T F (IH1 & IH2)]; cbn; [split; [constructor|lia]|].
  destruct (negb _ && _); cbn; [|split; [exact IH1|lia]].
  split; [|lia]. constructor; [|exact IH1]. apply therm_step. exact T.
Qed.

Lemma rinv_thermal f env te z z' : rinv z -> modest_speeds (z_fanInputs z) env -> int_files te ->
  thermal_cycle f env te z = Ok z' -> rinv z' /\ bnd 200 (z_maximumSetPoint z').
Proof.
  intros R M (Ig & Iz) H. assert (Fr := thermal_cycle_frame _ _ _ _ _ H). destruct Fr as (C & _ & Ef & _).
  apply thermal_cycle_split in H. destruct H as (z1 & z2 & H1 & F & Et & S3 & Ec & H4).
  assert (R1 : rinv z1).
  { unfold updateSensors in H1. assert (V := polls_cache _ _ _ _ _ _ H1). apply polls_frame in H1.
    destruct H1 as (C1 & _ & _ & K1 & _). unfold ctls in K1. injection K1 as Kf Kt _.
    apply (rinv_frame z); auto. eapply cache_polled; [exact C1|apply R|exact M|exact V]. }
  destruct F as [Fc _ _ Fv _ _ _ Ffan _ _ _]. cbn in Fv, Ffan.
  assert (Fc' : conf z2 = conf z1) by exact Fc.
  assert (H4' := H4). apply determine_frame in H4'. destruct H4' as (_ & C2 & _ & K2 & _ & V2 & _).
  unfold ctls in K2. injection K2 as Kf Kt _.
  destruct (requests_ub (cached z1) z1 (ri_therm _ R1)) as (Q1 & Q2).
  split.
  - constructor.
    + rewrite Ef. use_conf C. apply R.
    + rewrite Kt, Et. rewrite Forall_map. eapply Forall_impl; [|apply (ri_therm _ R1)]. intros t T. apply therm_step. exact T.
    + rewrite Kt, Et, map_length. apply R1.
    + intros n e J E Fi. rewrite V2, Fv in E. eapply (ri_cache _ R1); [|exact E|exact Fi].
      assert (Cc : conf z' = conf z1) by congruence. assert (Q : z_fanInputs z' = z_fanInputs z1) by (use_conf Cc; reflexivity).
      congruence.
    + use_conf C. apply R.
    + use_conf C. apply R.
    + intros n. rewrite (own_percent_conf _ _ _ C). apply R.
  - assert (I0 : req_inv 0 ([], d0, "")).
    { split; [intros p v X; discriminate X|]. split; [reflexivity|]. rewrite Rx_d0. unfold units. lra. }
    assert (L := ri_len _ R1).
    assert (I := add_reqs_inv (z_accumulateSetPoint z) (requests (cached z1) z1) 0 _ ltac:(lia) ltac:(lia) Q1 I0).
    rewrite <- S3 in I. unfold sp3, req_inv in I. destruct I as (_ & Nm & Um).
    assert (Bz : bnd 200 (z_maximumSetPoint (det_core z2))).
    { apply det_core_max; [|exact Nm|].
      - use_conf Fc'. apply R1.
      - apply Rle_trans with (1 := Um). apply units_big. lia. }
    rewrite determine_split in H4. destruct (tuningEnabled f).
    + apply bind_ok in H4. destruct H4 as (z3 & H3 & H4). eapply file_max; [exact Iz| |exact H4].
      eapply file_max; [exact Ig| |exact H3]. exact Bz.
    + injection H4 as <-. exact Bz.
Qed.

(** ** Percents and commands *)
Lemma fs_percents z : fs_inv z -> rinv z -> forall n r p, In (n, (r, p)) (z_failSafeSensors z) -> percent_ok p.
Proof.
  intros (S & F) R n r p I. assert (G := F n). rewrite (sorted_In_mget _ _ _ S I) in G.
  destruct (is_inputb z n); [|discriminate]. unfold expected_entry in G. destruct (smem _ _); [discriminate|].
  destruct (bad_reason _); [|discriminate]. injection G as _ ->. apply R.
Qed.

Lemma max_percent_ok l : forall b, percent_ok b -> (forall n r p, In (n, (r, p)) l -> percent_ok p) -> percent_ok (max_percent b l).
Proof.
  induction l as [|[n [r p]] l IH]; intros b B H; cbn; [exact B|].
  apply IH; [|intros; eapply H; right; eassumption]. destruct (dltb b p); [|exact B]. eapply H. left. reflexivity.
Qed.

Lemma failsafe_percent_ok z : fs_inv z -> rinv z -> percent_ok (getFailSafePercent z).
Proof.
  intros F R. assert (P := fs_percents z F R). unfold getFailSafePercent.
  destruct (z_failSafeSensors z) as [|[n [r p]] l]; [apply R|]. cbv zeta. destruct (deqb _ _); [apply R|].
  apply max_percent_ok; [eapply P; left; reflexivity|]. intros; eapply P; right; eassumption.
Qed.

Lemma fan_percent_ok f z v : fs_inv z -> rinv z -> percent_ok v -> percent_ok (fan_percent f z v).
Proof.
  intros F R V. assert (P := failsafe_percent_ok z F R). unfold fan_percent.
  destruct (tuningEnabled f); [exact V|]. destruct (getFailSafeMode z); [|exact V]. cbv zeta.
  destruct (STRICT_FAILSAFE_PWM f); [exact P|]. destruct (dltb _ _); assumption.
Qed.

Lemma percent_fraction p : percent_ok p -> dle d0 (ddiv p (D 100)) /\ dle (ddiv p (D 100)) (D 1).
Proof.
  intros (A & B). assert (H : dlt d0 (D 100)) by (vm_compute; reflexivity).
  assert (Bp : bnd 7 p).
  { apply (bnd_between 7 d0 (D 100)); auto using bnd_d0. destruct (D_exact 100 ltac:(lia)) as (F & E). split; [exact F|].
    rewrite E. rewrite Rabs_pos_eq by lra. change (bpow radix2 7) with 128%R. lra. }
  assert (N : notnan (ddiv p (D 100))).
  { destruct (D_exact 100 ltac:(lia)) as (F & E). apply ddiv_Rx; [apply Bp|exact F|]. rewrite E. lra. }
  assert (E0 : dle d0 (ddiv d0 (D 100))) by (vm_compute; reflexivity).
  assert (E1 : dle (ddiv (D 100) (D 100)) (D 1)) by (vm_compute; reflexivity).
  split.
  - apply (dle_trans _ _ _ E0). apply ddiv_mono; auto. apply dle_notnan in E0. tauto.
  - refine (dle_trans _ _ _ _ E1). apply ddiv_mono; auto. apply dle_notnan in E1. tauto.
Qed.

Definition unit_command (v : dbl) : Prop := dle d0 v /\ dle v (D 1).
Definition unit_writes (evs : list event) : Prop := forall n v b, In (n, v, b) (writes_in evs) -> unit_command v.

Lemma all_writes_ok f z : fs_inv z -> rinv z -> bnd 200 (z_maximumSetPoint z) ->
  forall n v b, In (n, v, b) (all_fan_writes f z) -> unit_command v.
Proof.
  intros F R M n v b I. unfold all_fan_writes in I. apply in_flat_map in I. destruct I as (c & Ic & I).
  unfold fan_writes in I. apply in_map_iff in I. destruct I as (m & E & _). injection E as _ <- _.
  apply percent_fraction, fan_percent_ok; auto. unfold fan_ctls in Ic. apply in_flat_map in Ic.
  destruct Ic as ([c'|] & Io & Ic); [|destruct Ic]. destruct Ic as [->|[]].
  assert (A := ri_fans _ R). rewrite Forall_forall in A. exact (proj1 (fan_step_ok z c (ri_cache _ R) M (A _ Io))).
Qed.

Lemma rinv_fans f w z z' : fs_inv z -> rinv z -> bnd 200 (z_maximumSetPoint z) -> processFans f w z = Ok z' ->
  rinv z' /\ bnd 200 (z_maximumSetPoint z') /\
  exists evs, z_trace z' = evs ++ z_trace z /\ unit_writes evs.
Proof.
  intros F R M H. apply processFans_spec in H.
  destruct H as (C & _ & _ & S & Et & _ & _ & V & _ & N & evs & T & W & _).
  unfold sps in S. injection S as _ _ S _ _. rewrite S. split; [|split; [exact M|]].
  - constructor; try (rewrite Et; apply R).
    + assert (A := ri_fans _ R). use_conf C. clear - A N M R. revert A.
      assert (K := ri_cache _ R).
      induction N as [|o o' l l' X _ IH]; intros A; constructor; inversion A; subst.
      * destruct o as [c|]; [|destruct X]. destruct o' as [c'|]; [|destruct X].
        apply (proj2 (fan_step_ok z c K M ltac:(assumption)) c' X).
      * apply IH. assumption.
    + intros n e I E Fi. rewrite V in E. assert (Q : z_fanInputs z' = z_fanInputs z) by (use_conf C; reflexivity).
      rewrite Q in I. eapply (ri_cache _ R); eauto.
    + use_conf C. apply R.
    + use_conf C. apply R.
    + intros n. rewrite (own_percent_conf _ _ _ C). apply R.
  - exists evs. split; [exact T|]. intros n v b I. rewrite W in I. eapply all_writes_ok; eauto.
Qed.

(** ** Histories *)
Definition full (z : zone) : Prop :=
  fs_inv z /\ rinv z /\ bnd 200 (z_maximumSetPoint z) /\ unit_writes (z_trace z).

Lemma unit_app a b : unit_writes a -> unit_writes b -> unit_writes (a ++ b).
Proof. intros A B n v x I. rewrite writes_app in I. apply in_app_or in I. destruct I; eauto. Qed.
Lemma unit_none a : writes_in a = [] -> unit_writes a.
Proof. intros E n v x I. rewrite E in I. destruct I. Qed.

Lemma full_tick f e l l' : full (l_zone l) -> sensible_event (z_fanInputs (l_zone l)) (LTick e) ->
  loop_tick f e l = Ok l' -> full (l_zone l').
Proof.
  intros (F & R & M & U) (Mf & Mt & It) H. assert (H' := H). apply loop_tick_cases in H'.
  destruct H' as [(_ & ->)|(z1 & z2 & [_ H1 H2 (z3 & H3 & E3) _ _])]; [cbn; unfold full; auto|].
  destruct (rinv_telemetry _ _ _ _ R Mf H1) as (R1 & M1).
  apply updateFanTelemetry_spec in H1. destruct H1 as (C1 & _ & _ & _ & _ & I1 & _ & (e1 & T1 & _ & W1 & _)).
  assert (Ef : z_fanInputs z1 = z_fanInputs (l_zone l)) by (use_conf C1; reflexivity).
  assert (K : rinv z2 /\ bnd 200 (z_maximumSetPoint z2) /\ fs_inv z2 /\ exists e2, z_trace z2 = e2 ++ z_trace z1 /\ writes_in e2 = []).
  { destruct (_ <=? _)%Z.
    - destruct (rinv_thermal f (tk_therm e) (tk_tune e) z1 z2 R1) as (R2 & M2); [rewrite Ef; exact Mt|exact It|exact H2|].
      apply thermal_cycle_frame in H2. destruct H2 as (_ & _ & _ & _ & _ & I2 & (e2 & T2 & _ & W2 & _)).
      split; [exact R2|]. split; [exact M2|]. split; [apply I2, I1, F|]. exists e2. auto.
    - subst z2. split; [exact R1|]. split; [rewrite M1; exact M|]. split; [apply I1, F|]. exists []. auto. }
  destruct K as (R2 & M2 & F2 & e2 & T2 & W2).
  destruct (rinv_fans _ _ _ _ F2 R2 M2 H3) as (R3 & M3 & e3 & T3 & W3).
  assert (F4 := proj2 (loop_step_conf f (LTick e) l l' H) F).
  assert (Q := quiet_log f [LComma; LBool (getFailSafeMode z3); LEndl] z3). destruct Q as [Qc _ Qs Qk _ Qv _ Qt].
  cbn [app] in Qt. rewrite <- E3 in *. unfold ctls in Qk. injection Qk as Kf Kt _. unfold sps in Qs. injection Qs as _ _ Qs _ _.
  split; [exact F4|]. split; [|split].
  - apply (rinv_frame z3); auto. intros n en I E Fi. rewrite Qv in E.
    assert (Q : z_fanInputs (l_zone l') = z_fanInputs z3) by (use_conf Qc; reflexivity). rewrite Q in I.
    eapply (ri_cache _ R3); eauto.
  - rewrite Qs. exact M3.
  - rewrite Qt, T3, T2, T1. apply unit_app; [exact W3|]. apply unit_app; [now apply unit_none|].
    apply unit_app; [now apply unit_none|exact U].
Qed.

Lemma full_step f ev l l' : full (l_zone l) -> sensible_event (z_fanInputs (l_zone l)) ev ->
  loop_step f l ev = Ok l' -> full (l_zone l').
Proof.
  intros Fu Se H. destruct ev as [e|b|m b].
  - eapply full_tick; eauto.
  - assert (F' := loop_step_conf _ _ _ _ H). cbn in H. injection H as <-. destruct Fu as (F & R & M & U).
    destruct F' as (C & F'). split; [auto|]. destruct b; (split; [|split; [exact M|exact U]]); apply (rinv_frame (l_zone l)); auto; apply R.
  - assert (F' := loop_step_conf _ _ _ _ H). cbn in H. injection H as <-. destruct Fu as (F & R & M & U).
    destruct F' as (C & F'). split; [auto|]. cbn in *. unfold setProcessEnabled in *.
    destruct (mget m (z_pidsControlProcess (l_zone l))); (split; [|split; [exact M|exact U]]); apply (rinv_frame (l_zone l)); auto; apply R.
Qed.

Lemma full_run f evs : forall l l', full (l_zone l) -> Forall (sensible_event (z_fanInputs (l_zone l))) evs ->
  loop_run f evs l = Ok l' -> full (l_zone l').
Proof.
  unfold loop_run. induction evs as [|ev r IH]; intros l l' Fu S H; cbn in H.
  - injection H as <-. exact Fu.
  - apply bind_ok in H. destruct H as (l1 & H1 & H2). inversion S; subst.
    eapply IH; [| |exact H2].
    + eapply full_step; eauto.
    + assert (C := proj1 (loop_step_conf _ _ _ _ H1)).
      assert (Q : z_fanInputs (l_zone l1) = z_fanInputs (l_zone l)) by (use_conf C; reflexivity). rewrite Q. assumption.
Qed.

(** ** The start *)
Lemma init_cache_nan z n e : In n (z_fanInputs z) -> mget n (z_cachedValuesByName (initializeCache z)) = Some e ->
  ~ dfinite (unscaled e).
Proof.
  unfold initializeCache.
  assert (G : forall g, g = initializeCache_fan \/ g = initializeCache_thermal -> forall l w,
    (In n l \/ forall e, mget n (z_cachedValuesByName w) = Some e -> ~ dfinite (unscaled e)) ->
    forall e, mget n (z_cachedValuesByName (fold_left g l w)) = Some e -> ~ dfinite (unscaled e)).
  { intros g Hg. induction l as [|m r IH]; intros w H e0 E; cbn in E; [destruct H as [[]|H]; eauto|].
    assert (K : z_cachedValuesByName (g w m) = mset m (Entry dnan dnan) (z_cachedValuesByName w)).
    { destruct Hg as [-> | ->]; unfold initializeCache_fan, initializeCache_thermal;
        match goal with |- context [markSensorMissing m "" ?x] =>
          destruct (mark_missing_spec m "" x) as (ev & _ & ->); destruct (smem m (z_missingAcceptable x)) end; reflexivity. }
    apply (IH (g w m)); [|exact E].
    destruct (String.eqb_spec n m) as [<-|Nm].
    - right. intros e1 E1. rewrite K, mget_mset, String.eqb_refl in E1. injection E1 as <-. cbn. discriminate.
    - destruct H as [[->|H]|H]; [congruence|left; exact H|right]. intros e1 E1. rewrite K, mget_mset in E1.
      destruct (String.eqb_spec n m); [congruence|]. eauto. }
  intros I E. eapply (G _ (or_intror eq_refl)); [|exact E]. right. intros e1 E1.
  eapply (G _ (or_introl eq_refl)); [|exact E1]. left. exact I.
Qed.

Record start_ok (z : zone) : Prop := StartOk {
  so_fresh : fresh z;
  so_fans : Forall (fan_ok (z_fanInputs z)) (z_fans z);
  so_therm : Forall therm_ok (z_thermals z);
  so_len : (Z.of_nat (List.length (z_thermals z)) <= 2 ^ 40)%Z;
  so_min : bnd 100 (z_minThermalOutputSetPt z);
  so_zone : percent_ok (z_zoneFailSafePercent z);
  so_own : forall n, percent_ok (own_percent z n)
}.

Lemma full_start f env te now z l : start_ok z -> modest_speeds (z_fanInputs z) env -> int_files te ->
  loop_start f env te now z = Ok l -> full (l_zone l).
Proof.
  intros [(Ff & Ft & _) Sf St Sl Sm Sz So] M I H. assert (Fr := loop_start_frame _ _ _ _ _ _ H).
  destruct Fr as (_ & _ & _ & _ & Fi & _ & _ & (e0 & T0 & _ & W0 & _)).
  unfold loop_start in H. apply bind_ok in H. destruct H as (z1 & H1 & H). injection H as <-. cbn in *.
  set (z0 := initializeLog f z) in *.
  assert (Q : quiet_step z z0 []) by apply quiet_log. destruct Q as [Qc _ _ Qk Qf _ _ _].
  destruct (initializeCache_frame z0) as (_ & Ik & _).
  destruct (initializeCache_inv z0) as (_ & Ic & _); [congruence|].
  assert (C : conf (initializeCache z0) = conf z) by congruence.
  assert (K : ctls (initializeCache z0) = ctls z) by congruence. unfold ctls in K. injection K as Kf Kt _.
  assert (R : rinv (initializeCache z0)).
  { constructor.
    - rewrite Kf. use_conf C. exact Sf.
    - rewrite Kt. exact St.
    - rewrite Kt. exact Sl.
    - intros n e J E Fn. exfalso. refine (init_cache_nan z0 n e _ E Fn).
      assert (X : z_fanInputs (initializeCache z0) = z_fanInputs z0) by (use_conf Ic; reflexivity). rewrite <- X. exact J.
    - use_conf C. exact Sm.
    - use_conf C. exact Sz.
    - intros n. rewrite (own_percent_conf _ _ _ C). apply So. }
  destruct (rinv_thermal f env te _ z1 R) as (R1 & M1); [|exact I|exact H1|].
  { assert (X : z_fanInputs (initializeCache z0) = z_fanInputs z) by (use_conf C; reflexivity). rewrite X. exact M. }
  split; [apply Fi; assumption|]. split; [exact R1|]. split; [exact M1|].
  rewrite T0, Ft, app_nil_r. now apply unit_none.
Qed.

(** ** From the configuration *)
Lemma Forall2_right {A B : Type} (P : A -> B -> Prop) (Q : B -> Prop) l m :
  Forall2 P l m -> (forall a b, In a l -> P a b -> Q b) -> Forall Q m.
Proof.
  induction 1 as [|a b l m H _ IH]; intros K; constructor.
  - apply (K a); [left; reflexivity|exact H].
  - apply IH. intros a' b' I. apply K. right. exact I.
Qed.

Lemma Forall2_len {A B : Type} (P : A -> B -> Prop) l m : Forall2 P l m -> List.length l = List.length m.
Proof. induction 1; cbn; congruence. Qed.

Lemma init_num p : num_inv percents p (pid_ctrl_init p).
Proof.
  unfold num_inv, pid_ctrl_init, initializePIDStruct. cbn.
  split; [destruct p as [? ? ? ? ? ? ? [? ?] [? ?] ? ? ? ?]; reflexivity|]. split; [apply bnd_d0|]. split; [apply bnd_d0|].
  split; [split; vm_compute; reflexivity|discriminate].
Qed.
Lemma init_any p : any_inv warm p (pid_ctrl_init p).
Proof.
  split; [apply (init_num p)|]. right. split; vm_compute; reflexivity.
Qed.

Lemma own_percents_ok bus_ok zp confs built id pids z c :
  buildZones bus_ok zp confs = Ok built -> NoDup (map fst zp) -> In (id, pids) zp -> In (id, z) built ->
  zget id confs = Some c -> sensible_pids pids -> sensible_zone c -> forall n, percent_ok (own_percent z n).
Proof.
  intros B Nd J Jz Zc (Sp & _) (_ & Sz) n.
  destruct (own_percent_bound _ _ _ _ _ _ _ _ B Nd J Jz Zc) as (Po & M); [apply Sz|intros e I; apply (Sp e I)|].
  split; [apply Po|].
  assert (Nn : Forall percent_ok (percents_for pids n)).
  { unfold percents_for. rewrite Forall_forall. intros x I. apply in_map_iff in I.
    destruct I as (e & <- & I). apply filter_In in I. apply Sp. apply I. }
  assert (Nn' : Forall notnan (percents_for pids n)).
  { eapply Forall_impl; [|exact Nn]. intros a (L & _). apply dle_notnan in L. tauto. }
  destruct (maxopt (percents_for pids n)) as [v|] eqn:Mo.
  - assert (Mx := maxopt_is_max _ _ Mo Nn'). destruct (M n v Mx) as [(-> & _)|(Q & _)]; [apply Sz|].
    destruct Mx as ((x & Ix & Ex) & _). rewrite Forall_forall in Nn.
    apply (dle_trans _ v); [now apply deq_le|]. apply (dle_trans _ x); [now apply deq_le|]. apply Nn. exact Ix.
  - destruct (C58_lemma _ _ _ _ _ _ _ B Nd J Jz) as (c' & Zc' & H). assert (c' = c) by congruence. subst c'.
    destruct (H n Nn') as (H1 & _). rewrite H1; [apply Sz|].
    destruct (percents_for pids n); [reflexivity|discriminate].
Qed.

Lemma filter_len {A : Type} (f : A -> bool) l : (List.length (filter f l) <= List.length l)%nat.
Proof. induction l as [|x r IH]; cbn; [lia|]. destruct (f x); cbn; lia. Qed.

Lemma built_start_ok bus_ok zp confs built id pids z c :
  buildZones bus_ok zp confs = Ok built -> NoDup (map fst zp) -> In (id, pids) zp -> In (id, z) built ->
  zget id confs = Some c -> sensible_pids pids -> sensible_zone c -> start_ok z.
Proof.
  intros B Nd J Jz Zc Sp Sz. assert (Ow := own_percents_ok _ _ _ _ _ _ _ _ B Nd J Jz Zc Sp Sz).
  destruct (proj2 (C49_structure _ _ _ _ B) Nd _ _ _ J Jz) as (c' & Zc' & Z). assert (c' = c) by congruence. subst c'.
  destruct Sp as (Sp & Ln). destruct Sz as (Sm & Sz).
  constructor.
  - apply Z.
  - eapply Forall2_right; [apply Z|]. intros e o I Fo. apply filter_In in I. destruct I as (I & T).
    destruct o as [k|]; [|exact Logic.I]. destruct Fo as (_ & _ & Ei & Ep & _). split.
    + exists (ci_pidInfo (snd e)). split; [apply (Sp e I); exact T|]. rewrite Ep. apply init_num.
    + rewrite (zo_fanInputs _ _ _ _ Z), Ei. intros n Jn. apply in_flat_map. exists e. split; [|exact Jn]. apply filter_In. auto.
  - eapply Forall2_right; [apply Z|]. intros e t I Fo. apply filter_In in I. destruct I as (I & T).
    destruct (Sp e I) as (_ & S2 & S3 & _). destruct e as [name info]. destruct Fo as (_ & Fo). cbn [snd] in *.
    destruct t as [ti inputs ty sp p|ti inputs k].
    + destruct Fo as (Kd & _ & _ & _ & ->). exists (ci_pidInfo info). split; [|apply init_any].
      apply S2. unfold kind_of in Kd. destruct ty; [rewrite Kd; reflexivity|destruct Kd as [-> | ->]; reflexivity|rewrite Kd; reflexivity].
    + destruct Fo as (Kd & _ & _ & ->). split; [apply S3; exact Kd|]. left. reflexivity.
  - assert (L := Forall2_len _ _ _ (zo_thermals _ _ _ _ Z)). assert (L' := filter_len is_thermal_pid pids). lia.
  - rewrite (zo_min _ _ _ _ Z). apply mag_le_bnd; [lia|exact Sm].
  - rewrite (zo_percent _ _ _ _ Z). exact Sz.
  - exact Ow.
Qed.

Lemma In_writes n v b tr : In (EvWrite n v b) tr -> In (n, v, b) (writes_in tr).
Proof. intros I. unfold writes_in. apply in_flat_map. exists (EvWrite n v b). split; [now apply -> in_rev|left; reflexivity]. Qed.

Lemma C79_lemma bus_ok zp confs built id pids z c f env te now l evs l' n v b :
  buildZones bus_ok zp confs = Ok built -> NoDup (map fst zp) -> In (id, pids) zp -> In (id, z) built ->
  zget id confs = Some c -> sensible_pids pids -> sensible_zone c ->
  modest_speeds (z_fanInputs z) env -> int_files te -> loop_start f env te now z = Ok l ->
  Forall (sensible_event (z_fanInputs z)) evs -> loop_run f evs l = Ok l' ->
  In (EvWrite n v b) (z_trace (l_zone l')) -> dle d0 v /\ dle v (D 1).
Proof.
  intros B Nd J Jz Zc Sp Sz M I H0 S H1 K.
  assert (F := full_start _ _ _ _ _ _ (built_start_ok _ _ _ _ _ _ _ _ B Nd J Jz Zc Sp Sz) M I H0).
  assert (C := proj1 (loop_start_frame _ _ _ _ _ _ H0)).
  assert (Q : z_fanInputs (l_zone l) = z_fanInputs z) by (use_conf C; reflexivity).
  destruct (full_run f evs l l' F) as (_ & _ & _ & U); [rewrite Q; exact S|exact H1|].
  eapply U. apply In_writes. exact K.
Qed.

Lemma C79_destroy_lemma bus_ok zp confs built id pids z c f env te now l evs l' w k z' new n v b :
  buildZones bus_ok zp confs = Ok built -> NoDup (map fst zp) -> In (id, pids) zp -> In (id, z) built ->
  zget id confs = Some c -> sensible_pids pids -> sensible_zone c ->
  modest_speeds (z_fanInputs z) env -> int_files te -> loop_start f env te now z = Ok l ->
  Forall (sensible_event (z_fanInputs z)) evs -> loop_run f evs l = Ok l' ->
  fan_destroy f w k (l_zone l') = Ok z' -> new_events (l_zone l') z' new ->
  In (EvWrite n v b) new -> dle d0 v /\ dle v (D 1).
Proof.
  intros B Nd J Jz Zc Sp Sz M I H0 S H1 Hd Ev K.
  assert (F := full_start _ _ _ _ _ _ (built_start_ok _ _ _ _ _ _ _ _ B Nd J Jz Zc Sp Sz) M I H0).
  assert (C := proj1 (loop_start_frame _ _ _ _ _ _ H0)).
  assert (Q : z_fanInputs (l_zone l) = z_fanInputs z) by (use_conf C; reflexivity).
  destruct (full_run f evs l l' F) as (Fi & R & _ & _); [rewrite Q; exact S|exact H1|].
  apply In_writes in K. rewrite (C50_lemma _ _ _ _ _ _ Hd Ev) in K.
  destruct (OFFLINE_FAILSAFE_PWM f); [|destruct K].
  apply in_map_iff in K. destruct K as (m & E & _). injection E as _ <- _.
  apply percent_fraction, failsafe_percent_ok; assumption.
Qed.
