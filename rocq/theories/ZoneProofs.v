(** * Proofs of C11-C28 and C50-C52. *)
From Coq Require Import ZArith Bool List String Ascii Lia Reals.
From Verif Require Import Base BaseFacts Dbl DblFacts DblOrder PidModel ZoneModel LoopModel
  SpecZone ZoneFrame ZoneThermal ZoneFan.
Import ListNotations.
Local Open Scope string_scope.
Local Open Scope list_scope.
Local Arguments pid_process : simpl never.
Local Arguments stepwise_process : simpl never.

(** ** C11 *)
Lemma thermal_reading_finite rd ty i x :
  ty <> margin -> In x (thermal_reading rd ty i) -> dfinite x.
Proof.
  intros Hty. unfold thermal_reading. destruct (rd (si_name i)) as [v|]; [|intros []].
  destruct (disfinite v) eqn:F; [|intros []].
  destruct ty; [congruence|intros [<-|[]]; exact F..].
Qed.

Lemma thermal_input_none id inputs ty sp z v z' :
  thermal_inputProc id inputs ty sp z = Ok (v, z') ->
  thermal_readings (cached z) ty inputs = [] -> v = sp.
Proof.
  intros H E. apply thermal_inputProc_spec in H. destruct H as (-> & _).
  unfold thermal_input. rewrite E. reflexivity.
Qed.

Lemma thermal_input_margin id inputs sp z v z' :
  thermal_inputProc id inputs margin sp z = Ok (v, z') ->
  thermal_readings (cached z) margin inputs <> [] ->
  Forall dfinite (thermal_readings (cached z) margin inputs) ->
  is_min_of v (thermal_readings (cached z) margin inputs).
Proof.
  intros H E F. apply thermal_inputProc_spec in H. destruct H as (-> & _).
  unfold thermal_input.
  destruct (thermal_readings (cached z) margin inputs) as [|r l]; [congruence|].
  assert (N : notnan dmax_float) by reflexivity.
  split.
  - destruct (fold_dmin_in (r :: l) dmax_float) as [Eq|I].
    + exists r. split; [left; reflexivity|]. rewrite <- Eq.
      assert (Fr : dfinite r) by (inversion F; assumption).
      apply dle_antisym; [|apply dfinite_le_max; exact Fr].
      rewrite Eq at 1. apply fold_dmin_le; [exact N|left; reflexivity|apply finite_notnan; exact Fr].
    + exists (fold_left dmin (r :: l) dmax_float). split; [exact I|].
      apply deq_refl. apply fold_dmin_notnan. exact N.
  - intros x I Nx. apply fold_dmin_le; assumption.
Qed.

Lemma thermal_input_absolute id inputs sp z v z' :
  thermal_inputProc id inputs absolute sp z = Ok (v, z') ->
  thermal_readings (cached z) absolute inputs <> [] ->
  is_max_of v (thermal_readings (cached z) absolute inputs).
Proof.
  intros H E. apply thermal_inputProc_spec in H. destruct H as (-> & _).
  unfold thermal_input.
  assert (F : forall x, In x (thermal_readings (cached z) absolute inputs) -> dfinite x).
  { intros x I. unfold thermal_readings in I. apply in_flat_map in I. destruct I as (i & _ & I).
    eapply thermal_reading_finite; [|exact I]. discriminate. }
  destruct (thermal_readings (cached z) absolute inputs) as [|r l]; [congruence|].
  assert (N : notnan dlowest) by reflexivity.
  split.
  - destruct (fold_dmax_in (r :: l) dlowest) as [Eq|I].
    + exists r. split; [left; reflexivity|]. rewrite <- Eq.
      assert (Fr : dfinite r) by (apply F; left; reflexivity).
      apply dle_antisym; [apply dfinite_ge_lowest; exact Fr|].
      rewrite Eq at 1. apply fold_dmax_ge; [exact N|left; reflexivity|apply finite_notnan; exact Fr].
    + exists (fold_left dmax (r :: l) dlowest). split; [exact I|].
      apply deq_refl. apply fold_dmax_notnan. exact N.
  - intros x I Nx. apply fold_dmax_ge; assumption.
Qed.

Lemma thermal_input_sum id inputs sp z v z' :
  thermal_inputProc id inputs summation sp z = Ok (v, z') ->
  thermal_readings (cached z) summation inputs <> [] ->
  v = fold_left dadd (thermal_readings (cached z) summation inputs) d0.
Proof.
  intros H E. apply thermal_inputProc_spec in H. destruct H as (-> & _).
  unfold thermal_input. destruct (thermal_readings (cached z) summation inputs); [congruence|reflexivity].
Qed.

(** ** C12 *)
Lemma fan_reading_pos rd names x : In x (fan_readings rd names) -> dfinite x /\ dlt d0 x.
Proof.
  unfold fan_readings. intros I. apply in_flat_map in I. destruct I as (n & _ & I).
  unfold fan_reading in I. destruct (rd n) as [v|]; [|destruct I].
  destruct (disfinite v && dgtb v d0) eqn:E; [|destruct I].
  destruct I as [<-|[]]. apply andb_true_iff in E. exact E.
Qed.
Lemma fan_input_min c z v :
  fan_inputProc c z = Ok v ->
  (fan_readings (cached_raw z) (fan_inputs c) = [] /\ v = d0) \/
  (is_min_of v (fan_readings (cached_raw z) (fan_inputs c)) /\ dlt d0 v).
Proof.
  intros H. apply fan_inputProc_spec in H. subst v.
  assert (P := fan_reading_pos (cached_raw z) (fan_inputs c)).
  destruct (fan_readings (cached_raw z) (fan_inputs c)) as [|x r]; [left; auto|right].
  assert (Nx : notnan x) by (apply finite_notnan, (P x); left; reflexivity).
  assert (I := fold_dmin_in r x).
  split; [split|].
  - exists (fold_left dmin r x). split; [exact I|]. apply deq_refl, fold_dmin_notnan, Nx.
  - intros y [<-|Iy] Ny; [apply fold_dmin_le_start, Nx|]. apply fold_dmin_le; assumption.
  - apply P. exact I.
Qed.

(** ** C13, C14: the value of the setpoint after a cycle *)
Definition fold_req (acc : bool) (reqs : list (string * dbl)) :=
  fold_left (add_req acc) reqs ([], d0, "").
Definition fr_map (s : smap dbl * dbl * string) := fst (fst s).
Definition fr_max (s : smap dbl * dbl * string) := snd (fst s).
Definition fr_name (s : smap dbl * dbl * string) := snd s.

Lemma fold_req_app acc l r : fold_req acc (l ++ [r]) = add_req acc (fold_req acc l) r.
Proof. unfold fold_req. rewrite fold_left_app. reflexivity. Qed.

(** The controller that asked first for the largest value. *)
Definition lead (s : dbl * string) (r : string * dbl) : dbl * string :=
  if dltb (fst s) (snd r) then (snd r, fst r) else s.

Lemma fold_req_plain reqs :
  fr_max (fold_req false reqs) = fold_left dmax (map snd reqs) d0 /\
  (fr_max (fold_req false reqs), fr_name (fold_req false reqs)) = fold_left lead reqs (d0, "") /\
  (forall p v, mget p (fr_map (fold_req false reqs)) = Some v -> dle v (fr_max (fold_req false reqs))) /\
  dle d0 (fr_max (fold_req false reqs)).
Proof.
  induction reqs as [|r reqs IH] using rev_ind.
  - unfold fold_req, fr_max, fr_map, fr_name. simpl. repeat split. intros p v E; discriminate.
  - rewrite fold_req_app, map_app, !fold_left_app. destruct IH as (A & A2 & B & C).
    rewrite <- A, <- A2. destruct (fold_req false reqs) as [[m mx] nm]. unfold fr_max, fr_map, fr_name in *.
    simpl in *. destruct r as [n s]. cbn [fst snd] in *.
    set (old := match mget n m with Some v => v | None => d0 end).
    assert (Ho : dle old mx).
    { subst old. destruct (mget n m) as [v|] eqn:E; [apply (B _ _ E)|exact C]. }
    assert (Nm : notnan mx) by (apply dle_iff in C; tauto).
    assert (K : (if dltb mx (if dltb old s then s else old) then (if dltb old s then s else old) else mx)
                = dmax mx s /\ dltb mx (if dltb old s then s else old) = dltb mx s).
    { unfold dmax. destruct (dltb old s) eqn:E1; [split; reflexivity|].
      rewrite (dle_not_lt _ _ Ho).
      assert (E2 : dltb mx s = false).
      { destruct (dltb mx s) eqn:E2; [|reflexivity].
        assert (dlt old s) by (eapply dle_lt_trans; [exact Ho|exact E2]). unfold dlt in H. congruence. }
      rewrite E2. split; reflexivity. }
    destruct K as [K1 K2]. split; [exact K1|]. rewrite K1.
    assert (Gm : dle mx (dmax mx s)) by (apply dmax_ge_l; exact Nm).
    split; [|split].
    + unfold lead. simpl. rewrite K2. unfold dmax. destruct (dltb mx s); reflexivity.
    + intros p v. rewrite mget_mset. destruct (String.eqb p n).
      * intros E; injection E as <-. destruct (dltb old s) eqn:E1.
        -- apply dmax_ge_r; [exact Nm|]. apply dltb_notnan in E1. tauto.
        -- eapply dle_trans; eauto.
      * intros E. eapply dle_trans; [apply (B _ _ E)|exact Gm].
    + eapply dle_trans; eauto.
Qed.

Lemma running_sums_app l r :
  running_sums (l ++ [r]) = running_sums l ++ [profile_sum (profile_of (fst r)) (l ++ [r])].
Proof.
  unfold running_sums. rewrite app_length. cbn [List.length]. rewrite Nat.add_1_r, seq_S, map_app.
  cbn [map Nat.add]. f_equal.
  - apply map_ext_in. intros k I. apply in_seq in I.
    rewrite nth_error_app1 by lia.
    assert (E : firstn (S k) (l ++ [r]) = firstn (S k) l).
    { rewrite firstn_app. replace (S k - List.length l)%nat with 0%nat by lia.
      rewrite firstn_O, app_nil_r. reflexivity. }
    rewrite E. reflexivity.
  - rewrite nth_error_app2 by lia. rewrite Nat.sub_diag. cbn [nth_error].
    assert (E : firstn (S (List.length l)) (l ++ [r]) = l ++ [r]).
    { apply firstn_all2. rewrite app_length. cbn [List.length]. lia. }
    rewrite E. reflexivity.
Qed.

Lemma profile_sum_app p l r :
  profile_sum p (l ++ [r]) =
  if String.eqb (profile_of (fst r)) p then dadd (profile_sum p l) (snd r) else profile_sum p l.
Proof.
  unfold profile_sum. rewrite filter_app, map_app, fold_left_app. simpl.
  destruct (String.eqb (profile_of (fst r)) p); reflexivity.
Qed.

Lemma fold_req_acc reqs :
  fr_max (fold_req true reqs) = fold_left dmax (running_sums reqs) d0 /\
  (forall p, match mget p (fr_map (fold_req true reqs)) with Some v => v | None => d0 end = profile_sum p reqs).
Proof.
  induction reqs as [|r reqs IH] using rev_ind.
  - split; reflexivity.
  - rewrite fold_req_app, running_sums_app, fold_left_app. destruct IH as (A & B).
    rewrite <- A. destruct (fold_req true reqs) as [[m mx] nm]. unfold fr_max, fr_map in *.
    simpl in *. destruct r as [n s]. cbn [fst snd] in *. rewrite B.
    assert (E : profile_sum (profile_of n) (reqs ++ [(n, s)]) = dadd (profile_sum (profile_of n) reqs) s).
    { rewrite profile_sum_app. cbn [fst snd]. rewrite String.eqb_refl. reflexivity. }
    rewrite E. split; [reflexivity|].
    intros p. rewrite mget_mset, profile_sum_app. cbn [fst snd]. rewrite (String.eqb_sym p (profile_of n)).
    destruct (String.eqb_spec (profile_of n) p) as [<-|N]; [reflexivity|apply B].
Qed.

Lemma fold_req_notnan acc reqs : notnan (fr_max (fold_req acc reqs)) /\ dle d0 (fr_max (fold_req acc reqs)).
Proof.
  assert (N : notnan d0) by reflexivity.
  destruct acc.
  - destruct (fold_req_acc reqs) as [-> _]. split; [apply fold_dmax_notnan|apply fold_dmax_ge_start]; exact N.
  - destruct (fold_req_plain reqs) as [-> _]. split; [apply fold_dmax_notnan|apply fold_dmax_ge_start]; exact N.
Qed.

Lemma fold_dmax_is_max l : is_max_of (fold_left dmax l d0) (d0 :: l).
Proof.
  assert (N : notnan d0) by reflexivity. split.
  - exists (fold_left dmax l d0). split; [apply fold_dmax_in|]. apply deq_refl, fold_dmax_notnan, N.
  - intros x [<-|I] Nx; [apply fold_dmax_ge_start, N|apply fold_dmax_ge; assumption].
Qed.

(** *** Selecting the setpoint *)
Definition capped (z : zone) : dbl :=
  match z_rpmCeilings z with
  | [] => z_maximumSetPoint z
  | c :: r => if dltb (min_element c r) (z_maximumSetPoint z) then min_element c r else z_maximumSetPoint z
  end.
Lemma det_core_max z :
  z_maximumSetPoint (det_core z) =
  if dgeb (z_minThermalOutputSetPt z) (capped z) then z_minThermalOutputSetPt z else capped z.
Proof.
  unfold det_core, apply_ceilings, capped. cbv zeta.
  destruct (z_rpmCeilings z) as [|c r]; [|destruct (dltb (min_element c r) (z_maximumSetPoint z))];
    destruct (z_accumulateSetPoint _);
    cbn [z_maximumSetPoint z_minThermalOutputSetPt set_maximumSetPointName set_maximumSetPoint];
    (destruct (dgeb _ _); [reflexivity|destruct (String.eqb _ _); reflexivity]).
Qed.

Lemma capped_notnan z : notnan (z_maximumSetPoint z) -> notnan (capped z).
Proof.
  intros N. unfold capped. destruct (z_rpmCeilings z); [exact N|].
  destruct (dltb _ _) eqn:E; [|exact N]. apply dltb_notnan in E. tauto.
Qed.

Lemma combined_spec z :
  notnan (z_maximumSetPoint z) -> Forall notnan (z_rpmCeilings z) ->
  combined_setpoint (z_minThermalOutputSetPt z) (z_rpmCeilings z) (z_maximumSetPoint z)
    (z_maximumSetPoint (det_core z)).
Proof.
  intros N F. exists (capped z). split.
  - unfold capped. destruct (z_rpmCeilings z) as [|c r]; [left; auto|right].
    rewrite min_element_fold. exists (fold_left dmin r c).
    assert (Nc : notnan c) by (inversion F; assumption).
    split.
    + split.
      * exists (fold_left dmin r c). split; [apply fold_dmin_in|]. apply deq_refl, fold_dmin_notnan, Nc.
      * intros x [<-|I] Nx; [apply fold_dmin_le_start, Nc|apply fold_dmin_le; assumption].
    + destruct (dltb (fold_left dmin r c) (z_maximumSetPoint z)) eqn:E.
      * right. split; [exact E|reflexivity].
      * left. split; [|reflexivity]. apply dltb_false_dle; auto. apply fold_dmin_notnan, Nc.
  - rewrite det_core_max. unfold dgeb.
    destruct (dleb (capped z) (z_minThermalOutputSetPt z)) eqn:E.
    + left. split; [exact E|reflexivity].
    + right. split; [|reflexivity]. unfold dle. congruence.
Qed.

(** The cycle as one equation. *)
Lemma cycle_requests f env te z z' :
  thermal_cycle f env te z = Ok z' ->
  exists z2,
    determineMaxSetPointRequest f te z2 = Ok z' /\
    sp3 z2 = fold_req (z_accumulateSetPoint z) (requests (cycle_readings env z) z) /\
    z_rpmCeilings z2 = ceilings (cycle_readings env z) z /\
    conf z2 = conf z /\ z_thermals z2 = map (ctl_next (cycle_readings env z)) (z_thermals z) /\
    z_maximumSetPointNamePrev z2 = z_maximumSetPointNamePrev z.
Proof.
  intros H. apply thermal_cycle_split in H.
  destruct H as (z1 & z2 & H1 & F & T & S & C & D). exists z2. split; [exact D|].
  assert (R := updateSensors_cached _ _ _ _ H1).
  assert (R' : forall n, cached z1 n = cycle_readings env z n) by (intros n; rewrite R; reflexivity).
  unfold updateSensors in H1. apply polls_frame in H1. destruct H1 as (C1 & M1 & S1 & K1 & _).
  change (conf (emit EvThermalCycle z)) with (conf z) in C1.
  unfold ctls in K1. simpl in K1. injection K1 as Kf Kt Kp.
  assert (En : forall n, enabled_in z1 n = enabled_in z n) by (intros n; unfold enabled_in; rewrite Kp; reflexivity).
  rewrite (requests_ext _ _ _ _ R' Kt En) in S. rewrite (ceilings_ext _ _ _ _ R' Kt) in C.
  split; [exact S|]. split; [exact C|].
  destruct F as [Fc Fm Ff Fv Fo Ft Fl Ffan Fth Fp Fe].
  split; [rewrite <- C1, <- Fc; reflexivity|]. split.
  - rewrite T, Kt. apply map_ext. intros t. destruct t; simpl.
    + rewrite (thermal_input_ext _ _ _ _ _ R'). reflexivity.
    + rewrite (stepwise_input_ext _ _ _ R'). reflexivity.
  - simpl in Fp. rewrite Fp. unfold sps in S1. simpl in S1. congruence.
Qed.

Lemma cycle_setpoint f env te z z' :
  thermal_cycle f env te z = Ok z' -> tuningEnabled f = false ->
  Forall notnan (ceilings (cycle_readings env z) z) ->
  combined_setpoint (z_minThermalOutputSetPt z) (ceilings (cycle_readings env z) z)
    (fr_max (fold_req (z_accumulateSetPoint z) (requests (cycle_readings env z) z)))
    (z_maximumSetPoint z').
Proof.
  intros H Tn Nc. apply cycle_requests in H. destruct H as (z2 & D & S & C & Cf & _).
  rewrite determine_split, Tn in D. injection D as <-.
  unfold sp3 in S.
  assert (Em : z_maximumSetPoint z2 = fr_max (fold_req (z_accumulateSetPoint z) (requests (cycle_readings env z) z))).
  { rewrite <- S. reflexivity. }
  rewrite <- Em, <- C. use_conf (eq_sym Cf).
  apply combined_spec.
  - rewrite Em. apply fold_req_notnan.
  - rewrite C. exact Nc.
Qed.

Lemma C13_lemma f env te z z' :
  thermal_cycle f env te z = Ok z' -> tuningEnabled f = false -> z_accumulateSetPoint z = false ->
  Forall notnan (ceilings (cycle_readings env z) z) ->
  exists top,
    is_max_of top (d0 :: map snd (requests (cycle_readings env z) z)) /\
    combined_setpoint (z_minThermalOutputSetPt z) (ceilings (cycle_readings env z) z) top
      (z_maximumSetPoint z').
Proof.
  intros H Tn Ac Nc. assert (C := cycle_setpoint _ _ _ _ _ H Tn Nc). rewrite Ac in C.
  destruct (fold_req_plain (requests (cycle_readings env z) z)) as (E & _). rewrite E in C.
  eexists. split; [apply fold_dmax_is_max|exact C].
Qed.

Lemma C14_lemma f env te z z' :
  thermal_cycle f env te z = Ok z' -> tuningEnabled f = false -> z_accumulateSetPoint z = true ->
  Forall notnan (ceilings (cycle_readings env z) z) ->
  exists top,
    is_max_of top (d0 :: running_sums (requests (cycle_readings env z) z)) /\
    combined_setpoint (z_minThermalOutputSetPt z) (ceilings (cycle_readings env z) z) top
      (z_maximumSetPoint z').
Proof.
  intros H Tn Ac Nc. assert (C := cycle_setpoint _ _ _ _ _ H Tn Nc). rewrite Ac in C.
  destruct (fold_req_acc (requests (cycle_readings env z) z)) as (E & _). rewrite E in C.
  eexists. split; [apply fold_dmax_is_max|exact C].
Qed.

(** Non-negative requests: the largest running sum is the largest total. *)
Lemma profile_sum_prefix p reqs k :
  (forall r, In r reqs -> dle d0 (snd r)) ->
  dle (profile_sum p (firstn k reqs)) (profile_sum p reqs).
Proof.
  intros H. rewrite <- (firstn_skipn k reqs) at 2. unfold profile_sum.
  rewrite filter_app, map_app, fold_left_app.
  assert (K : forall l, (forall r, In r l -> dle d0 (snd r)) ->
     dle d0 (fold_left dadd (map snd (filter (fun r => String.eqb (profile_of (fst r)) p) l)) d0)).
  { intros l Hl. apply fold_dadd_nonneg; [reflexivity|]. intros x I. apply in_map_iff in I.
    destruct I as (r & <- & I). apply filter_In in I. apply Hl. tauto. }
  apply fold_dadd_nonneg.
  - apply K. intros r I. apply H. rewrite <- (firstn_skipn k reqs). apply in_or_app. auto.
  - intros x I. apply in_map_iff in I. destruct I as (r & <- & I). apply filter_In in I.
    apply H. rewrite <- (firstn_skipn k reqs). apply in_or_app. tauto.
Qed.

Lemma In_running_sums reqs x :
  In x (running_sums reqs) ->
  exists k r, nth_error reqs k = Some r /\ x = profile_sum (profile_of (fst r)) (firstn (S k) reqs).
Proof.
  unfold running_sums. intros I. apply in_map_iff in I. destruct I as (k & <- & I).
  apply in_seq in I. destruct (nth_error reqs k) as [r|] eqn:E; [eauto|].
  apply nth_error_None in E. lia.
Qed.

(** The total of a profile is one of the running sums. *)
Lemma total_is_running reqs r : In r reqs ->
  In (profile_sum (profile_of (fst r)) reqs) (running_sums reqs).
Proof.
  induction reqs as [|q l IH] using rev_ind; [intros []|].
  rewrite running_sums_app. intros I. rewrite profile_sum_app.
  destruct (String.eqb_spec (profile_of (fst q)) (profile_of (fst r))) as [E|E].
  - apply in_or_app. right. left. rewrite profile_sum_app, String.eqb_refl, E. reflexivity.
  - apply in_app_or in I. destruct I as [I|[<-|[]]]; [|congruence].
    apply in_or_app. left. auto.
Qed.

Lemma C14_total_lemma f env te z z' :
  thermal_cycle f env te z = Ok z' -> tuningEnabled f = false -> z_accumulateSetPoint z = true ->
  Forall notnan (ceilings (cycle_readings env z) z) ->
  (forall r, In r (requests (cycle_readings env z) z) -> dle d0 (snd r)) ->
  exists top,
    is_max_of top (d0 :: profile_totals (requests (cycle_readings env z) z)) /\
    combined_setpoint (z_minThermalOutputSetPt z) (ceilings (cycle_readings env z) z) top
      (z_maximumSetPoint z').
Proof.
  intros H Tn Ac Nc Nn. destruct (C14_lemma _ _ _ _ _ H Tn Ac Nc) as (top & [M1 M2] & C).
  exists top. split; [|exact C]. set (reqs := requests (cycle_readings env z) z) in *.
  split.
  - destruct M1 as (x & [<-|I] & E).
    + exists d0. split; [left; reflexivity|exact E].
    + apply In_running_sums in I. destruct I as (k & r & En & ->).
      exists (profile_sum (profile_of (fst r)) reqs). split.
      * right. unfold profile_totals. apply in_map_iff. exists r. split; [reflexivity|].
        eapply nth_error_In; eauto.
      * assert (Ir : In r reqs) by (eapply nth_error_In; eauto).
        assert (L : dle (profile_sum (profile_of (fst r)) (firstn (S k) reqs))
                        (profile_sum (profile_of (fst r)) reqs)) by (apply profile_sum_prefix; exact Nn).
        assert (G : dle (profile_sum (profile_of (fst r)) reqs) top).
        { apply M2; [right; apply total_is_running; exact Ir|]. apply dle_notnan in L. tauto. }
        apply dle_antisym; [|exact G].
        eapply dle_trans; [apply deq_le; exact E|exact L].
  - intros x [<-|I] Nx; [apply M2; [left; reflexivity|exact Nx]|].
    unfold profile_totals in I. apply in_map_iff in I. destruct I as (r & <- & I).
    apply M2; [|exact Nx]. right. apply total_is_running. exact I.
Qed.

(** [profile_of] is the documented profile. *)
Lemma after_underscore_spec s :
  match after_first_underscore s with
  | Some r => exists p, ~ (exists a b, p = (a ++ "_" ++ b)%string) /\ s = (p ++ "_" ++ r)%string
  | None => ~ (exists a b, s = (a ++ "_" ++ b)%string)
  end.
Proof.
  induction s as [|c s IH]; simpl.
  - intros ([|x a] & b & E); discriminate.
  - destruct (Ascii.eqb_spec c "_"%char) as [->|N].
    + exists "". split; [|reflexivity]. intros ([|x a] & b & E); discriminate.
    + destruct (after_first_underscore s) as [r|].
      * destruct IH as (p & Np & ->). exists (String c p). split; [|reflexivity].
        intros ([|x a] & b & E); simpl in E; injection E; intros; [congruence|]. apply Np. exists a, b. assumption.
      * intros ([|x a] & b & E); simpl in E; injection E; intros; [congruence|]. apply IH. exists a, b. assumption.
Qed.
Lemma profile_of_spec name : has_profile name (profile_of name).
Proof.
  unfold has_profile, profile_of. assert (H := after_underscore_spec name).
  destruct (after_first_underscore name); [left|right]; auto.
Qed.

(** ** C15 *)
Lemma requests_without rd z t l1 l2 :
  z_thermals z = l1 ++ t :: l2 -> enabled_in z (thermal_id t) = false ->
  requests rd (set_thermals (l1 ++ l2) z) = requests rd z.
Proof.
  intros E En. unfold requests. change (z_thermals (set_thermals (l1 ++ l2) z)) with (l1 ++ l2).
  change (enabled_in (set_thermals (l1 ++ l2) z)) with (enabled_in z).
  rewrite E, !flat_map_app. cbn [flat_map]. rewrite En, andb_false_r. reflexivity.
Qed.
Lemma ceilings_without rd z t l1 l2 :
  z_thermals z = l1 ++ t :: l2 -> is_ceiling t = false ->
  ceilings rd (set_thermals (l1 ++ l2) z) = ceilings rd z.
Proof.
  intros E En. unfold ceilings. change (z_thermals (set_thermals (l1 ++ l2) z)) with (l1 ++ l2).
  rewrite E, !flat_map_app. cbn [flat_map]. rewrite En. reflexivity.
Qed.

Lemma det_core_name z : z_accumulateSetPoint z = false ->
  z_maximumSetPointName (det_core z) =
  if dgeb (z_minThermalOutputSetPt z) (capped z) then "Minimum"
  else match z_rpmCeilings z with
       | [] => z_maximumSetPointName z
       | c :: r => if dltb (min_element c r) (z_maximumSetPoint z) then "Ceiling" else z_maximumSetPointName z
       end.
Proof.
  intros Ac. unfold det_core, apply_ceilings, capped. cbv zeta.
  destruct (z_rpmCeilings z) as [|c r]; [|destruct (dltb (min_element c r) (z_maximumSetPoint z))];
    cbn [z_maximumSetPoint z_accumulateSetPoint z_minThermalOutputSetPt set_maximumSetPointName set_maximumSetPoint];
    rewrite Ac;
    (destruct (dgeb _ _); [reflexivity|destruct (String.eqb _ _); reflexivity]).
Qed.

Lemma C15_lemma f env te z t l1 l2 z' y' :
  z_thermals z = l1 ++ t :: l2 -> enabled_in z (thermal_id t) = false -> is_ceiling t = false ->
  tuningEnabled f = false ->
  thermal_cycle f env te z = Ok z' -> thermal_cycle f env te (set_thermals (l1 ++ l2) z) = Ok y' ->
  z_maximumSetPoint y' = z_maximumSetPoint z' /\
  (z_accumulateSetPoint z = false -> z_maximumSetPointName y' = z_maximumSetPointName z').
Proof.
  intros Et En Ce Tn Hz Hy.
  apply cycle_requests in Hz. destruct Hz as (z2 & Dz & Sz & Cz & Kz & _).
  apply cycle_requests in Hy. destruct Hy as (y2 & Dy & Sy & Cy & Ky & _).
  rewrite determine_split, Tn in Dz, Dy. injection Dz as <-. injection Dy as <-.
  change (cycle_readings env (set_thermals (l1 ++ l2) z)) with (cycle_readings env z) in *.
  rewrite (requests_without _ _ _ _ _ Et En) in Sy. rewrite (ceilings_without _ _ _ _ _ Et Ce) in Cy.
  change (z_accumulateSetPoint (set_thermals (l1 ++ l2) z)) with (z_accumulateSetPoint z) in Sy.
  change (conf (set_thermals (l1 ++ l2) z)) with (conf z) in Ky.
  assert (S : sp3 y2 = sp3 z2) by congruence. unfold sp3 in S. injection S as _ S1 S2.
  assert (K : conf y2 = conf z2) by congruence.
  assert (Ca : capped y2 = capped z2) by (unfold capped; rewrite S1, Cy, <- Cz; reflexivity).
  assert (Mi : z_minThermalOutputSetPt y2 = z_minThermalOutputSetPt z2) by (use_conf K; reflexivity).
  split; [rewrite !det_core_max, Ca, Mi; reflexivity|].
  intros Ac.
  assert (Az : z_accumulateSetPoint z2 = false) by (use_conf Kz; exact Ac).
  assert (Ay : z_accumulateSetPoint y2 = false) by (use_conf Ky; exact Ac).
  rewrite (det_core_name _ Az), (det_core_name _ Ay), Ca, Mi, S1, S2, Cy, <- Cz. reflexivity.
Qed.

Lemma enabled_setProcess n b z m :
  option_map po_enabled (mget m (z_pidsControlProcess (setProcessEnabled n b z))) =
  if String.eqb m n then option_map (fun _ => b) (mget m (z_pidsControlProcess z))
  else option_map po_enabled (mget m (z_pidsControlProcess z)).
Proof.
  unfold setProcessEnabled. destruct (mget n (z_pidsControlProcess z)) as [p|] eqn:E; simpl.
  - rewrite mget_mset. destruct (String.eqb_spec m n) as [->|N]; [rewrite E; reflexivity|reflexivity].
  - destruct (String.eqb_spec m n) as [->|N]; [rewrite E; reflexivity|reflexivity].
Qed.

Lemma auto_tick_enabled f e l l' z1 z2 n :
  auto_tick f e l l' z1 z2 ->
  option_map po_enabled (mget n (z_pidsControlProcess (l_zone l'))) =
  option_map po_enabled (mget n (z_pidsControlProcess (l_zone l))).
Proof.
  intros [A B C (z3 & P & Z) _ _].
  apply updateFanTelemetry_spec in B. destruct B as (_ & _ & _ & K1 & _).
  apply processFans_spec in P. destruct P as (_ & _ & _ & _ & _ & K3 & _).
  rewrite Z. assert (Q := quiet_log f [LComma; LBool (getFailSafeMode z3); LEndl] z3).
  destruct Q as [_ _ _ Q _ _ _ _]. unfold ctls in *.
  assert (E1 : z_pidsControlProcess z1 = z_pidsControlProcess (l_zone l)) by congruence.
  assert (E3 : z_pidsControlProcess (log_tokens f [LComma; LBool (getFailSafeMode z3); LEndl] z3)
               = z_pidsControlProcess z2) by congruence.
  rewrite E3.
  destruct (z_updateThermalsTimeMS (l_zone l) <=? l_cycleCnt l)%Z.
  - apply thermal_cycle_frame in C. destruct C as (_ & _ & _ & _ & En & _).
    rewrite En, E1. reflexivity.
  - subst z2. rewrite E1. reflexivity.
Qed.

Lemma loop_step_enabled f ev l l' n :
  loop_step f l ev = Ok l' ->
  option_map po_enabled (mget n (z_pidsControlProcess (l_zone l'))) =
  match ev with
  | LEnable m b => if String.eqb n m then option_map (fun _ => b) (mget n (z_pidsControlProcess (l_zone l)))
                   else option_map po_enabled (mget n (z_pidsControlProcess (l_zone l)))
  | _ => option_map po_enabled (mget n (z_pidsControlProcess (l_zone l)))
  end.
Proof.
  destruct ev as [e|b|m b]; simpl; intros H.
  - apply loop_tick_cases in H. destruct H as [(M & ->)|(z1 & z2 & A)]; [reflexivity|].
    eapply auto_tick_enabled; eauto.
  - injection H as <-. destruct b; reflexivity.
  - injection H as <-. apply enabled_setProcess.
Qed.

Lemma loop_run_enabled f evs : forall l l' n b,
  loop_run f evs l = Ok l' ->
  option_map po_enabled (mget n (z_pidsControlProcess (l_zone l))) = Some b ->
  option_map po_enabled (mget n (z_pidsControlProcess (l_zone l'))) = Some (enabled_after n b evs).
Proof.
  unfold loop_run. induction evs as [|ev r IH]; intros l l' n b H E; simpl in H.
  - injection H as <-. exact E.
  - apply bind_ok in H. destruct H as (l1 & H1 & H2).
    assert (K := loop_step_enabled _ _ _ _ n H1).
    destruct ev as [e|m|m v]; simpl.
    + eapply IH; [exact H2|]. congruence.
    + eapply IH; [exact H2|]. congruence.
    + eapply IH; [exact H2|]. rewrite K. destruct (String.eqb n m); [|exact E].
      destruct (mget n (z_pidsControlProcess (l_zone l))); [reflexivity|discriminate].
Qed.

Lemma loop_start_frame f env te now z l :
  loop_start f env te now z = Ok l ->
  conf (l_zone l) = conf z /\ mode (l_zone l) = mode z /\ z_fans (l_zone l) = z_fans z /\
  (forall n, option_map po_enabled (mget n (z_pidsControlProcess (l_zone l))) =
             option_map po_enabled (mget n (z_pidsControlProcess z))) /\
  (z_failSafeSensors z = [] -> z_trace z = [] -> fs_inv (l_zone l)) /\
  l_cycleCnt l = 0%Z /\ l_expiry l = (now + ms_to_ns (z_cycleIntervalTimeMS z))%Z /\
  exists evs, z_trace (l_zone l) = evs ++ z_trace z /\ reads_in evs = z_thermalInputs z /\
    writes_in evs = [] /\ thermal_cycles_in evs = 1%nat.
Proof.
  unfold loop_start. intros H. apply bind_ok in H. destruct H as (z1 & H1 & H). injection H as <-.
  simpl. set (z0 := initializeLog f z) in *.
  assert (Q : quiet_step z z0 []) by apply quiet_log. destruct Q as [Qc Qm Qs Qk Qf Qv Qo Qt].
  destruct (initializeCache_frame z0) as (Im & Ik & Is).
  assert (Ic : conf (initializeCache z0) = conf z0 /\ exists evs, all_plain evs /\ z_trace (initializeCache z0) = evs ++ z_trace z0).
  { unfold initializeCache.
    assert (G : forall g, g = initializeCache_fan \/ g = initializeCache_thermal -> forall l w,
       conf (fold_left g l w) = conf w /\ exists evs, all_plain evs /\ z_trace (fold_left g l w) = evs ++ z_trace w).
    { intros g Hg. induction l as [|n r IH]; intros w; simpl.
      - split; [reflexivity|]. exists []. split; [apply plain_nil|reflexivity].
      - destruct (IH (g w n)) as (A & (e1 & P1 & T1)).
        assert (K : conf (g w n) = conf w /\ exists evs, all_plain evs /\ z_trace (g w n) = evs ++ z_trace w).
        { destruct Hg as [->| ->]; unfold initializeCache_fan, initializeCache_thermal;
          match goal with |- context [markSensorMissing n "" ?x] =>
            destruct (mark_missing_spec n "" x) as (e & Pe & ->);
            destruct (smem n (z_missingAcceptable x)) end;
          (split; [reflexivity|]; exists [e]; split; [apply plain_one; exact Pe|reflexivity]). }
        destruct K as (B & (e2 & P2 & T2)). split; [congruence|].
        exists (e1 ++ e2). split; [apply plain_app; auto|]. rewrite T1, T2. apply app_assoc. }
    destruct (G _ (or_introl eq_refl) (z_fanInputs z0) z0) as (A & (e1 & P1 & T1)).
    match goal with |- context [fold_left initializeCache_thermal ?l ?w] =>
      destruct (G _ (or_intror eq_refl) l w) as (A2 & (e2 & P2 & T2)) end.
    split; [congruence|]. exists (e2 ++ e1). split; [apply plain_app; auto|].
    rewrite T2, T1. apply app_assoc. }
  destruct Ic as (Ic & (e0 & P0 & T0)).
  assert (Fr := thermal_cycle_frame _ _ _ _ _ H1).
  destruct Fr as (C1 & M1 & F1 & O1 & E1 & I1 & (e1 & T1 & R1 & W1 & N1)).
  unfold ctls in Ik, Qk.
  split; [congruence|]. split; [congruence|]. split; [congruence|]. split.
  { intros n. rewrite E1. assert (z_pidsControlProcess (initializeCache z0) = z_pidsControlProcess z) as -> by congruence.
    reflexivity. }
  split.
  { intros Hf Ht. apply I1. apply initializeCache_fs_inv; [congruence|].
    rewrite Qt. exact Ht. }
  split; [reflexivity|]. split.
  { f_equal. f_equal. assert (C : conf z1 = conf z) by congruence. use_conf C. reflexivity. }
  exists (e1 ++ e0). split; [rewrite T1, T0, Qt; apply app_assoc|].
  rewrite reads_app, writes_app, cycles_app, (plain_reads e0 P0), (plain_writes e0 P0), (plain_cycles e0 P0).
  rewrite R1, W1, N1. assert (C : conf (initializeCache z0) = conf z) by congruence. use_conf C.
  repeat split.
Qed.

(** ** Reachable states *)
Lemma loop_step_conf f ev l l' :
  loop_step f l ev = Ok l' -> conf (l_zone l') = conf (l_zone l) /\ (fs_inv (l_zone l) -> fs_inv (l_zone l')).
Proof.
  destruct ev as [e|b|m b]; simpl; intros H.
  - apply loop_tick_cases in H. destruct H as [(M & ->)|(z1 & z2 & [A B C (z3 & P & Z) _ _])].
    { simpl. auto. }
    apply updateFanTelemetry_spec in B. destruct B as (C1 & _ & _ & _ & _ & I1 & _).
    assert (K : conf z2 = conf z1 /\ (fs_inv z1 -> fs_inv z2)).
    { destruct (z_updateThermalsTimeMS (l_zone l) <=? l_cycleCnt l)%Z; [|subst; auto].
      apply thermal_cycle_frame in C. destruct C as (C2 & _ & _ & _ & _ & I2 & _). auto. }
    destruct K as (C2 & I2).
    apply processFans_spec in P.
    destruct P as (C3 & _ & _ & _ & _ & _ & F3 & _ & _ & _ & (e3 & T3 & _ & R3 & _)).
    assert (Q := quiet_log f [LComma; LBool (getFailSafeMode z3); LEndl] z3).
    destruct Q as [Qc _ _ _ Qf _ _ Qt]. cbn [app] in Qt. rewrite Z. split; [congruence|].
    intros I. eapply fs_inv_frame with (evs := e3) (z := z2); auto; congruence.
  - injection H as <-. simpl. destruct b; (split; [reflexivity|]); intros I;
      (eapply fs_inv_frame with (evs := []); [exact I|reflexivity..]).
  - injection H as <-. simpl. unfold setProcessEnabled.
    destruct (mget m (z_pidsControlProcess (l_zone l))); (split; [reflexivity|]); intros I;
      (eapply fs_inv_frame with (evs := []); [exact I|reflexivity..]).
Qed.

Lemma loop_run_conf f evs l l' :
  loop_run f evs l = Ok l' -> conf (l_zone l') = conf (l_zone l) /\ (fs_inv (l_zone l) -> fs_inv (l_zone l')).
Proof.
  intros H. unfold loop_run in H. pattern l'. eapply foldM_inv; [| |exact H]; [|auto].
  intros s x s' _ (A & B) Hs. apply loop_step_conf in Hs. destruct Hs as (C & E).
  split; [congruence|auto].
Qed.

Lemma reachable_inv f z0 l : reachable f z0 l -> conf (l_zone l) = conf z0 /\ fs_inv (l_zone l).
Proof.
  intros (env & te & now & l0 & evs & (Hf & Ht & _) & H0 & H1).
  apply loop_start_frame in H0. destruct H0 as (C0 & _ & _ & _ & I0 & _).
  apply loop_run_conf in H1. destruct H1 as (C1 & I1). split; [congruence|auto].
Qed.

Lemma reachable_step f z0 l ev l' : reachable f z0 l -> loop_step f l ev = Ok l' -> reachable f z0 l'.
Proof.
  intros (env & te & now & l0 & evs & Hf & H0 & H1) H.
  exists env, te, now, l0, (evs ++ [ev]). split; [exact Hf|]. split; [exact H0|].
  unfold loop_run in *. rewrite foldM_app, H1. simpl. rewrite H. reflexivity.
Qed.

(** ** C17, C18, C23, C24 *)
Lemma fs_entry f z0 l n :
  reachable f z0 l ->
  forall r p, mget n (z_failSafeSensors (l_zone l)) = Some (r, p) <->
    is_input z0 n /\ ~ acceptable z0 n /\ bad_reason (last_poll n (z_trace (l_zone l))) = Some r /\
    p = own_percent z0 n.
Proof.
  intros R r p. apply reachable_inv in R. destruct R as (C & [_ I]).
  rewrite I, (is_inputb_conf _ _ _ C), (expected_conf _ _ _ _ C).
  unfold is_inputb, expected_entry, is_input, acceptable. rewrite <- !smem_In.
  destruct (smem n (z_fanInputs z0)), (smem n (z_thermalInputs z0)); simpl;
    destruct (smem n (z_missingAcceptable z0)); destruct (bad_reason _) as [r'|];
    (split; [intros E; try discriminate; try (injection E as <- <-); repeat split; auto; try congruence
            |intros ([A|A] & B & E & F); try congruence; exfalso; auto]).
Qed.

Lemma fs_member f z0 l n :
  reachable f z0 l ->
  ((exists e, mget n (z_failSafeSensors (l_zone l)) = Some e) <->
   is_input z0 n /\ ~ acceptable z0 n /\ bad_reason (last_poll n (z_trace (l_zone l))) <> None).
Proof.
  intros R. split.
  - intros ([r p] & E). apply (fs_entry _ _ _ _ R) in E. destruct E as (A & B & E & _).
    repeat split; auto. congruence.
  - intros (A & B & E). destruct (bad_reason (last_poll n (z_trace (l_zone l)))) as [r|] eqn:Er; [|congruence].
    exists (r, own_percent z0 n). apply (fs_entry _ _ _ _ R). auto.
Qed.

Lemma fs_mode z : fs_inv z -> (getFailSafeMode z = true <-> exists n e, mget n (z_failSafeSensors z) = Some e).
Proof.
  intros _. unfold getFailSafeMode. destruct (z_failSafeSensors z) as [|[k v] r].
  - split; [discriminate|]. intros (n & e & E). discriminate.
  - split; [|reflexivity]. intros _. exists k, v. simpl. rewrite String.eqb_refl. reflexivity.
Qed.

Lemma last_poll_in n tr now v : last_poll n tr = Some (now, v) -> In (EvRead n now v) tr.
Proof.
  induction tr as [|e r IH]; simpl; [discriminate|].
  destruct e; auto. destruct (String.eqb_spec n sensor) as [<-|N]; [|auto].
  intros E. injection E as -> ->. auto.
Qed.

Lemma C18_lemma f z0 l n :
  reachable f z0 l -> is_input z0 n -> ~ acceptable z0 n ->
  (forall now v, In (EvRead n now v) (z_trace (l_zone l)) -> bad_reason (Some (now, v)) <> None) ->
  exists e, mget n (z_failSafeSensors (l_zone l)) = Some e.
Proof.
  intros R A B H. apply (fs_member _ _ _ _ R). repeat split; auto.
  destruct (last_poll n (z_trace (l_zone l))) as [[now v]|] eqn:E; [|discriminate].
  apply H. apply last_poll_in. exact E.
Qed.

Lemma C18_start_lemma z n :
  z_failSafeSensors z = [] ->
  (exists p, mget n (z_failSafeSensors (initializeCache z)) = Some ("", p)) <->
  is_input z n /\ ~ acceptable z n.
Proof.
  intros H. destruct (initializeCache_inv z H) as ([_ I] & C & _).
  rewrite I, smem_app, (expected_conf _ _ _ _ C). unfold expected_entry, is_input, acceptable.
  rewrite <- !smem_In. simpl.
  destruct (smem n (z_fanInputs z)), (smem n (z_thermalInputs z)); simpl;
    destruct (smem n (z_missingAcceptable z));
    (split; [intros (p & E); try discriminate; split; auto
            |intros ([A|A] & B); try congruence; try (exfalso; apply B; reflexivity); eauto]).
Qed.

(** ** C24 arithmetic *)
Lemma timed_out_iff now v : (1 <= sv_timeout v)%Z ->
  (timed_out now v = true <-> (sv_updated v + sv_timeout v * 1000000000 <= now)%Z).
Proof.
  intros H. unfold timed_out.
  assert (N : (sv_timeout v =? 0)%Z = false) by (apply Z.eqb_neq; lia). rewrite N. simpl.
  rewrite Z.leb_le. split; intros K.
  - destruct (Z.le_gt_cases 0 (now - sv_updated v)).
    + assert (Q := Z.quot_rem' (now - sv_updated v) 1000000000).
      assert (B := Z.rem_bound_pos (now - sv_updated v) 1000000000). lia.
    + assert (Z.quot (now - sv_updated v) 1000000000 <= 0)%Z; [|lia].
      rewrite <- (Z.opp_involutive (now - sv_updated v)), Z.quot_opp_l by lia.
      assert (0 <= Z.quot (- (now - sv_updated v)) 1000000000)%Z by (apply Z.quot_pos; lia). lia.
  - apply Z.quot_le_lower_bound; lia.
Qed.
Lemma timed_out_zero now v : sv_timeout v = 0%Z -> timed_out now v = false.
Proof. intros H. unfold timed_out. rewrite H. reflexivity. Qed.

(** ** C19 *)

Lemma max_percent_spec l : forall b, dle d0 b -> (forall k r p, In (k, (r, p)) l -> dle d0 p) ->
  let m := max_percent b l in
  dle b m /\ (forall k r p, In (k, (r, p)) l -> dle p m) /\
  (m = b \/ exists k r, In (k, (r, m)) l).
Proof.
  induction l as [|[k [r p]] l IH]; intros b Hb H; simpl.
  - split; [apply dle_refl; apply dle_notnan in Hb; tauto|]. split; [intros k r p []|auto].
  - assert (Hp : dle d0 p) by (apply (H k r); left; reflexivity).
    assert (Nb : notnan b) by (apply dle_notnan in Hb; tauto).
    assert (Np : notnan p) by (apply dle_notnan in Hp; tauto).
    fold (dmax b p).
    destruct (IH (dmax b p)) as (A & B & C).
    { eapply dle_trans; [exact Hb|apply dmax_ge_l; exact Nb]. }
    { intros k' r' p' I. apply (H k' r'). right. exact I. }
    split; [eapply dle_trans; [apply dmax_ge_l; exact Nb|exact A]|]. split.
    + intros k' r' p' [E|I].
      * injection E as <- <- <-. eapply dle_trans; [exact (dmax_ge_r b p Nb Np)|exact A].
      * eapply B; eauto.
    + destruct C as [C|(k' & r' & I)].
      * rewrite C. unfold dmax. destruct (dltb b p); [right; eauto|auto].
      * right. eauto.
Qed.

Lemma C19_lemma f z0 l :
  reachable f z0 l -> percents_ok z0 ->
  getFailSafeMode (l_zone l) = true ->
  (exists n e, mget n (z_failSafeSensors (l_zone l)) = Some e /\
     deq (getFailSafePercent (l_zone l)) (own_percent z0 n)) /\
  (forall n e, mget n (z_failSafeSensors (l_zone l)) = Some e ->
     dle (own_percent z0 n) (getFailSafePercent (l_zone l))).
Proof.
  intros R P M. assert (R' := R). apply reachable_inv in R. destruct R as (C & [S I]).
  assert (Ent : forall k r p, In (k, (r, p)) (z_failSafeSensors (l_zone l)) -> p = own_percent z0 k).
  { intros k r p In_. apply (sorted_In_mget _ _ _ S) in In_. apply (fs_entry _ _ _ _ R') in In_. tauto. }
  unfold getFailSafePercent, getFailSafeMode in *.
  assert (Zp : z_zoneFailSafePercent (l_zone l) = z_zoneFailSafePercent z0) by (use_conf C; reflexivity).
  rewrite Zp.
  destruct (z_failSafeSensors (l_zone l)) as [|[k [r p]] rest] eqn:Ef; [discriminate|]. clear M.
  assert (Hp : p = own_percent z0 k) by (apply (Ent k r); left; reflexivity).
  assert (Rest : forall k' r' p', In (k', (r', p')) rest -> dle d0 p').
  { intros k' r' p' In_. rewrite (Ent k' r' p') by (right; exact In_). apply P. }
  destruct (max_percent_spec rest p) as (A & B & D); [subst p; apply P|exact Rest|].
  set (m := max_percent p rest) in *.
  assert (Bd : forall n e, mget n ((k, (r, p)) :: rest) = Some e -> dle (own_percent z0 n) m).
  { intros n [r' p'] E. apply mget_In in E. rewrite <- (Ent n r' p' E).
    destruct E as [E|E]; [injection E as <- <- <-; exact A|eapply B; exact E]. }
  assert (Ex : exists n e, mget n ((k, (r, p)) :: rest) = Some e /\ m = own_percent z0 n).
  { destruct D as [D|(k' & r' & D)].
    - exists k, (r, p). split; [simpl; rewrite String.eqb_refl; reflexivity|]. congruence.
    - exists k', (r', m). split; [apply (sorted_In_mget _ _ _ S); right; exact D|].
      apply (Ent k' r'). right. exact D. }
  destruct (deqb m d0) eqn:Em.
  - (* all failing sensors have percent 0, so the zone's is 0 too *)
    assert (K : deq (z_zoneFailSafePercent z0) m).
    { destruct Ex as (n & e & En & Hm). apply deq_trans with d0; [|apply deq_sym; exact Em].
      rewrite Hm in Em. unfold own_percent in Em.
      destruct (mget n (z_sensorFailSafePercent z0)) as [q|]; [|exact Em].
      destruct (deqb q d0) eqn:Eq; [exact Em|congruence]. }
    split.
    + destruct Ex as (n & e & En & Hm). exists n, e. split; [exact En|]. rewrite <- Hm. exact K.
    + intros n e En. eapply dle_trans; [eapply Bd; exact En|]. apply deq_le, deq_sym, K.
  - split; [|exact Bd]. destruct Ex as (n & e & En & Hm). exists n, e. split; [exact En|].
    rewrite <- Hm. apply deq_refl. apply dle_notnan in A. tauto.
Qed.

Lemma C19_none f z0 l :
  reachable f z0 l -> getFailSafeMode (l_zone l) = false ->
  getFailSafePercent (l_zone l) = z_zoneFailSafePercent z0.
Proof.
  intros R M. apply reachable_inv in R. destruct R as (C & _).
  unfold getFailSafePercent, getFailSafeMode in *.
  destruct (z_failSafeSensors (l_zone l)); [|discriminate]. use_conf C. reflexivity.
Qed.

(** ** C20-C22 *)
Definition D100_pos : dlt d0 (D 100) := eq_refl.

Lemma ddiv100_mono a b : dle a b -> notnan (ddiv a (D 100)) -> notnan (ddiv b (D 100)) ->
  dle (ddiv a (D 100)) (ddiv b (D 100)).
Proof. intros. apply ddiv_mono; auto. exact D100_pos. Qed.

Lemma ddiv100_notnan a : notnan a -> notnan (ddiv a (D 100)).
Proof.
  intros N. destruct (finite_or_inf a N) as [F|[->| ->]]; [|reflexivity..].
  destruct (ddiv_Rx a (D 100) F eq_refl) as (H & _); [|exact H].
  assert (L := D100_pos). apply dlt_iff in L. rewrite Rx_d0 in L. intros E. rewrite E in L. destruct L as (_ & _ & L). exact (Rlt_irrefl _ L).
Qed.

(** ** Profiles *)
Lemma after_underscore_prefix p r :
  ~ (exists a b, p = (a ++ "_" ++ b)%string) -> after_first_underscore (p ++ "_" ++ r)%string = Some r.
Proof.
  induction p as [|c p IH]; intros N; simpl; [reflexivity|].
  destruct (Ascii.eqb_spec c "_"%char) as [->|Nc].
  - exfalso. apply N. exists "", p. reflexivity.
  - apply IH. intros (a & b & ->). apply N. exists (String c a), b. reflexivity.
Qed.
Lemma profile_iff name p : has_profile name p <-> p = profile_of name.
Proof.
  split; [|intros ->; apply profile_of_spec].
  intros [(pre & N & ->)|(N & ->)]; unfold profile_of.
  - rewrite after_underscore_prefix by exact N. reflexivity.
  - assert (H := after_underscore_spec name). destruct (after_first_underscore name) as [r|]; [|reflexivity].
    destruct H as (q & _ & E). exfalso. apply N. exists q, r. exact E.
Qed.

(** ** Helpers for concrete runs *)
Definition is_ok {A : Type} (o : outcome A) : bool := match o with Ok _ => true | _ => false end.
Definition get_ok {A : Type} (d : A) (o : outcome A) : A := match o with Ok a => a | _ => d end.
Lemma get_ok_eq {A : Type} (d : A) (o : outcome A) : is_ok o = true -> o = Ok (get_ok d o).
Proof. destruct o; [reflexivity|discriminate..]. Qed.
