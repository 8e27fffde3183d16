(** * Proofs about sensors (C29-C31, C46, C47). *)
From Coq Require Import Reals ZArith Bool List String Ascii Lia.
From Verif Require Import Base BaseFacts Dbl DblFacts DblOrder DblBound SensorModel SpecSensor.
Import ListNotations.
Local Open Scope string_scope.
Local Open Scope outcome_scope.

Lemma latest_snoc {M A : Type} (f : M -> option A) d h m :
  latest f d (h ++ [m]) = match f m with Some x => x | None => latest f d h end.
Proof. unfold latest. rewrite fold_left_app. reflexivity. Qed.

Lemma passive_run_snoc sf pow10 s h m s' :
  passive_run sf pow10 s (h ++ [m]) = Ok s' <->
  exists s1, passive_run sf pow10 s h = Ok s1 /\ handleSensorValue sf pow10 s1 m = Ok s'.
Proof.
  unfold passive_run. rewrite foldM_app. split.
  - intro H. apply bind_ok in H. destruct H as (s1 & H1 & H2). exists s1. split; [exact H1|].
    cbn [foldM] in H2. apply bind_ok in H2. destruct H2 as (s2 & H2 & H3). congruence.
  - intros (s1 & H1 & H2). rewrite H1. cbn [bind foldM]. rewrite H2. reflexivity.
Qed.

(** ** One message *)

(** The exact effect of a handled message. *)
Definition after (sf : sflags) (pow10 : Z -> dbl) (s : passive) (m : sensor_msg) : passive :=
  let s := match reading m with
           | Some v => updateValue pow10 (m_now m) v false s | None => s end in
  let s := match alarm (UNC_FAILSAFE sf) m with Some a => setFailed a s | None => s end in
  let s := match functionality m with Some v => setFunctional v s | None => s end in
  match availability m with
  | Some true => setAvailable true s
  | Some false => updateValue pow10 (m_now m) dnan true (setAvailable false s)
  | None => s
  end.

Lemma to_double_number v d : to_double v = Ok d -> d = number v.
Proof. destruct v as [z|d1|s|[]]; cbn; intro H; congruence. Qed.
Lemma get_bool_truth v b : get_bool v = Ok b -> b = truth (Some v).
Proof. destruct v; cbn; congruence. Qed.

Lemma handle_after sf pow10 s m s' :
  handleSensorValue sf pow10 s m = Ok s' -> s' = after sf pow10 s m.
Proof.
  unfold handleSensorValue, after, reading, alarm, functionality, availability, says.
  destruct (String.eqb (m_intf m) value_intf) eqn:E1.
  { apply String.eqb_eq in E1. rewrite E1.
    replace (String.eqb value_intf critical_intf) with false by reflexivity.
    replace (String.eqb value_intf warning_intf) with false by reflexivity.
    replace (String.eqb value_intf available_intf) with false by reflexivity.
    replace (String.eqb value_intf functional_intf) with false by reflexivity.
    intro H. destruct (mget "Value" (m_props m)) as [v|] eqn:E; cbn [option_map] in *.
    - apply bind_ok in H. destruct H as (d & H & H1). apply to_double_number in H. subst d.
      destruct (UNC_FAILSAFE sf); cbn; congruence.
    - destruct (UNC_FAILSAFE sf); cbn; congruence. }
  destruct (String.eqb (m_intf m) critical_intf) eqn:E2.
  { apply String.eqb_eq in E2. rewrite E2.
    replace (String.eqb critical_intf warning_intf) with false by reflexivity.
    replace (String.eqb critical_intf available_intf) with false by reflexivity.
    replace (String.eqb critical_intf functional_intf) with false by reflexivity.
    replace (if UNC_FAILSAFE sf then None else None) with (@None dvalue) by (destruct (UNC_FAILSAFE sf); reflexivity).
    cbn [option_map present truth orb]. intro H.
    destruct (mget "CriticalAlarmLow" (m_props m)) as [lo|];
      destruct (mget "CriticalAlarmHigh" (m_props m)) as [hi|]; cbn [present orb].
    - apply bind_ok in H. destruct H as (a & H & H1). apply get_bool_truth in H. subst a.
      destruct (truth (Some lo)) eqn:T.
      + cbn in H1. inversion H1. reflexivity.
      + apply bind_ok in H1. destruct H1 as (a & H1 & H2). apply get_bool_truth in H1. subst a.
        inversion H2. cbn [orb]. rewrite orb_false_r. reflexivity.
    - apply bind_ok in H. destruct H as (a & H & H1). apply get_bool_truth in H. subst a.
      destruct (truth (Some lo)) eqn:T; cbn in H1; inversion H1; reflexivity.
    - cbn [bind] in H. apply bind_ok in H. destruct H as (a & H & H1). apply get_bool_truth in H. subst a.
      inversion H1. cbn [orb truth]. rewrite orb_false_r. reflexivity.
    - inversion H. reflexivity. }
  cbn [option_map present orb truth].
  destruct (UNC_FAILSAFE sf && String.eqb (m_intf m) warning_intf) eqn:E3.
  { apply andb_true_iff in E3. destruct E3 as [E3 E4]. rewrite E3. apply String.eqb_eq in E4. rewrite E4.
    replace (String.eqb warning_intf available_intf) with false by reflexivity.
    replace (String.eqb warning_intf functional_intf) with false by reflexivity.
    rewrite String.eqb_refl. intro H.
    destruct (mget "WarningAlarmHigh" (m_props m)) as [v|]; cbn [present option_map].
    - apply bind_ok in H. destruct H as (a & H & H1). apply get_bool_truth in H. subst a. inversion H1. reflexivity.
    - inversion H. reflexivity. }
  assert (W : (if UNC_FAILSAFE sf then if String.eqb (m_intf m) warning_intf
               then mget "WarningAlarmHigh" (m_props m) else None else None) = None).
  { destruct (UNC_FAILSAFE sf); [cbn [andb] in E3; rewrite E3|]; reflexivity. }
  rewrite W. cbn [present truth].
  destruct (String.eqb (m_intf m) available_intf) eqn:E5.
  { apply String.eqb_eq in E5. rewrite E5.
    replace (String.eqb available_intf functional_intf) with false by reflexivity. intro H.
    destruct (mget "Available" (m_props m)) as [v|]; cbn [option_map].
    - apply bind_ok in H. destruct H as (a & H & H1). apply get_bool_truth in H. subst a.
      cbv zeta in H1. destruct v as [| | |[]]; cbn [truth] in *; inversion H1; reflexivity.
    - inversion H. reflexivity. }
  destruct (String.eqb (m_intf m) functional_intf) eqn:E6.
  { intro H. destruct (mget "Functional" (m_props m)) as [v|]; cbn [option_map].
    - apply bind_ok in H. destruct H as (a & H & H1). apply get_bool_truth in H. subst a. inversion H1. reflexivity.
    - inversion H. reflexivity. }
  intro H. inversion H. reflexivity.
Qed.

(** A message is about one interface. *)
Lemma one_interface m : forall v, reading m = Some v -> availability m = None.
Proof.
  unfold reading, availability, says. intro v.
  destruct (String.eqb (m_intf m) value_intf) eqn:E; [|discriminate].
  apply String.eqb_eq in E. rewrite E. reflexivity.
Qed.

(** Components of [updateValue]. *)
Lemma updateValue_fields pow10 now v f s :
  let s' := updateValue pow10 now v f s in
  let acc := disfinite v || f in
  p_id s' = p_id s /\ p_path s' = p_path s /\ p_objectMissing s' = p_objectMissing s /\
  p_typeMargin s' = p_typeMargin s /\ p_typeFan s' = p_typeFan s /\ p_scale s' = p_scale s /\
  p_max s' = p_max s /\ p_min s' = p_min s /\ p_failed s' = p_failed s /\
  p_functional s' = p_functional s /\ p_available s' = p_available s /\
  p_availableOverridden s' = p_availableOverridden s /\
  p_unavailableAsFailed s' = p_unavailableAsFailed s /\
  p_badReading s' = negb (disfinite v) /\
  p_marginHot s' = (if acc && p_typeMargin s then dleb (dmul v (pow10 (p_scale s))) d0 else p_marginHot s) /\
  p_value s' = (if acc then scaleSensorReading (p_min s) (p_max s) (dmul v (pow10 (p_scale s))) else p_value s) /\
  p_unscaled s' = (if acc then dmul v (pow10 (p_scale s)) else p_unscaled s) /\
  p_updated s' = (if acc then now else p_updated s).
Proof.
  unfold updateValue. destruct (disfinite v); destruct f; cbn [negb andb orb];
    destruct (p_typeMargin s) eqn:E; cbn; rewrite ?E; repeat split; cbn; rewrite ?E; reflexivity.
Qed.

(** ** The state as a function of the history *)

Record tracks (sf : sflags) (pow10 : Z -> dbl) (mn mx : dbl) (i : initial) (h : list sensor_msg) (s : passive) : Prop :=
  MkTracks {
  tr_bad : p_badReading s = negb (disfinite (latest last_reading (i_value i) h));
  tr_hot : p_marginHot s =
    (p_typeMargin s && dleb (dmul (fst (latest accepted (i_value i, i_now i) h)) (pow10 (i_scale i))) d0);
  tr_failed : p_failed s = latest (alarm (UNC_FAILSAFE sf)) (i_alarm i) h;
  tr_available : p_available s = latest availability (i_available i) h;
  tr_functional : p_functional s = latest functionality true h;
  tr_scale : p_scale s = i_scale i;
  tr_min : p_min s = mn;
  tr_max : p_max s = mx;
  tr_value : p_value s = scaleSensorReading mn mx
    (dmul (fst (latest accepted (i_value i, i_now i) h)) (pow10 (i_scale i)));
  tr_unscaled : p_unscaled s = dmul (fst (latest accepted (i_value i, i_now i) h)) (pow10 (i_scale i));
  tr_updated : p_updated s = snd (latest accepted (i_value i, i_now i) h)
}.

Definition fixed (s : passive) :=
  (p_id s, p_path s, p_objectMissing s, p_typeMargin s, p_typeFan s, p_unavailableAsFailed s).

Lemma updateValue_fixed pow10 now v f s : fixed (updateValue pow10 now v f s) = fixed s.
Proof.
  pose proof (updateValue_fields pow10 now v f s) as U. cbv zeta in U. unfold fixed.
  destruct U as (U1 & U2 & U3 & U4 & U5 & U6 & U7 & U8 & U9 & U10 & U11 & U12 & U13 & _). congruence.
Qed.

Lemma after_fixed sf pow10 s m : fixed (after sf pow10 s m) = fixed s.
Proof.
  unfold after.
  assert (A : forall s v, fixed (setAvailable v s) = fixed s) by reflexivity.
  assert (B : forall s v, fixed (setFunctional v s) = fixed s) by reflexivity.
  assert (C : forall s v, fixed (setFailed v s) = fixed s) by reflexivity.
  destruct (availability m) as [[]|]; rewrite ?updateValue_fixed, ?A;
    destruct (functionality m); rewrite ?B; destruct (alarm _ m); rewrite ?C;
    destruct (reading m); rewrite ?updateValue_fixed; reflexivity.
Qed.

Lemma run_fixed sf pow10 h : forall s s', passive_run sf pow10 s h = Ok s' -> fixed s' = fixed s.
Proof.
  induction h as [|m h IH] using rev_ind; intros s s' H.
  - unfold passive_run in H. cbn in H. congruence.
  - apply passive_run_snoc in H. destruct H as (s1 & H1 & H2). apply handle_after in H2. subst s'.
    rewrite after_fixed. eauto.
Qed.

Lemma after_tracks sf pow10 mn mx i h s m :
  tracks sf pow10 mn mx i h s -> tracks sf pow10 mn mx i (h ++ [m]) (after sf pow10 s m).
Proof.
  intros [T1 T2 T3 T4 T5 T6 T7 T8 T9 T10 T11].
  assert (S0 : disfinite dnan = false) by reflexivity.
  unfold after.
  (* split on whether the message carries a reading *)
  destruct (reading m) as [v|] eqn:R.
  - pose proof (one_interface m v R) as AV. rewrite AV.
    assert (FN : functionality m = None /\ alarm (UNC_FAILSAFE sf) m = None).
    { unfold reading, says in R. destruct (String.eqb (m_intf m) value_intf) eqn:E; [|discriminate R].
      apply String.eqb_eq in E. unfold functionality, alarm, says. rewrite E.
      destruct (UNC_FAILSAFE sf); split; reflexivity. }
    destruct FN as [F1 F2]. rewrite F1, F2.
    pose proof (updateValue_fields pow10 (m_now m) v false s) as U. cbv zeta in U.
    destruct U as (U1 & U2 & U3 & U4 & U5 & U6 & U7 & U8 & U9 & U10 & U11 & U12 & U13 & U14 & U15 & U16 & U17 & U18).
    rewrite orb_false_r in *.
    assert (LR : latest last_reading (i_value i) (h ++ [m]) = v).
    { rewrite latest_snoc. unfold last_reading. rewrite AV, R. reflexivity. }
    assert (LA : latest accepted (i_value i, i_now i) (h ++ [m]) =
                 if disfinite v then (v, m_now m) else latest accepted (i_value i, i_now i) h).
    { rewrite latest_snoc. unfold accepted at 1. rewrite AV, R. destruct (disfinite v); reflexivity. }
    constructor.
    + rewrite U14, LR. reflexivity.
    + rewrite U15, U4, LA, T6. destruct (disfinite v); cbn [andb fst].
      * destruct (p_typeMargin s); cbn [andb]; [reflexivity|]. rewrite T2. reflexivity.
      * exact T2.
    + rewrite U9, latest_snoc, F2. exact T3.
    + rewrite U11, latest_snoc, AV. exact T4.
    + rewrite U10, latest_snoc, F1. exact T5.
    + rewrite U6. exact T6.
    + rewrite U8. exact T7.
    + rewrite U7. exact T8.
    + rewrite U16, LA, T6, T7, T8. destruct (disfinite v); [reflexivity|exact T9].
    + rewrite U17, LA, T6. destruct (disfinite v); [reflexivity|exact T10].
    + rewrite U18, LA. destruct (disfinite v); [reflexivity|exact T11].
  - set (s1 := match alarm (UNC_FAILSAFE sf) m with Some a => setFailed a s | None => s end).
    set (s2 := match functionality m with Some v => setFunctional v s1 | None => s1 end).
    assert (E : p_badReading s2 = p_badReading s /\ p_marginHot s2 = p_marginHot s /\
                p_typeMargin s2 = p_typeMargin s /\ p_available s2 = p_available s /\
                p_scale s2 = p_scale s /\ p_min s2 = p_min s /\ p_max s2 = p_max s /\
                p_value s2 = p_value s /\ p_unscaled s2 = p_unscaled s /\ p_updated s2 = p_updated s /\
                p_failed s2 = (match alarm (UNC_FAILSAFE sf) m with Some a => a | None => p_failed s end) /\
                p_functional s2 = (match functionality m with Some v => v | None => p_functional s end)).
    { unfold s2, s1. destruct (functionality m); destruct (alarm _ m); cbn; repeat split. }
    destruct E as (E1 & E2 & E3 & E4 & E5 & E6 & E7 & E8 & E9 & E10 & E11 & E12).
    assert (F1 : (match alarm (UNC_FAILSAFE sf) m with Some a => a | None => p_failed s end) =
                 latest (alarm (UNC_FAILSAFE sf)) (i_alarm i) (h ++ [m])).
    { rewrite latest_snoc, T3. reflexivity. }
    assert (F2 : (match functionality m with Some v => v | None => p_functional s end) =
                 latest functionality true (h ++ [m])).
    { rewrite latest_snoc, T5. reflexivity. }
    destruct (availability m) as [[]|] eqn:AV.
    + (* available again: the stored reading stays *)
      assert (LR : latest last_reading (i_value i) (h ++ [m]) = latest last_reading (i_value i) h).
      { rewrite latest_snoc. unfold last_reading at 1. rewrite AV, R. reflexivity. }
      assert (LA : latest accepted (i_value i, i_now i) (h ++ [m]) = latest accepted (i_value i, i_now i) h).
      { rewrite latest_snoc. unfold accepted at 1. rewrite AV, R. reflexivity. }
      constructor; cbn; rewrite ?LR, ?LA; try congruence.
      rewrite latest_snoc, AV. reflexivity.
    + pose proof (updateValue_fields pow10 (m_now m) dnan true (setAvailable false s2)) as U. cbv zeta in U.
      set (su := updateValue pow10 (m_now m) dnan true (setAvailable false s2)) in *. clearbody su.
      destruct U as (U1 & U2 & U3 & U4 & U5 & U6 & U7 & U8 & U9 & U10 & U11 & U12 & U13 & U14 & U15 & U16 & U17 & U18).
      change (p_typeMargin (setAvailable false s2)) with (p_typeMargin s2) in *.
      change (p_marginHot (setAvailable false s2)) with (p_marginHot s2) in *.
      change (p_scale (setAvailable false s2)) with (p_scale s2) in *.
      change (p_min (setAvailable false s2)) with (p_min s2) in *.
      change (p_max (setAvailable false s2)) with (p_max s2) in *.
      change (p_failed (setAvailable false s2)) with (p_failed s2) in *.
      change (p_functional (setAvailable false s2)) with (p_functional s2) in *.
      change (p_available (setAvailable false s2)) with false in *.
      change (disfinite dnan || true) with true in *. cbn [andb] in U15.
      assert (LR : latest last_reading (i_value i) (h ++ [m]) = dnan).
      { rewrite latest_snoc. unfold last_reading at 1. rewrite AV. reflexivity. }
      assert (LA : latest accepted (i_value i, i_now i) (h ++ [m]) = (dnan, m_now m)).
      { rewrite latest_snoc. unfold accepted at 1. rewrite AV. reflexivity. }
      constructor; rewrite ?LR, ?LA; cbn [fst snd].
      * rewrite U14. reflexivity.
      * rewrite U15, U4, E3, E2, E5, T6, T2. destruct (p_typeMargin s); reflexivity.
      * rewrite U9. congruence.
      * rewrite U11, latest_snoc, AV. reflexivity.
      * rewrite U10. congruence.
      * rewrite U6. congruence.
      * rewrite U8. congruence.
      * rewrite U7. congruence.
      * rewrite U16, E5, E6, E7, T6, T7, T8. reflexivity.
      * rewrite U17, E5, T6. reflexivity.
      * rewrite U18. reflexivity.
    + assert (LR : latest last_reading (i_value i) (h ++ [m]) = latest last_reading (i_value i) h).
      { rewrite latest_snoc. unfold last_reading at 1. rewrite AV, R. reflexivity. }
      assert (LA : latest accepted (i_value i, i_now i) (h ++ [m]) = latest accepted (i_value i, i_now i) h).
      { rewrite latest_snoc. unfold accepted at 1. rewrite AV, R. reflexivity. }
      constructor; rewrite ?LR, ?LA; try congruence.
      rewrite latest_snoc, AV. congruence.
Qed.

Lemma run_tracks sf pow10 mn mx i h : forall s s',
  tracks sf pow10 mn mx i [] s -> passive_run sf pow10 s h = Ok s' -> tracks sf pow10 mn mx i h s'.
Proof.
  induction h as [|m h IH] using rev_ind; intros s s' T H.
  - unfold passive_run in H. cbn in H. inversion H. subst. exact T.
  - apply passive_run_snoc in H. destruct H as (s1 & H1 & H2). apply handle_after in H2. subst s'.
    apply after_tracks. eauto.
Qed.

(** ** Creation *)

Lemma D0 : D 0 = d0. Proof. reflexivity. Qed.

Lemma number_property k m d :
  match mget k m with Some v => to_double v | None => Ok d0 end = Ok d ->
  d = number (property k (VInt 0) m).
Proof.
  unfold property. destruct (mget k m) as [v|]; intro H.
  - apply to_double_number. exact H.
  - cbn [number]. rewrite D0. congruence.
Qed.

Lemma getProperties_spec b p : getProperties b = Ok p ->
  exists props, br_value b = Some props /\
    sp_value p = number (property "Value" (VInt 0) props) /\
    VInt (sp_scale p) = property "Scale" (VInt 0) props /\
    sp_min p = number (property "MinValue" (VInt 0) props) /\
    sp_max p = number (property "MaxValue" (VInt 0) props) /\
    sp_available p = match br_available b with None => true | v => truth v end.
Proof.
  unfold getProperties. destruct (br_value b) as [props|]; [|discriminate]. intro H.
  apply bind_ok in H. destruct H as (u & _ & H).
  apply bind_ok in H. destruct H as (sc & Hs & H).
  apply bind_ok in H. destruct H as (mx & Hx & H).
  apply bind_ok in H. destruct H as (mn & Hn & H).
  apply bind_ok in H. destruct H as (v & Hv & H). inversion H; subst p; clear H. cbn.
  exists props. split; [reflexivity|].
  apply number_property in Hx. apply number_property in Hn. apply number_property in Hv.
  split; [exact Hv|]. split.
  { unfold property. destruct (mget "Scale" props) as [w|].
    - destruct w; cbn in Hs; congruence.
    - congruence. }
  split; [exact Hn|]. split; [exact Hx|].
  destruct (br_available b) as [[]|]; reflexivity.
Qed.

Lemma get_bool_opt v a :
  match v with Some w => get_bool w | None => Ok false end = Ok a -> a = truth v.
Proof. destruct v as [w|]; cbn; [apply get_bool_truth|congruence]. Qed.

Lemma thresholdsAsserted_spec sf b a : thresholdsAsserted sf b = Ok a ->
  a = (let critical k := match br_critical b with Some m => truth (mget k m) | None => false end in
       critical "CriticalAlarmLow" || critical "CriticalAlarmHigh" ||
       (UNC_FAILSAFE sf &&
        match br_warning b with Some m => truth (mget "WarningAlarmHigh" m) | None => false end)).
Proof.
  unfold thresholdsAsserted. cbv zeta.
  assert (W : forall a, match br_warning b with
                    | None => Ok false
                    | Some w => match mget "WarningAlarmHigh" w with
                       | Some v => get_bool v
                       | None => Ok false
                       end
                    end = Ok a ->
              a = match br_warning b with Some m => truth (mget "WarningAlarmHigh" m) | None => false end).
  { intro a'. destruct (br_warning b); [apply get_bool_opt|congruence]. }
  destruct (br_critical b) as [c|]; cbn [orb].
  - intro H. apply bind_ok in H. destruct H as (lo & Hl & H). apply get_bool_opt in Hl. subst lo.
    apply bind_ok in H. destruct H as (hi & Hh & H).
    assert (E : hi = truth (mget "CriticalAlarmLow" c) || truth (mget "CriticalAlarmHigh" c)).
    { destruct (truth (mget "CriticalAlarmLow" c)); cbn [orb]; [congruence|]. apply get_bool_opt. exact Hh. }
    rewrite <- E. destruct (UNC_FAILSAFE sf); cbn [andb] in *; destruct hi; cbn [negb orb] in *; try congruence.
    apply W. exact H.
  - destruct (UNC_FAILSAFE sf); cbn [negb andb]; [apply W|congruence].
Qed.

Lemma init_tracks sf pow10 now p failed s :
  p_availableOverridden s = false -> p_functional s = true -> p_marginHot s = false ->
  tracks sf pow10 (dmul (sp_min p) (pow10 (sp_scale p))) (dmul (sp_max p) (pow10 (sp_scale p)))
    (Initial now (sp_value p) failed (sp_available p) (sp_scale p) (sp_min p) (sp_max p)) []
    (initFromSettings pow10 now p failed s).
Proof.
  intros A F MH. unfold initFromSettings, setAvailableFromProperty. cbv zeta. cbn [p_availableOverridden pset_unavailableAsFailed pset_max pset_min pset_scale pset_failed]. rewrite A.
  match goal with |- tracks _ _ _ _ _ _ (updateValue _ _ ?v ?f ?s1) =>
    pose proof (updateValue_fields pow10 now v f s1) as U;
    set (su := updateValue pow10 now v f s1) in *; cbv zeta in U; clearbody su end.
  cbn in U. rewrite orb_true_r in U. cbn [andb] in U.
  destruct U as (U1 & U2 & U3 & U4 & U5 & U6 & U7 & U8 & U9 & U10 & U11 & U12 & U13 & U14 & U15 & U16 & U17 & U18).
  constructor; cbn [i_value i_now i_alarm i_available i_scale latest fold_left fst snd]; try congruence.
  - rewrite U15, U4. destruct (p_typeMargin s); cbn [andb]; congruence.
Qed.

Lemma getSensorPath_eq type id : getSensorPath type id = usual_path type id.
Proof.
  unfold getSensorPath, usual_path, folders. cbn [mget].
  repeat match goal with |- context [String.eqb type ?x] => destruct (String.eqb_spec type x) as [->|]; [reflexivity|] end.
  reflexivity.
Qed.

Lemma create_cases sf pow10 now type id b info s :
  createDbusPassive sf pow10 now type id b info = Some s ->
  validType type = true /\
  ((missing b /\ HANDLE_MISSING_OBJECT_PATHS sf = true /\ p_objectMissing s = true /\
    p_path s = path_of type id info /\ p_unavailableAsFailed s = true) \/
   (~ missing b /\ exists i, starts sf now b info i /\
     tracks sf pow10 (dmul (i_min i) (pow10 (i_scale i))) (dmul (i_max i) (pow10 (i_scale i))) i [] s /\
     fixed s = (id, path_of type id info, false, String.eqb type "margin", String.eqb type "fan",
                sc_unavailableAsFailed info))).
Proof.
  unfold createDbusPassive. destruct (validType type) eqn:V; cbn [negb]; [|discriminate].
  rewrite getSensorPath_eq. fold (path_of type id info). intro H. split; [reflexivity|].
  unfold missing. unfold getService in H.
  assert (Miss : (if negb (HANDLE_MISSING_OBJECT_PATHS sf) then None
        else Some (initFromSettings pow10 now (MkProps 0 dnan d0 d0 false true) true
                     (passive_new type id true (path_of type id info)))) = Some s ->
     HANDLE_MISSING_OBJECT_PATHS sf = true /\ p_objectMissing s = true /\
     p_path s = path_of type id info /\ p_unavailableAsFailed s = true).
  { destruct (HANDLE_MISSING_OBJECT_PATHS sf); cbn [negb]; [|discriminate]. intro E. inversion E. clear E H1.
    unfold initFromSettings, setAvailableFromProperty, passive_new, updateValue. cbn.
    destruct (String.eqb type "margin"); cbn; repeat split. }
  destruct (br_service b) as [[|o r]|].
  - left. split; [exact I|]. apply Miss. exact H.
  - right. split; [tauto|]. clear Miss.
    destruct (getProperties b) as [p|x|x] eqn:P; [|discriminate|discriminate].
    destruct (thresholdsAsserted sf b) as [a|x|x] eqn:T; [|discriminate|discriminate].
    apply getProperties_spec in P. destruct P as (props & P1 & P2 & P3 & P4 & P5 & P6).
    apply thresholdsAsserted_spec in T.
    destruct (if sc_ignoreDbusMinMax info then (d0, d0) else (sp_min p, sp_max p)) as [mn mx] eqn:MM.
    inversion H; subst s; clear H.
    exists (Initial now (sp_value p) a (sp_available p) (sp_scale p) mn mx). split; [|split].
    + exists props. cbn. repeat split; try assumption.
      * destruct (sc_ignoreDbusMinMax info); congruence.
      * destruct (sc_ignoreDbusMinMax info); congruence.
    + cbn [i_min i_max i_scale]. apply (init_tracks sf pow10 now (MkProps (sp_scale p) (sp_value p) mn mx (sp_available p) (sc_unavailableAsFailed info)) a); reflexivity.
    + unfold initFromSettings. rewrite updateValue_fixed. reflexivity.
  - left. split; [exact I|]. apply Miss. exact H.
Qed.

(** ** C29 *)

Lemma failed_iff red s : fst (passive_getFailed red s) = true <->
  (exists l, red = Some l /\ In (p_path s) l) \/ p_objectMissing s = true \/
  (~ (p_typeFan s = false /\ p_available s = false /\ p_unavailableAsFailed s = false) /\
   (p_badReading s = true \/ p_marginHot s = true \/ p_failed s = true \/
    p_available s = false \/ p_functional s = false)).
Proof.
  unfold passive_getFailed.
  assert (E : (match red with Some failures => smem (p_path s) failures | None => false end = true) <->
              exists l, red = Some l /\ In (p_path s) l).
  { destruct red as [l|].
    - rewrite smem_In. split; [intro H; exists l; tauto|intros (l' & H1 & H2); congruence].
    - split; [discriminate|intros (l' & H1 & _); discriminate]. }
  destruct (match red with Some failures => smem (p_path s) failures | None => false end).
  { cbn. tauto. }
  assert (E' : ~ exists l, red = Some l /\ In (p_path s) l) by (intro H; apply E in H; discriminate).
  destruct (p_objectMissing s); cbn; [tauto|].
  destruct (p_typeFan s), (p_available s), (p_unavailableAsFailed s), (p_badReading s), (p_marginHot s),
    (p_failed s), (p_functional s); cbn; intuition congruence.
Qed.

Definition reports_failed (sf : sflags) (pow10 : Z -> dbl) (type : string)
    (info : SensorConfig) (i : initial) (h : list sensor_msg) : Prop :=
  ~ is_exempt type info i h /\
  (is_bad i h \/ (type = "margin" /\ is_hot pow10 i h) \/ is_alarmed (UNC_FAILSAFE sf) i h \/
   ~ is_available i h \/ ~ is_functional h).

Lemma fixed_inv s a b c d e f : fixed s = (a, b, c, d, e, f) ->
  p_id s = a /\ p_path s = b /\ p_objectMissing s = c /\ p_typeMargin s = d /\ p_typeFan s = e /\
  p_unavailableAsFailed s = f.
Proof. unfold fixed. intro H. inversion H. repeat split; reflexivity. Qed.

Lemma fixed_eq s s' : fixed s = fixed s' ->
  p_id s = p_id s' /\ p_path s = p_path s' /\ p_objectMissing s = p_objectMissing s' /\
  p_typeMargin s = p_typeMargin s' /\ p_typeFan s = p_typeFan s' /\
  p_unavailableAsFailed s = p_unavailableAsFailed s'.
Proof. unfold fixed. intro H. inversion H. repeat split; reflexivity. Qed.

Lemma C29_lemma sf pow10 now type id b info s0 h s red :
  createDbusPassive sf pow10 now type id b info = Some s0 ->
  passive_run sf pow10 s0 h = Ok s ->
  (fst (passive_getFailed red s) = true <->
   (exists failures, red = Some failures /\ In (path_of type id info) failures) \/
   missing b \/
   (exists i, starts sf now b info i /\
     ~ is_exempt type info i h /\
     (is_bad i h \/ (type = "margin" /\ is_hot pow10 i h) \/ is_alarmed (UNC_FAILSAFE sf) i h \/
      ~ is_available i h \/ ~ is_functional h))).
Proof.
  intros C R. pose proof (run_fixed _ _ _ _ _ R) as FX.
  apply create_cases in C. destruct C as [V C]. rewrite failed_iff.
  apply fixed_eq in FX. destruct FX as (X1 & X2 & X3 & X4 & X5 & X6).
  destruct C as [(M & _ & C1 & C2 & _)|(NM & i & St & T & C1)].
  - rewrite X3, C1. tauto.
  - apply fixed_inv in C1. destruct C1 as (Y1 & Y2 & Y3 & Y4 & Y5 & Y6).
    apply (run_tracks _ _ _ _ _ _ _ _ T) in R. destruct R as [T1 T2 T3 T4 T5 T6 T7 T8 T9 T10 T11].
    rewrite X2, Y2, X3, Y3, X5, Y5, X6, Y6, T1, T2, T3, T4, T5, X4, Y4.
    assert (U : forall i', starts sf now b info i' -> i' = i).
    { destruct St as (props & S1 & S2 & S3 & S4 & S5 & S6 & S7 & S8).
      intros i' (props' & S1' & S2' & S3' & S4' & S5' & S6' & S7' & S8').
      assert (props' = props) by congruence. subst props'.
      destruct i, i'; cbn in *. congruence. }
    assert (EX : (String.eqb type "fan" = false /\ latest availability (i_available i) h = false /\
                  sc_unavailableAsFailed info = false) <-> is_exempt type info i h).
    { unfold is_exempt, is_available. rewrite String.eqb_neq.
      destruct (latest availability (i_available i) h); intuition congruence. }
    rewrite EX.
    assert (HB : negb (disfinite (latest last_reading (i_value i) h)) = true <-> is_bad i h).
    { unfold is_bad. destruct (disfinite _); cbn; intuition congruence. }
    rewrite HB.
    assert (HH : (String.eqb type "margin" && dleb (dmul (fst (latest accepted (i_value i, i_now i) h)) (pow10 (i_scale i))) d0 = true)
                 <-> (type = "margin" /\ is_hot pow10 i h)).
    { rewrite andb_true_iff, String.eqb_eq. reflexivity. }
    rewrite HH.
    assert (HA : latest availability (i_available i) h = false <-> ~ is_available i h).
    { unfold is_available. destruct (latest availability _ _); intuition congruence. }
    assert (HF : latest functionality true h = false <-> ~ is_functional h).
    { unfold is_functional. destruct (latest functionality _ _); intuition congruence. }
    rewrite HA, HF. unfold is_alarmed.
    split.
    + intros [H|[H|H]]; [left; exact H|discriminate|]. right. right. exists i. tauto.
    + intros [H|[H|(i' & S' & H)]]; [left; exact H|contradiction|]. apply U in S'. subst i'. right. right. exact H.
Qed.

(** The text of the reason and of the log line. *)
Lemma starts_unique sf now b info i i' : starts sf now b info i -> starts sf now b info i' -> i' = i.
Proof.
  intros (props & S1 & S2 & S3 & S4 & S5 & S6 & S7 & S8) (props' & S1' & S2' & S3' & S4' & S5' & S6' & S7' & S8').
  assert (props' = props) by congruence. subst props'. destruct i, i'; cbn in *. congruence.
Qed.
Lemma C29_texts_lemma sf pow10 now type id b info s0 h s red :
  createDbusPassive sf pow10 now type id b info = Some s0 ->
  passive_run sf pow10 s0 h = Ok s ->
  (missing b ->
   passive_getFailReason s = "Sensor D-Bus object missing" /\
   first_case [(exists failures, red = Some failures /\ In (path_of type id info) failures,
                Some (true, "The sensor path is marked redundant."))]
     (Some (true, "The sensor D-Bus object is missing.")) (snd (passive_getFailed red s))) /\
  (forall i, ~ missing b -> starts sf now b info i ->
   first_case
     [(is_bad i h, "Sensor reading bad");
      (type = "margin" /\ is_hot pow10 i h, "Margin hot");
      (is_alarmed (UNC_FAILSAFE sf) i h, "Sensor threshold asserted");
      (~ is_available i h, "Sensor unavailable");
      (~ is_functional h, "Sensor not functional")] "Unknown" (passive_getFailReason s) /\
   first_case
     [(exists failures, red = Some failures /\ In (path_of type id info) failures,
       Some (true, "The sensor path is marked redundant."));
      (is_exempt type info i h, None);
      (is_bad i h, Some (true, "The sensor has bad readings."));
      (type = "margin" /\ is_hot pow10 i h, Some (true, "The sensor has no thermal margin left."));
      (is_alarmed (UNC_FAILSAFE sf) i h, Some (true, "The sensor has failed with a critical issue."));
      (~ is_available i h, Some (true, "The sensor is unavailable."));
      (~ is_functional h, Some (true, "The sensor is not functional."))]
     (Some (false, "The sensor has recovered.")) (snd (passive_getFailed red s))).
Proof.
  intros C R. pose proof (run_fixed _ _ _ _ _ R) as FX.
  apply create_cases in C. destruct C as [V C].
  apply fixed_eq in FX. destruct FX as (X1 & X2 & X3 & X4 & X5 & X6).
  assert (E : p_path s = path_of type id info ->
              (match red with Some failures => smem (p_path s) failures | None => false end = true <->
               exists l, red = Some l /\ In (path_of type id info) l)).
  { intros ->. destruct red as [l|].
    - rewrite smem_In. split; [intro H; exists l; tauto|intros (l' & H1 & H2); congruence].
    - split; [discriminate|intros (l' & H1 & _); discriminate]. }
  unfold passive_getFailed, passive_getFailReason.
  destruct (match red with Some failures => smem (p_path s) failures | None => false end) eqn:Ered.
  all: destruct C as [(M & _ & C1 & C2 & _)|(NM & i & St & T & C1)].
  - specialize (E (eq_trans X2 C2)). rewrite X3, C1. split; [|tauto]. intros _. split; [reflexivity|]. cbn. tauto.
  - apply fixed_inv in C1. destruct C1 as (Y1 & Y2 & Y3 & Y4 & Y5 & Y6). specialize (E (eq_trans X2 Y2)).
    split; [tauto|]. intros i' _ St'. apply (starts_unique _ _ _ _ _ _ St) in St'. subst i'.
    apply (run_tracks _ _ _ _ _ _ _ _ T) in R. destruct R as [T1 T2 T3 T4 T5 T6 T7 T8 T9 T10 T11].
    rewrite X3, Y3, T1, T2, T3, T4, T5, X4, Y4. split; [|cbn; tauto].
    unfold is_bad, is_hot, is_alarmed, is_available, is_functional, dle. cbn [first_case].
    pose proof (String.eqb_eq type "margin") as TM.
    destruct (disfinite _), (String.eqb type "margin"), (dleb _ _), (latest (alarm _) _ _), (latest availability _ _),
      (latest functionality _ _); cbn [negb andb]; intuition congruence.
  - specialize (E (eq_trans X2 C2)). rewrite X3, C1. split; [|tauto]. intros _. split; [reflexivity|]. cbn. intuition congruence.
  - apply fixed_inv in C1. destruct C1 as (Y1 & Y2 & Y3 & Y4 & Y5 & Y6). specialize (E (eq_trans X2 Y2)).
    split; [tauto|]. intros i' _ St'. apply (starts_unique _ _ _ _ _ _ St) in St'. subst i'.
    apply (run_tracks _ _ _ _ _ _ _ _ T) in R. destruct R as [T1 T2 T3 T4 T5 T6 T7 T8 T9 T10 T11].
    rewrite X3, Y3, X5, Y5, X6, Y6, T1, T2, T3, T4, T5, X4, Y4.
    assert (EX : is_exempt type info i h <->
        negb (String.eqb type "fan") && negb (latest availability (i_available i) h) &&
        negb (sc_unavailableAsFailed info) = true).
    { unfold is_exempt, is_available. rewrite !andb_true_iff, !negb_true_iff, String.eqb_neq.
      destruct (latest availability (i_available i) h); intuition congruence. }
    cbn [first_case]. rewrite EX. clear EX.
    unfold is_bad, is_hot, is_alarmed, is_available, is_functional, dle.
    pose proof (String.eqb_eq type "margin") as TM.
    assert (NE : ~ exists l, red = Some l /\ In (path_of type id info) l) by (rewrite <- E; discriminate).
    destruct (negb (String.eqb type "fan") && negb (latest availability (i_available i) h) &&
        negb (sc_unavailableAsFailed info));
    destruct (disfinite _), (String.eqb type "margin"), (dleb _ _), (latest (alarm _) _ _), (latest availability _ _),
      (latest functionality _ _); cbn [negb andb snd]; intuition congruence.
Qed.

(** The reason given for a failure, and the logger line. *)
Lemma C29_reason_lemma red s :
  fst (passive_getFailed red s) = true ->
  (forall l, red = Some l -> ~ In (p_path s) l) ->
  passive_getFailReason s <> "Unknown" /\ exists text, snd (passive_getFailed red s) = Some (true, text).
Proof.
  unfold passive_getFailed, passive_getFailReason. intros H NR.
  assert (E : match red with Some failures => smem (p_path s) failures | None => false end = false).
  { destruct red as [l|]; [|reflexivity]. apply smem_false. apply NR. reflexivity. }
  rewrite E in *.
  destruct (p_objectMissing s); cbn in *; [split; [discriminate|eexists; reflexivity]|].
  destruct (p_typeFan s), (p_available s), (p_unavailableAsFailed s), (p_badReading s), (p_marginHot s),
    (p_failed s), (p_functional s); cbn in *; try discriminate; (split; [discriminate|eexists; reflexivity]).
Qed.

(** ** C30 *)

Lemma scale_normalise mn mx v : notnan mx -> notnan mn -> scaleSensorReading mn mx v = normalise mn mx v.
Proof.
  intros Hx Hn. unfold scaleSensorReading, normalise.
  assert (A : dleb mx d0 = negb (dltb d0 mx)).
  { destruct (dltb d0 mx) eqn:E; cbn.
    - apply (dltb_Rx d0 mx) in E; [|reflexivity|assumption].
      apply dleb_Rx_false; [assumption|reflexivity|exact E].
    - apply dltb_Rx_false in E; [|reflexivity|assumption]. apply dleb_Rx; [assumption|reflexivity|exact E]. }
  assert (B : dleb mx mn = negb (dltb mn mx)).
  { destruct (dltb mn mx) eqn:E; cbn.
    - apply (dltb_Rx mn mx) in E; [|assumption|assumption].
      apply dleb_Rx_false; assumption.
    - apply dltb_Rx_false in E; [|assumption|assumption]. apply dleb_Rx; assumption. }
  rewrite A, B. destruct (dltb d0 mx), (dltb mn mx); reflexivity.
Qed.

Lemma C30_lemma sf pow10 now type id b info s0 h s i :
  createDbusPassive sf pow10 now type id b info = Some s0 ->
  starts sf now b info i -> ~ missing b ->
  notnan (dmul (i_min i) (pow10 (i_scale i))) -> notnan (dmul (i_max i) (pow10 (i_scale i))) ->
  passive_run sf pow10 s0 h = Ok s ->
  let '(v, t) := latest accepted (i_value i, i_now i) h in
  let raw := dmul v (pow10 (i_scale i)) in
  passive_read s =
    MkRead (normalise (dmul (i_min i) (pow10 (i_scale i))) (dmul (i_max i) (pow10 (i_scale i))) raw) t raw.
Proof.
  intros C St NM Nn Nx R. apply create_cases in C. destruct C as [V [(M & _)|(_ & i' & St' & T & C1)]]; [contradiction|].
  assert (i' = i).
  { destruct St as (props & S1 & S2 & S3 & S4 & S5 & S6 & S7 & S8).
    destruct St' as (props' & S1' & S2' & S3' & S4' & S5' & S6' & S7' & S8').
    assert (props' = props) by congruence. subst props'.
    destruct i, i'; cbn in *. congruence. }
  subst i'. apply (run_tracks _ _ _ _ _ _ _ _ T) in R. destruct R as [T1 T2 T3 T4 T5 T6 T7 T8 T9 T10 T11].
  unfold passive_read. rewrite T9, T10, T11.
  destruct (latest accepted (i_value i, i_now i) h) as [v t]. cbn [fst snd].
  rewrite scale_normalise by assumption. reflexivity.
Qed.

(** One bad reading: nothing stored changes, and the sensor is failed until the
    next finite one. *)
Lemma C30_step_lemma sf pow10 s m s' v :
  handleSensorValue sf pow10 s m = Ok s' -> reading m = Some v -> disfinite v = false ->
  passive_read s' = passive_read s /\
  (p_available s = true -> forall red, fst (passive_getFailed red s') = true).
Proof.
  intros H R F. apply handle_after in H. subst s'. unfold after.
  pose proof (one_interface m v R) as AV. rewrite AV, R.
  assert (FN : functionality m = None /\ alarm (UNC_FAILSAFE sf) m = None).
  { unfold reading, says in R. destruct (String.eqb (m_intf m) value_intf) eqn:E; [|discriminate R].
    apply String.eqb_eq in E. unfold functionality, alarm, says. rewrite E.
    destruct (UNC_FAILSAFE sf); split; reflexivity. }
  destruct FN as [F1 F2]. rewrite F1, F2.
  pose proof (updateValue_fields pow10 (m_now m) v false s) as U. cbv zeta in U. rewrite F in U.
  set (su := updateValue pow10 (m_now m) v false s) in *. clearbody su. cbn in U.
  destruct U as (U1 & U2 & U3 & U4 & U5 & U6 & U7 & U8 & U9 & U10 & U11 & U12 & U13 & U14 & U15 & U16 & U17 & U18).
  split.
  - unfold passive_read. congruence.
  - intros A red. apply failed_iff. right. right. rewrite U11, A, U14. split; [intuition discriminate|left; reflexivity].
Qed.

(** ** C31 *)

Lemma C31_lemma sf pow10 s m s' :
  m_intf m = critical_intf ->
  handleSensorValue sf pow10 s m = Ok s' ->
  let low := mget "CriticalAlarmLow" (m_props m) in
  let high := mget "CriticalAlarmHigh" (m_props m) in
  s' = if present low || present high then setFailed (truth low || truth high) s else s.
Proof.
  intros E H. apply handle_after in H. subst s'.
  unfold after, reading, alarm, functionality, availability, says. rewrite E.
  replace (String.eqb critical_intf value_intf) with false by reflexivity.
  replace (String.eqb critical_intf critical_intf) with true by reflexivity.
  replace (String.eqb critical_intf warning_intf) with false by reflexivity.
  replace (String.eqb critical_intf available_intf) with false by reflexivity.
  replace (String.eqb critical_intf functional_intf) with false by reflexivity.
  replace (if UNC_FAILSAFE sf then None else None) with (@None dvalue) by (destruct (UNC_FAILSAFE sf); reflexivity).
  cbn [option_map present truth]. rewrite !orb_false_r. cbv zeta.
  destruct (present (mget "CriticalAlarmLow" (m_props m)) || present (mget "CriticalAlarmHigh" (m_props m))); reflexivity.
Qed.

Lemma C31_observed red s b :
  p_available s = true ->
  fst (passive_getFailed red (setFailed false s)) = false ->
  fst (passive_getFailed red (setFailed b s)) = b.
Proof.
  intros A. unfold passive_getFailed. cbn. rewrite A.
  destruct (match red with Some failures => smem (p_path s) failures | None => false end); cbn; [discriminate|].
  destruct (p_objectMissing s), (p_badReading s), (p_marginHot s), (p_functional s), b;
    cbn; rewrite ?andb_false_r; cbn; congruence.
Qed.

(** ** C46 *)

Lemma append_length a b : String.length (a ++ b) = (String.length a + String.length b)%nat.
Proof. induction a as [|c a IH]; cbn; congruence. Qed.

Lemma substring_all s : String.substring 0 (String.length s) s = s.
Proof. induction s as [|c s IH]; cbn; congruence. Qed.

Lemma substring_app a b : String.substring (String.length a) (String.length b) (a ++ b) = b.
Proof. induction a as [|c a IH]; cbn [String.length append String.substring]; [apply substring_all|exact IH]. Qed.

Lemma split_at n : forall s, (n <= String.length s)%nat ->
  s = String.substring 0 n s ++ String.substring n (String.length s - n) s.
Proof.
  induction n as [|n IH]; intros s H.
  - rewrite Nat.sub_0_r, substring_all. destruct s; reflexivity.
  - destruct s as [|c s]; cbn in H; [lia|]. cbn [String.substring String.length append Nat.sub].
    f_equal. apply IH. lia.
Qed.

Lemma ends_with_iff suf s : ends_with suf s = true <-> exists p, s = p ++ suf.
Proof.
  unfold ends_with. rewrite andb_true_iff, Nat.leb_le, String.eqb_eq. split.
  - intros [L E]. exists (String.substring 0 (String.length s - String.length suf) s).
    rewrite (split_at (String.length s - String.length suf) s) at 1 by lia.
    f_equal. replace (String.length s - (String.length s - String.length suf))%nat with (String.length suf) by lia.
    exact E.
  - intros (p & ->). rewrite append_length. split; [lia|].
    replace (String.length p + String.length suf - String.length suf)%nat with (String.length p) by lia.
    apply substring_app.
Qed.

Lemma host_state_lemma first changes :
  fold_left handleStateChange changes (host_initial first) = true <-> host_on first changes.
Proof.
  unfold host_on.
  assert (G : forall changes first,
    fold_left handleStateChange changes (host_initial first) =
    host_initial (latest (fun c => option_map Some c) first changes)).
  { clear. induction changes as [|c r IH] using rev_ind; intro first.
    - reflexivity.
    - rewrite fold_left_app, latest_snoc. cbn [fold_left]. rewrite IH. destruct c; reflexivity. }
  rewrite G. destruct (latest _ first changes) as [s|]; cbn [host_initial].
  - rewrite ends_with_iff. unfold running. split.
    + intro H. exists s. split; [reflexivity|exact H].
    + intros (s' & H & R). injection H as <-. exact R.
  - split; [discriminate|intros (s & H & _); discriminate].
Qed.

Lemma dmul_1 (x : dbl) : disfinite (dmul x (D 1)) = disfinite x.
Proof.
  destruct x as [s|s| |s m e H]; try reflexivity.
  assert (F : dfinite (BinarySingleNaN.B754_finite s m e H)) by reflexivity.
  assert (F1 : dfinite (D 1)) by reflexivity.
  pose proof (dmul_Rx _ _ F F1) as [N E].
  assert (R1 : Rx (D 1) = 1%R) by (apply DblBound.D_exact; lia).
  rewrite R1 in E. rewrite Rmult_1_r in E.
  assert (E' : Rx (dmul (BinarySingleNaN.B754_finite s m e H) (D 1)) = Rx (BinarySingleNaN.B754_finite s m e H)).
  { rewrite E. rewrite (Rx_finite _ F). apply clip_RN_B2R. }
  change (disfinite (BinarySingleNaN.B754_finite s m e H)) with true.
  apply (finite_iff_Rx _ N). rewrite E'. apply (Rx_finite_bound _ F).
Qed.

Lemma host_run_spec now (h : list (dbl * Z)) :
  disfinite (hs_value (fold_left host_setValue h (host_createTemp now))) =
  disfinite (latest (fun e => Some (fst e)) d0 h).
Proof.
  induction h as [|e h IH] using rev_ind.
  - reflexivity.
  - rewrite fold_left_app, latest_snoc. cbn [fold_left host_setValue hs_value]. apply dmul_1.
Qed.

Lemma host_run_updated now (h : list (dbl * Z)) :
  rr_updated (host_read (fold_left host_setValue h (host_createTemp now))) =
  latest (fun e => Some (snd e)) now h.
Proof.
  induction h as [|e h IH] using rev_ind.
  - reflexivity.
  - rewrite fold_left_app, latest_snoc. reflexivity.
Qed.

(** ** C47 *)

Lemma sinsert_In x y l : In x (sinsert y l) <-> x = y \/ In x l.
Proof.
  unfold sinsert. destruct (smem y l) eqn:E.
  - apply smem_In in E. split; [tauto|intros [->|]; assumption].
  - cbn. intuition congruence.
Qed.
Lemma sremove_In x y l : In x (sremove y l) <-> x <> y /\ In x l.
Proof.
  induction l as [|z l IH]; cbn; [tauto|].
  destruct (String.eqb y z) eqn:E.
  - apply String.eqb_eq in E. subst z. rewrite IH. intuition congruence.
  - apply String.eqb_neq in E. cbn. rewrite IH. intuition congruence.
Qed.
Lemma fold_sinsert_In x data : forall l,
  In x (fold_left (fun f d => sinsert d f) data l) <-> In x data \/ In x l.
Proof.
  induction data as [|y r IH]; intro l; cbn; [tauto|]. rewrite IH, sinsert_In. intuition congruence.
Qed.
Lemma fold_sremove_In x data : forall l,
  In x (fold_left (fun f d => sremove d f) data l) <-> ~ In x data /\ In x l.
Proof.
  induction data as [|y r IH]; intro l; cbn; [tauto|]. rewrite IH, sremove_In. intuition congruence.
Qed.

Lemma substring_le n : forall m s, (String.length (String.substring n m s) <= String.length s - n)%nat.
Proof.
  induction n as [|n IH]; intros m s.
  - revert s. induction m as [|m IHm]; intro s; destruct s as [|c s]; cbn; try lia. specialize (IHm s). lia.
  - destruct s as [|c s]; cbn [String.substring String.length]; [cbn; lia|]. specialize (IH m s). lia.
Qed.

Lemma substring_split n : forall a b s, (n + a + b <= String.length s)%nat ->
  String.substring n (a + b) s = String.substring n a s ++ String.substring (n + a) b s.
Proof.
  induction n as [|n IH]; intros a b s H.
  - revert s H. induction a as [|a IHa]; intros s H.
    + cbn. destruct s; reflexivity.
    + destruct s as [|c s]; cbn in H; [lia|]. cbn [Nat.add String.substring append]. f_equal. apply IHa. cbn. lia.
  - destruct s as [|c s]; cbn in H; [lia|]. cbn [Nat.add String.substring]. apply IH. lia.
Qed.

Lemma prefix_app n b : String.prefix n (n ++ b) = true.
Proof.
  revert b. induction n as [|c n IH]; intro b; [destruct b; reflexivity|]. cbn.
  destruct (ascii_dec c c); [apply IH|congruence].
Qed.

Lemma str_contains_iff needle s : needle <> "" ->
  (str_contains needle s = true <-> exists a b, s = a ++ needle ++ b).
Proof.
  intro NE. unfold str_contains.
  assert (L0 : (0 < String.length needle)%nat) by (destruct needle; [congruence|cbn; lia]).
  split.
  - destruct (String.index 0 needle s) as [n|] eqn:E; [intros _|discriminate].
    apply index_correct1 in E.
    pose proof (substring_le n (String.length needle) s) as B. rewrite E in B.
    exists (String.substring 0 n s).
    exists (String.substring (n + String.length needle) (String.length s - (n + String.length needle)) s).
    rewrite (split_at n s) at 1 by lia. f_equal.
    replace (String.length s - n)%nat with (String.length needle + (String.length s - (n + String.length needle)))%nat by lia.
    rewrite substring_split by lia. rewrite E. reflexivity.
  - intros (a & b & ->).
    assert (K : String.index 0 needle (a ++ needle ++ b) <> None).
    { induction a as [|c a IH].
      - cbn [append]. destruct needle as [|c n]; [congruence|].
        pose proof (prefix_app (String c n) b) as P. cbn [append] in *. cbn [String.index]. rewrite P. discriminate.
      - cbn [append String.index]. destruct (String.prefix needle _); [discriminate|].
        destruct (String.index 0 needle (a ++ needle ++ b)); [discriminate|congruence]. }
    destruct (String.index 0 needle (a ++ needle ++ b)); [reflexivity|congruence].
Qed.

Lemma status_failed_iff s : status_failed s = true <-> mentions_failed s.
Proof. apply str_contains_iff. discriminate. Qed.

Lemma C47_lemma path first msgs failed :
  foldM handleRedundancy msgs first = Ok failed ->
  (In path failed <->
   (exists s, latest (fun m => option_map Some (covers path m)) None msgs = Some s /\ mentions_failed s) \/
   (latest (fun m => option_map Some (covers path m)) None msgs = None /\ In path first)).
Proof.
  revert failed. induction msgs as [|m r IH] using rev_ind; intros failed H.
  - cbn in H. inversion H. cbn. split; [intro; right; tauto|].
    intros [(s & H0 & _)|[_ H0]]; [discriminate|exact H0].
  - rewrite foldM_app in H. apply bind_ok in H. destruct H as (f1 & H1 & H2).
    cbn [foldM] in H2. apply bind_ok in H2. destruct H2 as (f2 & H2 & H3). inversion H3; subst f2; clear H3.
    specialize (IH f1 H1). rewrite latest_snoc. unfold handleRedundancy in H2.
    unfold covers at 1 3. destruct (rm_status m) as [| |s].
    + inversion H2; subst failed. cbn [option_map]. exact IH.
    + discriminate.
    + destruct (rm_collection m) as [data|]; [|inversion H2; subst failed; exact IH].
      pose proof (status_failed_iff s) as SF.
      destruct (smem path data) eqn:E; cbn [option_map].
      * apply smem_In in E. destruct (status_failed s); inversion H2; subst failed; clear H2.
        -- rewrite fold_sinsert_In. split; [intros _; left; exists s; split; [reflexivity|apply SF; reflexivity]|tauto].
        -- rewrite fold_sremove_In. split; [tauto|].
           intros [(s' & H & M)|[H _]]; [|discriminate]. inversion H; subst s'. apply SF in M. discriminate.
      * apply smem_false in E. destruct (status_failed s); inversion H2; subst failed; clear H2.
        -- rewrite fold_sinsert_In. tauto.
        -- rewrite fold_sremove_In. tauto.
Qed.

(** The initial set: the collections of the failed groups. *)
Lemma C47_initial_lemma path objs failed :
  populateFailures (Some (map Some objs)) = Ok failed ->
  (In path failed <->
   exists o s c, In o objs /\ ro_status o = RStatus s /\ mentions_failed s /\
                 ro_collection o = Some c /\ In path c).
Proof.
  unfold populateFailures.
  assert (G : forall objs l failed, populate (map Some objs) l = Ok failed ->
    (In path failed <->
     In path l \/ exists o s c, In o objs /\ ro_status o = RStatus s /\ mentions_failed s /\
                 ro_collection o = Some c /\ In path c)).
  { clear. induction objs as [|o r IH]; intros l failed H; cbn [map populate] in H.
    - inversion H; subst failed. split; [tauto|intros [?|(o & s & c & [] & _)]; assumption].
    - destruct (ro_status o) as [| |s] eqn:ES.
      + rewrite (IH _ _ H). split; (intros [?|(o' & s' & c' & I1 & I2)]; [left; assumption|right]).
        * exists o', s', c'. split; [right; exact I1|exact I2].
        * destruct I1 as [->|I1]; [destruct I2 as [I2 _]; congruence|]. exists o', s', c'. tauto.
      + discriminate.
      + pose proof (status_failed_iff s) as SF. destruct (status_failed s); cbn [negb] in H.
        * destruct (ro_collection o) as [data|] eqn:EC; [|discriminate].
          rewrite (IH _ _ H), fold_sinsert_In. split.
          -- intros [[I1|I1]|(o' & s' & c' & I1 & I2)].
             ++ right. exists o, s, data. split; [left; reflexivity|]. split; [exact ES|]. split; [apply SF; reflexivity|]. tauto.
             ++ left; exact I1.
             ++ right. exists o', s', c'. split; [right; exact I1|exact I2].
          -- intros [I1|(o' & s' & c' & [<-|I1] & I2)].
             ++ left; right; exact I1.
             ++ left; left. destruct I2 as (_ & _ & I3 & I4). congruence.
             ++ right. exists o', s', c'. tauto.
        * rewrite (IH _ _ H). split; (intros [?|(o' & s' & c' & I1 & I2)]; [left; assumption|right]).
          -- exists o', s', c'. split; [right; exact I1|exact I2].
          -- destruct I1 as [->|I1]; [|exists o', s', c'; tauto].
             destruct I2 as (I2 & I3 & _). assert (s' = s) by congruence. subst s'. apply SF in I3. discriminate. }
  intro H. rewrite (G _ _ _ H). cbn. tauto.
Qed.

(** ** C46 assembled *)

Lemma C46_pluggable_lemma flagged first changes readerFailed :
  pluggable_getFailed flagged (fold_left handleStateChange changes (host_initial first)) readerFailed = true <->
  readerFailed = true /\ (flagged = true -> host_on first changes).
Proof.
  rewrite <- host_state_lemma. unfold pluggable_getFailed.
  destruct readerFailed, flagged, (fold_left handleStateChange changes (host_initial first)); cbn; intuition congruence.
Qed.

Lemma C46_host_sensor_lemma flagged first changes now h :
  fst (host_getFailed flagged (fold_left handleStateChange changes (host_initial first))
         (fold_left host_setValue h (host_createTemp now))) = true <->
  disfinite (latest (fun e => Some (fst e)) d0 h) = false /\ (flagged = true -> host_on first changes).
Proof.
  rewrite <- host_state_lemma. unfold host_getFailed. rewrite host_run_spec.
  destruct (disfinite _), flagged, (fold_left handleStateChange changes (host_initial first)); cbn; intuition congruence.
Qed.

Lemma C31_observed_lemma sf pow10 s m s' red :
  m_intf m = critical_intf ->
  handleSensorValue sf pow10 s m = Ok s' ->
  p_available s = true ->
  fst (passive_getFailed red (setFailed false s)) = false ->
  let low := mget "CriticalAlarmLow" (m_props m) in
  let high := mget "CriticalAlarmHigh" (m_props m) in
  fst (passive_getFailed red s') =
    if present low || present high then truth low || truth high else fst (passive_getFailed red s).
Proof.
  intros E H A F. pose proof (C31_lemma sf pow10 s m s' E H) as S. cbv zeta in *. subst s'.
  destruct (present _ || present _); [|reflexivity]. apply C31_observed; assumption.
Qed.

Lemma critical_message_silent m :
  m_intf m = critical_intf ->
  reading m = None /\ availability m = None /\ functionality m = None /\ accepted m = None /\ last_reading m = None.
Proof.
  intro E. unfold accepted, last_reading, reading, availability, functionality, says. rewrite E.
  replace (String.eqb critical_intf value_intf) with false by reflexivity.
  replace (String.eqb critical_intf available_intf) with false by reflexivity.
  replace (String.eqb critical_intf functional_intf) with false by reflexivity.
  repeat split.
Qed.

Lemma C31_message_lemma sf pow10 now type id b info s0 h s m s' red :
  createDbusPassive sf pow10 now type id b info = Some s0 ->
  passive_run sf pow10 s0 h = Ok s ->
  handleSensorValue sf pow10 s m = Ok s' ->
  m_intf m = critical_intf ->
  let low := mget "CriticalAlarmLow" (m_props m) in
  let high := mget "CriticalAlarmHigh" (m_props m) in
  present low || present high = true ->
  (fst (passive_getFailed red s') = true <->
   (exists failures, red = Some failures /\ In (path_of type id info) failures) \/
   missing b \/
   (exists i, starts sf now b info i /\
     ~ is_exempt type info i h /\
     (truth low || truth high = true \/ is_bad i h \/ (type = "margin" /\ is_hot pow10 i h) \/
      ~ is_available i h \/ ~ is_functional h))).
Proof.
  intros C R H E low high P.
  assert (R' : passive_run sf pow10 s0 (h ++ [m]) = Ok s').
  { unfold passive_run in *. rewrite foldM_app, R. cbn. rewrite H. reflexivity. }
  rewrite (C29_lemma _ _ _ _ _ _ _ _ _ _ red C R').
  destruct (critical_message_silent m E) as (M1 & M2 & M3 & M4 & M5).
  assert (A : alarm (UNC_FAILSAFE sf) m = Some (truth low || truth high)).
  { unfold alarm, says. rewrite E.
    replace (String.eqb critical_intf critical_intf) with true by reflexivity.
    replace (String.eqb critical_intf warning_intf) with false by reflexivity.
    replace (if UNC_FAILSAFE sf then None else None) with (@None dvalue) by (destruct (UNC_FAILSAFE sf); reflexivity).
    fold low high. cbn [present truth]. rewrite !orb_false_r, P. reflexivity. }
  unfold is_exempt, is_bad, is_hot, is_alarmed, is_available, is_functional.
  assert (X : forall i,
    latest last_reading (i_value i) (h ++ [m]) = latest last_reading (i_value i) h /\
    latest accepted (i_value i, i_now i) (h ++ [m]) = latest accepted (i_value i, i_now i) h /\
    latest (alarm (UNC_FAILSAFE sf)) (i_alarm i) (h ++ [m]) = truth low || truth high /\
    latest availability (i_available i) (h ++ [m]) = latest availability (i_available i) h /\
    latest functionality true (h ++ [m]) = latest functionality true h).
  { intro i. rewrite !latest_snoc, M2, M3, M4, M5, A. repeat split. }
  split; (intros [?|[?|(i & S & N & O)]]; [left; assumption|right; left; assumption|right; right; exists i]);
    destruct (X i) as (X1 & X2 & X3 & X4 & X5); rewrite X1, X2, X3, X4, X5 in *; tauto.
Qed.

Lemma C31_silent_lemma sf pow10 s m s' :
  m_intf m = critical_intf ->
  handleSensorValue sf pow10 s m = Ok s' ->
  mget "CriticalAlarmLow" (m_props m) = None ->
  mget "CriticalAlarmHigh" (m_props m) = None -> s' = s.
Proof.
  intros E H L Hh. pose proof (C31_lemma sf pow10 s m s' E H) as S. cbv zeta in S. rewrite L, Hh in S. exact S.
Qed.
