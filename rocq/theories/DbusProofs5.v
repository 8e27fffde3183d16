(** * Complete configurations on D-Bus are loaded. *)
From Coq Require Import ZArith Bool List String Ascii Lia.
From Verif Require Import Base BaseFacts Dbl PidModel ZoneModel BuilderModel SensorModel WriteModel SpecWrite SystemModel SpecSystem
  SpecConfig JsonModel SpecJson JsonProofs ConfigModel ConfigProofs DbusConfigModel SpecDbus DbusProofs DbusProofs2
  DbusProofs3 DbusProofs4.
Import ListNotations.
Local Open Scope string_scope.
Local Open Scope outcome_scope.

(** ** Values *)
Lemma to_double_total v d : number_value v d -> variant_to_double v = Ok d.
Proof. destruct 1; reflexivity. Qed.
Lemma at_key_total key base v : mget key base = Some v -> at_key key base = Ok v.
Proof. unfold at_key. intros ->. reflexivity. Qed.
Lemma pid_number_total key base d : says_number base key d -> pid_number key base = Ok d.
Proof.
  intros (v & E & N). unfold pid_number, getPIDAttribute. rewrite E. cbn [bind]. apply to_double_total, N.
Qed.
Lemma opt_flag_total d key base b : flag_or d base key b -> opt_attr get_flag d key base = Ok b.
Proof. unfold flag_or, opt_attr. destruct (mget key base); intros ->; reflexivity. Qed.
Lemma opt_strs_total key base b : texts_or_none base key b -> opt_attr get_strs [] key base = Ok b.
Proof. unfold texts_or_none, opt_attr. destruct (mget key base); intros ->; reflexivity. Qed.
Lemma opt_dbls_total key base b : numbers_or_none base key b -> opt_attr get_dbls [] key base = Ok b.
Proof. unfold numbers_or_none, opt_attr. destruct (mget key base); intros ->; reflexivity. Qed.
Lemma opt_number_total d key base b : number_or d base key b -> opt_attr variant_to_double d key base = Ok b.
Proof.
  unfold number_or, opt_attr. destruct (mget key base); [apply to_double_total|intros ->; reflexivity].
Qed.
Lemma percent_total base d : percent_set base d -> fail_safe_percent base = Ok d.
Proof.
  unfold percent_set, fail_safe_percent. destruct (mget "FailSafePercent" base); [|intros ->; reflexivity].
  intros (x & n & N & T & ->). rewrite (to_double_total _ _ N). cbn [bind]. rewrite T. reflexivity.
Qed.
Lemma cycle_total props key d v : cycle_time props key d v -> getCycleTimeSetting_dbus props key d = Ok v.
Proof.
  unfold cycle_time, getCycleTimeSetting_dbus. destruct (mget key props); [|intros ->; reflexivity].
  intros (x & N & H). rewrite (to_double_total _ _ N). cbn [bind]. destruct (dgeb x (D 1)); [|subst; reflexivity].
  rewrite H. reflexivity.
Qed.

(** ** Zone numbers *)
Lemma set_total n zones index : (index + Z.of_nat (List.length zones) <= int64_max)%Z ->
  exists i zones', setZoneIndex n zones index = Ok (i, zones').
Proof.
  intros L. unfold setZoneIndex. destruct (mget n zones) as [i|]; [eauto|].
  assert (K : forall fuel k, (above k zones < fuel)%nat -> (k + Z.of_nat (above k zones) <= int64_max)%Z ->
     exists i, free_index fuel zones k = Ok i).
  { clear. induction fuel as [|fuel IH]; intros k A L; [lia|]. cbn [free_index].
    destruct (index_used zones k) eqn:U; [|eauto]. pose proof (above_used _ _ U).
    destruct (Z.eqb_spec k int64_max) as [->|NE]; [lia|]. apply IH; [lia|].
    pose proof (above_le k zones). lia. }
  assert (A : (above index zones <= List.length zones)%nat).
  { unfold above. clear. induction zones as [|e r IH]; cbn [filter]; [cbn; lia|].
    destruct (index <=? snd e)%Z; cbn [List.length]; lia. }
  destruct (K (S (List.length zones)) index) as [i ->]; [lia|lia|]. cbn. eauto.
Qed.
Lemma get_total n zones : (Z.of_nat (List.length zones) <= int64_max)%Z ->
  exists i zones', getZoneIndex n zones = Ok (i, zones').
Proof.
  intros L. unfold getZoneIndex. destruct (mget n zones) as [i|] eqn:E; [eauto|]. apply set_total. lia.
Qed.
Lemma mset_length {V} k (v : V) m : (List.length (mset k v m) <= S (List.length m))%nat.
Proof.
  induction m as [|[a b] r IH]; cbn; [lia|]. destruct (String.eqb k a); cbn; [lia|].
  destruct (String.ltb k a); cbn; lia.
Qed.
Lemma set_length n zones index i zones' : setZoneIndex n zones index = Ok (i, zones') ->
  (List.length zones' <= S (List.length zones))%nat.
Proof.
  unfold setZoneIndex. destruct (mget n zones); intros E; [injection E as <- <-; lia|].
  apply bind_ok in E. destruct E as (j & _ & E). injection E as <- <-. apply mset_length.
Qed.
Lemma get_length n zones i zones' : getZoneIndex n zones = Ok (i, zones') ->
  (List.length zones' <= S (List.length zones))%nat.
Proof.
  unfold getZoneIndex. destruct (mget n zones); intros E; [injection E as <- <-; lia|]. eapply set_length, E.
Qed.

Section World.
  Variable w : setting.
  Hypothesis bus_ok : s_bus w = bus_of (s_resp w).
  Hypothesis one_kind : forall path, ~ (bus_sensor (s_resp w) path /\ bus_pwm (s_resp w) path).

  Lemma found_finds name paths : found w name paths ->
    exists l, finds w name l /\ map fst l = paths /\ Forall (kind_ok (s_resp w)) l.
  Proof.
    intros (p & E & ->). exists (filter (fun s => p (fst s)) (sensors_of (s_resp w))).
    assert (F : finds w name (filter (fun s => p (fst s)) (sensors_of (s_resp w)))).
    { unfold finds, findSensors. rewrite underscored_eq, E. reflexivity. }
    split; [exact F|]. split; [rewrite bus_ok; apply map_filter_fst|].
    apply (findSensors_found w name _ bus_ok F).
  Qed.
  Lemma founds_finds names ls : Forall2 (found w) names ls ->
    exists lsi, Forall2 (finds w) names lsi /\ map (map fst) lsi = ls.
  Proof.
    induction 1 as [|n l r rs F _ (lsi & A & B)]; [exists []; split; [constructor|reflexivity]|].
    destruct (found_finds _ _ F) as (x & X1 & X2 & _). exists (x :: lsi). split; [constructor; assumption|].
    cbn. congruence.
  Qed.
  Lemma value_kind e : kind_ok (s_resp w) e -> bus_sensor (s_resp w) (fst e) -> snd e = value_intf.
  Proof. intros [[X _]|[_ X]] B; [exact X|]. destruct (one_kind (fst e)). auto. Qed.
  Lemma pwm_kind e : kind_ok (s_resp w) e -> bus_pwm (s_resp w) (fst e) -> snd e = pwm_intf.
  Proof. intros [[_ X]|[X _]] B; [|exact X]. destruct (one_kind (fst e)). auto. Qed.
  Lemma finds_unique n l l' : finds w n l -> finds w n l' -> l = l'.
  Proof. unfold finds. congruence. Qed.

  Lemma find_inputs_total class acc af ho names lsi : Forall2 (finds w) names lsi -> forall st,
    exists st', foldM (find_input (s_flags w) (s_regex w) (sensors_of (s_resp w)) class acc af ho) names st = Ok st'.
  Proof.
    induction 1 as [|n l r rs F _ IH]; intros st; [exists st; reflexivity|]. cbn [foldM].
    unfold find_input at 1. unfold finds in F. rewrite F. cbn [bind].
    destruct l as [|e l]; [|apply IH].
    destruct (HANDLE_MISSING_OBJECT_PATHS (s_flags w) && negb (String.eqb class "fan") && negb (smem n acc))%bool; apply IH.
  Qed.
  Lemma find_all_total names lsi : Forall2 (finds w) names lsi ->
    find_all (s_regex w) (sensors_of (s_resp w)) names = Ok (List.concat lsi).
  Proof.
    induction 1 as [|n l r rs F _ IH]; [reflexivity|]. cbn [find_all]. unfold finds in F. rewrite F. cbn [bind].
    rewrite IH. reflexivity.
  Qed.
  Lemma add_inputs_total class af ho l : Forall (fun e => snd e = value_intf) l -> forall st,
    exists st', foldM (add_input class af ho) l st = Ok st'.
  Proof.
    induction 1 as [|[p i] r E _ IH]; intros st; [exists st; reflexivity|]. cbn [foldM]. unfold add_input at 1.
    cbn in E. subst i. rewrite String.eqb_refl. cbn [bind]. apply IH.
  Qed.
  Lemma acceptables_total l : Forall (fun e => snd e = value_intf) l -> exists ns, mapM acceptable_name l = Ok ns.
  Proof.
    induction 1 as [|[p i] r E _ (ns & IH)]; [exists []; reflexivity|]. cbn [mapM]. unfold acceptable_name at 1.
    cbn [fst snd] in *. subst i. rewrite String.eqb_refl. cbn [bind]. rewrite IH. eexists. reflexivity.
  Qed.
  Lemma add_fans_total l : Forall (fun e => snd (snd e) = pwm_intf) l -> forall st, exists st', foldM add_fan l st = Ok st'.
  Proof.
    induction 1 as [|[[f fi] [p i]] r E _ IH]; intros st; [exists st; reflexivity|]. cbn [foldM]. unfold add_fan at 1.
    cbn in E. subst i. rewrite String.eqb_refl. cbn [negb bind]. apply IH.
  Qed.
  Lemma pair_fans_total inputs outputs pairs st :
    Forall (kind_ok (s_resp w)) outputs ->
    paired (map fst inputs) (map fst outputs) pairs -> Forall (fun e => bus_pwm (s_resp w) (snd e)) pairs ->
    exists st', pair_fans inputs outputs st = Ok st'.
  Proof.
    intros K P B. destruct P as [(pwm & E & ->)|(N & L & ->)].
    - destruct outputs as [|o [|o2 os]]; try discriminate. cbn [pair_fans]. apply add_fans_total.
      apply Forall_map, Forall_forall. intros e I. cbn [snd]. apply pwm_kind; [inversion K; assumption|].
      rewrite Forall_forall in B. cbn in E. injection E as <-.
      apply (B (fst e, fst o)). apply in_map_iff. exists (fst e). split; [reflexivity|]. apply in_map, I.
    - rewrite !map_length in *. unfold pair_fans.
      assert (X : exists st', (if Nat.eqb (List.length inputs) (List.length outputs)
          then foldM add_fan (combine inputs outputs) st
          else Throw "fan PID has invalid number of Outputs") = Ok st').
      { rewrite L, Nat.eqb_refl. apply add_fans_total. rewrite Forall_forall in *. intros [a b] I. cbn.
        apply pwm_kind; [apply K; eapply in_combine_r, I|]. apply (B (fst a, fst b)).
        clear -I. revert outputs I. induction inputs as [|x r IH]; intros [|y s] I; try destruct I as [].
        - injection H as -> ->. left. reflexivity.
        - right. apply IH, H. }
      destruct outputs as [|o [|o2 os]]; try exact X. cbn in N. lia.
  Qed.

  (** ** Settings *)
  Lemma populate_total props info0 s info th sc :
    pid_settings props info0 -> own_setpoint props (ci_type info0) s ->
    match th with None => True | Some p => exists r, threshold_reading (s_thresholds w) p info sc = Ok r end ->
    exists info', populatePidInfo (s_thresholds w) props info th sc = Ok info'.
  Proof.
    unfold pid_settings. cbv zeta.
    intros (H1 & H2 & H3 & H4 & H5 & H6 & H7 & H8 & H9 & H10 & H11 & H12 & H13 & H14 & H15 & H16 & _) Hs Ht.
    unfold populatePidInfo, getPIDAttribute. unfold says_text in H1. rewrite H1. cbn [bind get_str].
    unfold own_setpoint in Hs.
    assert (X : (if String.eqb (ci_type info0) "fan" then Ok d0 else pid_number "SetPoint" props) = Ok s).
    { destruct (String.eqb (ci_type info0) "fan"); [congruence|]. apply pid_number_total, Hs. }
    rewrite X. cbn [bind]. rewrite (percent_total _ _ H2). cbn [bind].
    assert (Y : exists sp, match th with None => Ok s
       | Some p => do r <- threshold_reading (s_thresholds w) p info sc; Ok (dadd s r) end = Ok sp).
    { destruct th as [p|]; [|exists s; reflexivity]. destruct Ht as (r & ->). eexists. reflexivity. }
    destruct Y as (sp & ->). cbn [bind].
    rewrite (pid_number_total _ _ _ H3), (pid_number_total _ _ _ H4), (pid_number_total _ _ _ H6),
      (pid_number_total _ _ _ H7), (pid_number_total _ _ _ H9), (pid_number_total _ _ _ H8),
      (pid_number_total _ _ _ H11), (pid_number_total _ _ _ H10), (pid_number_total _ _ _ H12),
      (pid_number_total _ _ _ H13). cbn [bind].
    rewrite (opt_flag_total _ _ _ _ H16), (opt_number_total _ _ _ _ H15), (opt_number_total _ _ _ _ H14),
      (opt_number_total _ _ _ _ H5). cbn [bind]. eexists. reflexivity.
  Qed.

  Lemma offset_loop_total ps props info0 s type sc :
    pid_settings props info0 -> own_setpoint props (ci_type info0) s ->
    (forall n c, mget n sc = Some c -> sensor_entry w ps n c) ->
    (forall n c, sensor_entry w ps n c -> exists r, offset_read (s_thresholds w) (sc_readPath c) type r) ->
    forall inputs conf,
    (forall x, In x inputs -> exists c, mget (si_name x) sc = Some c) ->
    (forall n info x, mget n conf = Some info -> In x (ci_inputs info) -> exists c, mget (si_name x) sc = Some c) ->
    exists conf', offset_loop (s_thresholds w) props type sc inputs conf = Ok conf'.
  Proof.
    intros Hp Hs Hsc Ho. induction inputs as [|i r IH]; intros conf Ki Kc; [exists conf; reflexivity|].
    unfold offset_loop. cbn [foldM].
    assert (Known : forall x, In x (ci_inputs (info_of (si_name i) conf) ++ [i])%list -> exists c, mget (si_name x) sc = Some c).
    { intros x I. apply in_app_iff in I. destruct I as [I|[<-|[]]]; [|apply Ki; left; reflexivity].
      unfold info_of in I. destruct (mget (si_name i) conf) as [i0|] eqn:G; [|destruct I]. eapply Kc; eassumption. }
    destruct (populate_total props info0 s
       (set_inputs (ci_inputs (info_of (si_name i) conf) ++ [i])%list (info_of (si_name i) conf)) (Some type) sc Hp Hs) as (info' & E).
    { unfold threshold_reading. cbn [set_inputs ci_inputs].
      destruct (ci_inputs (info_of (si_name i) conf) ++ [i])%list as [|x l] eqn:L; [destruct (ci_inputs (info_of (si_name i) conf)); discriminate|].
      destruct (Known x (or_introl eq_refl)) as (c & Gc). rewrite Gc.
      destruct (Ho _ _ (Hsc _ _ Gc)) as (rr & O & _). cbv zeta in O. rewrite O. cbn [negb]. eexists. reflexivity. }
    rewrite E. cbn [bind].
    destruct (populate_ok _ _ _ _ _ _ E) as (_ & In' & _). cbn [set_inputs ci_inputs] in In'.
    apply (IH (mset (si_name i) info' conf)); [intros x I; apply Ki; right; exact I|].
    intros n info x G I. rewrite mget_mset in G. destruct (String.eqb n (si_name i)); [|eapply Kc; eassumption].
    injection G as <-. rewrite In' in I. apply Known, I.
  Qed.

  Lemma step_settings_total props info0 old : step_settings props info0 -> exists table, read_table props old = Ok table.
  Proof.
    unfold step_settings. cbv zeta. intros (_ & (class & C & _) & P & N & _ & rs & os & R & O & L & Q & _).
    unfold read_table. rewrite (at_key_total _ _ _ C). cbn [bind get_str].
    rewrite (opt_number_total _ _ _ _ P), (opt_number_total _ _ _ _ N). cbn [bind].
    rewrite (at_key_total _ _ _ R). cbn [bind get_dbls].
    assert (X1 : (maxStepwisePoints <? List.length rs)%nat = false) by (apply Nat.ltb_ge; unfold maxStepwisePoints; lia).
    assert (X2 : Nat.eqb (List.length rs) 0 = false) by (apply Nat.eqb_neq; lia).
    rewrite X1, X2, (at_key_total _ _ _ O). cbn [bind get_dbls]. rewrite Q, Nat.eqb_refl. cbn [negb]. eexists. reflexivity.
  Qed.

  (** ** Stepwise inputs *)
  Lemma up_taken names taken ls : up_to_missing w names taken ls ->
    exists lsi, taken_ok w names taken lsi /\ map (map fst) lsi = ls.
  Proof.
    intros [F T]. destruct (founds_finds _ _ F) as (lsi & A & B). exists lsi. split; [|exact B]. split; [exact A|].
    destruct (HANDLE_MISSING_OBJECT_PATHS (s_flags w)); [exact T|]. destruct T as [T1 T2]. split.
    - subst ls. rewrite Forall_forall in *. intros l I ->. apply (T1 []); [|reflexivity]. apply in_map_iff. exists []. auto.
    - destruct T2 as [->|(n & rest & -> & G)]; [left; reflexivity|right]. exists n, rest. split; [reflexivity|].
      destruct (found_finds _ _ G) as (l & G1 & G2 & _). destruct l; [exact G1|discriminate].
  Qed.
  Lemma step_inputs_total acc af ho names : forall taken lsi st, taken_ok w names taken lsi ->
    exists st', step_inputs (s_flags w) (s_regex w) (sensors_of (s_resp w)) acc af ho names st = Ok st'.
  Proof.
    induction names as [|n r IH]; intros taken lsi st [F T]; cbn [step_inputs]; [exists st; reflexivity|].
    destruct (HANDLE_MISSING_OBJECT_PATHS (s_flags w)) eqn:H.
    - subst taken. inversion F as [|? l ? ls F1 F2]; subst. unfold finds in F1. rewrite F1. cbn [bind].
      assert (T' : taken_ok w r r ls) by (split; [exact F2|rewrite H; reflexivity]).
      destruct l; [|eapply IH, T']. cbn [negb]. destruct (smem n acc); eapply IH, T'.
    - destruct T as [T1 T2]. destruct taken as [|t taken].
      + destruct T2 as [T2|(m & rest & T2 & G)]; [discriminate|]. cbn in T2. injection T2 as <- <-.
        unfold finds in G. rewrite G. cbn [bind negb]. eexists. reflexivity.
      + assert (t = n) by (destruct T2 as [X|(? & ? & X & _)]; cbn in X; congruence). subst t.
        inversion F as [|? l ? ls F1 F2]; subst. inversion T1; subst. unfold finds in F1. rewrite F1. cbn [bind].
        destruct l as [|e l]; [congruence|]. eapply (IH taken ls). split; [exact F2|]. rewrite H. split; [assumption|].
        destruct T2 as [X|(m & rest & X & G)]; [left; congruence|right]. exists m, rest. cbn in X. split; [congruence|exact G].
  Qed.
  Lemma step_acceptable_total names : forall taken lsi, taken_ok w names taken lsi ->
    exists l, step_acceptable (s_flags w) (s_regex w) (sensors_of (s_resp w)) names = Ok l.
  Proof.
    induction names as [|n r IH]; intros taken lsi [F T]; cbn [step_acceptable]; [eexists; reflexivity|].
    destruct (HANDLE_MISSING_OBJECT_PATHS (s_flags w)) eqn:H.
    - subst taken. inversion F as [|? l ? ls F1 F2]; subst. unfold finds in F1. rewrite F1. cbn [bind].
      assert (T' : taken_ok w r r ls) by (split; [exact F2|rewrite H; reflexivity]).
      destruct (IH _ _ T') as (x & X). destruct l; cbn [negb]; [exists x; exact X|]. rewrite X. eexists. reflexivity.
    - destruct T as [T1 T2]. destruct taken as [|t taken].
      + destruct T2 as [T2|(m & rest & T2 & G)]; [discriminate|]. cbn in T2. injection T2 as <- <-.
        unfold finds in G. rewrite G. cbn [bind negb]. eexists. reflexivity.
      + assert (t = n) by (destruct T2 as [X|(? & ? & X & _)]; cbn in X; congruence). subst t.
        inversion F as [|? l ? ls F1 F2]; subst. inversion T1; subst. unfold finds in F1. rewrite F1. cbn [bind].
        destruct l as [|e l]; [congruence|].
        assert (T' : taken_ok w r taken ls).
        { split; [exact F2|]. rewrite H. split; [assumption|].
          destruct T2 as [X|(m & rest & X & G)]; [left; congruence|right]. exists m, rest. cbn in X. split; [congruence|exact G]. }
        destruct (IH _ _ T') as (x & X). rewrite X. eexists. reflexivity.
  Qed.

  (** ** One part *)
  Definition few (st : reading) : Prop := (Z.of_nat (List.length (r_found st)) <= int64_max)%Z.

  Lemma zone_total props st : zone_complete props -> few st -> exists st', read_zone_details st props = Ok st'.
  Proof.
    intros ((name & N) & _ & (m & v & Mv & M) & (pc & P) & T1 & T2 & A) Fw. unfold read_zone_details.
    rewrite (at_key_total _ _ _ N). cbn [bind get_str]. destruct (get_total name _ Fw) as (i & f & ->).
    cbn [bind]. rewrite (at_key_total _ _ _ Mv). cbn [bind]. rewrite (to_double_total _ _ M). cbn [bind].
    rewrite (percent_total _ _ P). cbn [bind].
    destruct (T1 (zc_cycleIntervalTimeMS match zget i (r_zones st) with Some d => d | None => new_zone end)) as (x & X).
    rewrite (cycle_total _ _ _ _ X). cbn [bind].
    destruct (T2 (zc_updateThermalsTimeMS match zget i (r_zones st) with Some d => d | None => new_zone end)) as (y & Y).
    rewrite (cycle_total _ _ _ _ Y). cbn [bind].
    destruct (A false) as (b & B). rewrite (opt_flag_total _ _ _ _ B). cbn [bind]. eexists. reflexivity.
  Qed.

  Lemma pid_total ps props name class st zone number before :
    pid_complete w ps props -> says_text props "Class" class -> few st ->
    as_configured w before number (loaded_of st) -> incl (before ++ [PPid props zone])%list ps ->
    exists st', pid_in_zone (ce_of w) props name class st zone = Ok st'.
  Proof.
    intros ((_ & _ & _ & Fl1 & Fl2 & (margins & Mg)) & (missing & sources & Src) & (accN & Acc) &
      (info0 & Pi & s & Sp) & Off) Cl Fw Ac Inc.
    destruct Src as (class' & inputs & acceptable & ls & C & I & A & F & B & Sc).
    assert (class' = class) by (eapply says_text_unique; eassumption). subst class'.
    destruct Acc as (acc' & als & A' & Fa & Ba & _).
    assert (acc' = acceptable) by (eapply texts_or_none_unique; eassumption). subst acc'.
    destruct (founds_finds _ _ F) as (lsi & Fi & <-). destruct (founds_finds _ _ Fa) as (alsi & Fai & <-).
    destruct (finds_found w bus_ok _ _ Fi) as [_ Ki]. destruct (finds_found w bus_ok _ _ Fai) as [_ Kai].
    destruct (Fl1 true) as (af & Haf). destruct (Fl2 false) as (ho & Hho).
    destruct (get_total zone _ Fw) as (index & found' & Ei).
    destruct (find_inputs_total class acceptable af ho _ _ Fi (MkInputs (r_sensors st) [] [])) as (i & Efi).
    destruct (find_inputs_ok w class acceptable af ho _ _ _ Efi) as (lsi' & Fi' & Hi & _).
    assert (lsi' = lsi) by (eapply Forall2_unique; [apply finds_unique|exact Fi'|exact Fi]). subst lsi'.
    cbn [in_interfaces app] in Hi.
    assert (Vi : Forall (fun e => snd e = value_intf) (in_interfaces i)).
    { rewrite Hi. apply kinds_concat in Ki. rewrite <- map_fst_concat in B.
      rewrite Forall_forall in *. intros e J. apply value_kind; [apply Ki, J|apply B, in_map, J]. }
    assert (Va : Forall (fun e => snd e = value_intf) (List.concat alsi)).
    { apply kinds_concat in Kai. rewrite <- map_fst_concat in Ba.
      rewrite Forall_forall in *. intros e J. apply value_kind; [apply Kai, J|apply Ba, in_map, J]. }
    destruct (add_inputs_total class af ho _ Vi (in_sensors i, in_archived i)) as (a1 & Ea1).
    destruct (acceptables_total _ Va) as (an & Ean).
    assert (Outs : exists outs outsl a2,
      (if String.eqb class "fan" then do v <- getPIDAttribute "Outputs" props; get_strs v else Ok []) = Ok outs /\
      find_all (s_regex w) (sensors_of (s_resp w)) outs = Ok outsl /\
      (if String.eqb class "fan" then pair_fans (in_interfaces i) outsl a1 else Ok a1) = Ok a2).
    { destruct Sc as [(-> & _ & outs & os & O & Fo & P & Bp)|(N & _)].
      - destruct (founds_finds _ _ Fo) as (osi & Fio & <-). destruct (finds_found w bus_ok _ _ Fio) as [_ Kio].
        rewrite <- !map_fst_concat in P. rewrite <- Hi in P.
        destruct (pair_fans_total _ _ _ a1 (kinds_concat w _ Kio) P Bp) as (a2 & E2).
        exists outs, (List.concat osi), a2. change (String.eqb "fan" "fan") with true. cbv iota. unfold getPIDAttribute.
        unfold says_texts in O. rewrite O. split; [reflexivity|]. split; [apply find_all_total, Fio|exact E2].
      - destruct (String.eqb_spec class "fan"); [contradiction|]. exists [], [], a1. auto. }
    destruct Outs as (outs & outsl & a2 & Eo1 & Eo2 & Eo3).
    (* what is known so far *)
    assert (Pre : pid_in_zone (ce_of w) props name class st zone =
      let '(sensors, archived) := a2 in
      match archived with
      | [] => Ok (MkReading found' sensors (zset index (conf_at index (r_pids st)) (r_pids st)) (r_zones st))
      | _ =>
          do offsetType <- offset_type props;
          do margins <- opt_attr get_dbls [] "TempToMargin" props;
          do conf <- add_pid_info (s_thresholds w) props name offsetType sensors
                       (spliceInputs archived margins an) (conf_at index (r_pids st));
          Ok (MkReading found' sensors (zset index conf (r_pids st)) (r_zones st))
      end).
    { unfold pid_in_zone. rewrite Ei. cbn [bind]. rewrite (at_key_total _ _ _ I). cbn [bind get_strs].
      rewrite (opt_strs_total _ _ _ A). cbn [bind]. rewrite Eo1. cbn [bind].
      rewrite (opt_flag_total _ _ _ _ Haf). cbn [bind]. rewrite (opt_flag_total _ _ _ _ Hho). cbn [bind].
      cbn [ce_of ce_flags ce_regex ce_sensors ce_thresholds]. rewrite Efi. cbn [bind]. rewrite Eo2. cbn [bind].
      rewrite (find_all_total _ _ Fai). cbn [bind]. rewrite Ea1. cbn [bind]. rewrite Ean. cbn [bind].
      rewrite Eo3. cbn [bind]. reflexivity. }
    destruct a2 as [sensors archived]. destruct archived as [|a0 ar] eqn:Ear; [rewrite Pre; eexists; reflexivity|].
    rewrite <- Ear in *.
    destruct (pid_main w bus_ok _ _ _ _ _ _ _ _ _ _ _ _ _ Cl I A Eo1 Haf Hho Efi Eo2 Ea1 Eo3)
      as (us & missing' & sources' & short & _ & _ & _ & Es & Us & Ks).
    assert (Sens : forall n c, mget n sensors = Some c -> sensor_entry w ps n c).
    { subst sensors. apply updates_ok.
      - eapply Forall_impl; [|exact Us]. intros u U. eapply pid_update_ok; [|exact Cl|exact U].
        apply Inc. apply in_app_iff. right. left. reflexivity.
      - intros n c G. eapply sensor_entry_mono; [|apply (ac_sensors _ _ _ _ Ac n c G)].
        intros x X. apply Inc, in_app_iff. left. exact X. }
    assert (KnA : forall n, In n archived -> exists c, mget n sensors = Some c).
    { intros n J. subst sensors. apply apply_updates_keys. right. apply Ks, J. }
    assert (KnS : forall n c, mget n (r_sensors st) = Some c -> exists c', mget n sensors = Some c').
    { intros n c G. subst sensors. apply apply_updates_keys. left. exists c. exact G. }
    assert (KnI : forall x, In x (spliceInputs archived margins an) -> exists c, mget (si_name x) sensors = Some c).
    { intros x J. apply KnA. rewrite <- (proj1 (spliced_marked archived margins an)). apply in_map, J. }
    assert (Fin : exists ot conf', offset_type props = Ok ot /\
       add_pid_info (s_thresholds w) props name ot sensors (spliceInputs archived margins an) (conf_at index (r_pids st)) = Ok conf').
    { destruct Off as [Pl|(type & T & Tin & Or)].
      - unfold plain in Pl. unfold offset_type. rewrite Pl. eexists. unfold add_pid_info.
        destruct (populate_total props info0 s (set_inputs (spliceInputs archived margins an) (info_of name (conf_at index (r_pids st)))) None sensors Pi Sp Logic.I) as (x & X).
        eexists. split; [reflexivity|]. cbn [String.eqb]. rewrite X. reflexivity.
      - unfold says_text in T. unfold offset_type. rewrite T. cbn [get_str bind].
        destruct (offset_loop_total ps props info0 s type sensors Pi Sp Sens Or (spliceInputs archived margins an)
          (conf_at index (r_pids st)) KnI) as (c' & C').
        { intros n info x G J. unfold conf_at in G. destruct (zget index (r_pids st)) as [pids|] eqn:Z; [|discriminate].
          destruct (ac_inputs _ _ _ _ Ac index pids n info x Z G J) as (c & Gc). eapply KnS, Gc. }
        exists type, c'. split; [|]. all: cbn [In] in Tin; destruct Tin as [<-|[<-|[<-|[<-|[]]]]]; try reflexivity; exact C'. }
    destruct Fin as (ot & conf' & Fo & Fa'). rewrite Pre, Ear, Fo. cbn [bind]. rewrite (opt_dbls_total _ _ _ Mg). cbn [bind].
    rewrite <- Ear, Fa'. eexists. reflexivity.
  Qed.

  Lemma step_total props name st zone : step_complete w props -> few st ->
    exists st', step_in_zone (ce_of w) props name st zone = Ok st'.
  Proof.
    intros ((_ & _ & _ & Fl1 & Fl2 & (margins & Mg)) & (missing & sources & Src) & (accN & Acc) & info0 & Si) Fw.
    destruct Src as (inputs & acceptable & taken & ls & I & A & U & _).
    destruct Acc as (acc' & atk & als & A' & Ua & _).
    assert (acc' = acceptable) by (eapply texts_or_none_unique; eassumption). subst acc'.
    destruct (up_taken _ _ _ U) as (lsi & T & _). destruct (up_taken _ _ _ Ua) as (alsi & Ta & _).
    destruct (Fl1 true) as (af & Haf). destruct (Fl2 false) as (ho & Hho).
    destruct (get_total zone _ Fw) as (index & found' & Ei).
    unfold step_in_zone. rewrite Ei. cbn [bind]. rewrite (at_key_total _ _ _ I). cbn [bind get_strs].
    rewrite (opt_strs_total _ _ _ A). cbn [bind].
    rewrite (opt_flag_total _ _ _ _ Haf). cbn [bind]. rewrite (opt_flag_total _ _ _ _ Hho). cbn [bind].
    cbn [ce_of ce_flags ce_regex ce_sensors ce_thresholds].
    destruct (step_inputs_total acceptable af ho _ _ _ (r_sensors st, []) T) as ([sensors names] & Es). rewrite Es. cbn [bind].
    destruct names as [|n0 nr]; [eexists; reflexivity|].
    destruct (step_acceptable_total _ _ _ Ta) as (an & Ean). rewrite Ean. cbn [bind].
    rewrite (opt_dbls_total _ _ _ Mg). cbn [bind].
    destruct (step_settings_total props info0
      (ci_stepwiseInfo (info_of name (match zget index (r_pids st) with Some c => c | None => [] end))) Si) as (t & Et).
    rewrite Et. cbn [bind]. eexists. reflexivity.
  Qed.

  (** ** All parts *)
  Definition part_complete (ps : list part) (p : part) : Prop :=
    match p with
    | PZone props => zone_complete props
    | PPid props _ => pid_complete w ps props
    | PStep props _ => step_complete w props
    end.
  Lemma act_total ps number before p st :
    part_complete ps p -> few st -> as_configured w before number (loaded_of st) -> incl (before ++ [p])%list ps ->
    exists st', act (ce_of w) st p = Ok st'.
  Proof.
    intros C Fw Ac Inc. destruct p as [props|props zone|props zone]; cbn [act part_complete] in *.
    - apply zone_total; assumption.
    - destruct C as [Cc R]. pose proof Cc as ((name & N) & _ & (class & Cl) & _).
      rewrite (at_key_total _ _ _ N). cbn [bind get_str]. rewrite (at_key_total _ _ _ Cl). cbn [bind get_str].
      eapply pid_total; try eassumption. split; assumption.
    - destruct C as [Cc R]. pose proof Cc as ((name & N) & _).
      rewrite (at_key_total _ _ _ N). cbn [bind get_str]. apply step_total; [split; assumption|exact Fw].
  Qed.
  Lemma act_length st p st' : act (ce_of w) st p = Ok st' ->
    (List.length (r_found st') <= S (List.length (r_found st)))%nat.
  Proof.
    intros E. destruct p as [props|props zone|props zone]; cbn [act] in E.
    - unfold read_zone_details in E.
      apply bind_ok in E. destruct E as (v & Ev & E). apply bind_ok in E. destruct E as (name & En & E).
      apply bind_ok in E. destruct E as ([i f] & Ei & E). cbv zeta beta iota in E.
      apply bind_ok in E. destruct E as (? & ? & E). apply bind_ok in E. destruct E as (? & ? & E).
      apply bind_ok in E. destruct E as (? & ? & E). apply bind_ok in E. destruct E as (? & ? & E).
      apply bind_ok in E. destruct E as (? & ? & E). apply bind_ok in E. destruct E as (? & ? & E).
      injection E as <-. cbn [r_found]. eapply get_length, Ei.
    - apply bind_ok in E. destruct E as (v & Ev & E). apply bind_ok in E. destruct E as (name & En & E).
      apply bind_ok in E. destruct E as (v2 & Ev2 & E). apply bind_ok in E. destruct E as (class & Ec & E).
      apply (pid_in_zone_ok w bus_ok) in E; [|eapply text_ok; eassumption].
      destruct E as (index & us & names & conf' & Ei & _). eapply get_length, Ei.
    - apply bind_ok in E. destruct E as (v & Ev & E). apply bind_ok in E. destruct E as (name & En & E).
      apply (step_in_zone_ok w bus_ok) in E. destruct E as (index & us & names & conf' & Ei & _). eapply get_length, Ei.
  Qed.
  Lemma acts_total ps f0 : good_zones f0 -> Forall (part_complete ps) ps ->
    (Z.of_nat (List.length f0 + List.length ps) <= int64_max)%Z ->
    forall rest before st, ps = (before ++ rest)%list ->
      foldM (act (ce_of w)) before (MkReading f0 [] [] []) = Ok st ->
      (List.length (r_found st) <= List.length f0 + List.length before)%nat ->
      exists st', foldM (act (ce_of w)) rest st = Ok st'.
  Proof.
    intros G0 Fc Lim. induction rest as [|p r IH]; intros before st E Eb Ln; [exists st; reflexivity|].
    assert (Ac : as_configured w before (fun n => mget n (r_found st)) (loaded_of st)).
    { apply (acts_ok w bus_ok _ before [] (MkReading f0 [] [] []) st); try assumption.
      - apply start_ok.
      - intros n i M. exact M. }
    assert (Ip : In p ps) by (rewrite E; apply in_app_iff; right; left; reflexivity).
    assert (Lb : List.length ps = (List.length before + S (List.length r))%nat) by (rewrite E, app_length; reflexivity).
    rewrite Forall_forall in Fc.
    destruct (act_total ps (fun n => mget n (r_found st)) before p st (Fc p Ip)) as (st1 & E1).
    - unfold few. lia.
    - exact Ac.
    - intros x X. rewrite E. apply in_snoc in X. apply in_app_iff. destruct X as [X| ->]; [left; exact X|right; left; reflexivity].
    - cbn [foldM]. rewrite E1. cbn [bind]. apply (IH (before ++ [p])%list).
      + rewrite <- app_assoc. exact E.
      + rewrite foldM_app, Eb. cbn [bind foldM]. rewrite E1. reflexivity.
      + pose proof (act_length _ _ _ E1). rewrite app_length. cbn [List.length]. lia.
  Qed.

  (** ** All objects *)
  Lemma unflatten_object ps e st st' : object_complete w ps (snd e) ->
    foldM (act (ce_of w)) (parts_of (snd e)) st = Ok st' -> read_object (ce_of w) st e = Ok st'.
  Proof.
    intros (Cz & Cp & Cs) E. unfold parts_of in E. rewrite foldM_app in E. apply bind_ok in E. destruct E as (s1 & E1 & E).
    rewrite foldM_app in E. apply bind_ok in E. destruct E as (s2 & E2 & E). unfold read_object.
    assert (X1 : on_interface zone_intf (snd e) read_zone_details st = Ok s1).
    { unfold on_interface. destruct (mget zone_intf (snd e)) as [props|]; [|exact E1].
      cbn [foldM act] in E1. destruct (read_zone_details st props); cbn in E1; congruence. }
    rewrite X1. cbn [bind].
    assert (X2 : on_interface pid_intf (snd e) (read_pid_object (ce_of w)) s1 = Ok s2).
    { unfold on_interface. destruct (mget pid_intf (snd e)) as [props|]; [|exact E2].
      destruct (Cp _ eq_refl) as (((name & N) & (zs & Zs) & (class & Cl) & _) & _).
      unfold read_pid_object. rewrite (at_key_total _ _ _ N). cbn [bind get_str]. rewrite (at_key_total _ _ _ Cl). cbn [bind get_str].
      rewrite (at_key_total _ _ _ Zs). cbn [bind get_strs]. unfold zones_listed in E2. unfold says_texts in Zs. rewrite Zs in E2.
      rewrite foldM_map in E2. rewrite <- E2. apply foldM_ext. intros s a. cbn [act].
      rewrite (at_key_total _ _ _ N). cbn [bind get_str]. rewrite (at_key_total _ _ _ Cl). reflexivity. }
    rewrite X2. cbn [bind]. unfold on_interface. destruct (mget stepwise_intf (snd e)) as [props|]; [|exact E].
    destruct (Cs _ eq_refl) as (((name & N) & (zs & Zs) & _) & _).
    unfold read_stepwise_object. rewrite (at_key_total _ _ _ N). cbn [bind get_str].
    rewrite (at_key_total _ _ _ Zs). cbn [bind get_strs]. unfold zones_listed in E. unfold says_texts in Zs. rewrite Zs in E.
    rewrite foldM_map in E. rewrite <- E. apply foldM_ext. intros s a. cbn [act].
    rewrite (at_key_total _ _ _ N). reflexivity.
  Qed.
  Lemma unflatten_objects ps objs : Forall (fun e => object_complete w ps (snd e)) objs -> forall st st',
    foldM (act (ce_of w)) (parts objs) st = Ok st' -> foldM (read_object (ce_of w)) objs st = Ok st'.
  Proof.
    induction 1 as [|e r C _ IH]; intros st st' E; [exact E|]. unfold parts in E. cbn [flat_map] in E.
    rewrite foldM_app in E. apply bind_ok in E. destruct E as (s1 & E1 & E). cbn [foldM].
    rewrite (unflatten_object ps _ _ _ C E1). apply IH, E.
  Qed.
  Lemma parts_complete ps objs : Forall (fun e => object_complete w ps (snd e)) objs -> Forall (part_complete ps) (parts objs).
  Proof.
    intros F. apply Forall_forall. intros p I. unfold parts in I. apply in_flat_map in I. destruct I as (e & Ie & I).
    rewrite Forall_forall in F. destruct (F e Ie) as (Cz & Cp & Cs). unfold parts_of in I. rewrite !in_app_iff in I.
    destruct I as [I|[I|I]].
    - destruct (mget zone_intf (snd e)); [|destruct I]. destruct I as [<-|[]]. apply Cz. reflexivity.
    - destruct (mget pid_intf (snd e)); [|destruct I]. apply in_map_iff in I. destruct I as (z & <- & _). apply Cp. reflexivity.
    - destruct (mget stepwise_intf (snd e)); [|destruct I]. apply in_map_iff in I. destruct I as (z & <- & _). apply Cs. reflexivity.
  Qed.
End World.

Lemma reserve_total (l : list (string * object)) : (forall (e : string * object) (props : properties), In e l -> mget zone_intf (snd e) = Some props ->
    (exists name, says_text props "Name" name) /\ index_ok props) ->
  forall f, (Z.of_nat (List.length f + List.length l) <= 2 ^ 62)%Z ->
  exists f', foldM reserve_index l f = Ok f' /\ (List.length f' <= List.length f + List.length l)%nat.
Proof.
  induction l as [|e r IH]; intros C f L; [exists f; split; [reflexivity|cbn; lia]|]. cbn [foldM].
  assert (X : exists f1, reserve_index f e = Ok f1 /\ (List.length f1 <= S (List.length f))%nat).
  { unfold reserve_index. destruct (mget zone_intf (snd e)) as [props|] eqn:E; [|exists f; split; [reflexivity|lia]].
    destruct (C e props (or_introl eq_refl) E) as ((name & N) & Ix). rewrite (at_key_total _ _ _ N). cbn [bind get_str].
    unfold index_ok in Ix. destruct (mget "ZoneIndex" props) as [v|]; [|exists f; split; [reflexivity|lia]].
    destruct v as [| |d| | | |]; try (exists f; split; [reflexivity|lia]).
    destruct (Ix d eq_refl) as (i & -> & Li). cbn [List.length] in L.
    destruct (set_total name f i) as (i' & f' & S). { unfold int64_max. lia. }
    rewrite S. cbn [bind snd]. exists f'. split; [reflexivity|]. eapply set_length, S. }
  destruct X as (f1 & -> & L1). cbn [bind]. cbn [List.length] in L.
  destruct (IH (fun e' props I => C e' props (or_intror I)) f1) as (f' & E' & L'); [lia|].
  exists f'. split; [exact E'|]. cbn [List.length]. lia.
Qed.

Lemma gather_total managed owners :
  (forall owner m, In (owner, (true, m)) owners -> managed owner m <> None) ->
  exists confs, gather managed owners = Ok confs.
Proof.
  intros H. unfold gather. generalize (@nil (string * object)).
  induction owners as [|[o [h m]] r IH]; intros confs; [exists confs; reflexivity|]. cbn [foldM fst snd].
  assert (Hr : forall owner m0, In (owner, (true, m0)) r -> managed owner m0 <> None).
  { intros ? ? I. apply H. right. exact I. }
  destruct h; cbn [negb].
  - specialize (H o m (or_introl eq_refl)). destruct (managed o m); [|congruence]. cbn [bind]. apply IH, Hr.
  - cbn [bind]. apply IH, Hr.
Qed.
Lemma profiles_total selected confs :
  (forall path o i props v, selected <> [] -> In (path, o) confs -> In (i, props) o -> mget "Profiles" props = Some v ->
     exists l, v = VStrs l) ->
  exists objs, apply_profiles selected confs = Ok objs.
Proof.
  intros H. unfold apply_profiles. destruct selected as [|s0 sel]; [eexists; reflexivity|].
  set (selected := s0 :: sel) in *. assert (Ns : selected <> []) by discriminate. clearbody selected.
  induction confs as [|[path o] r IH]; [exists []; reflexivity|]. cbn [select_objects].
  assert (X : exists o', select_interfaces selected o = Ok o').
  { assert (Ho : forall i props v, In (i, props) o -> mget "Profiles" props = Some v -> exists l, v = VStrs l).
    { intros i props v I. eapply (H path o); [exact Ns|left; reflexivity|exact I]. }
    clear -Ho. induction o as [|[i props] o IH]; [exists []; reflexivity|]. cbn [select_interfaces].
    assert (K : exists b, profile_selected selected props = Ok b).
    { unfold profile_selected. destruct (mget "Profiles" props) as [v|] eqn:E; [|eexists; reflexivity].
      destruct (Ho i props v (or_introl eq_refl) E) as (l & ->). cbn. destruct l; eexists; reflexivity. }
    destruct K as (b & ->). destruct IH as (o' & ->); [intros i' p' v I; apply (Ho i' p' v), or_intror, I|].
    cbn. eexists. reflexivity. }
  destruct X as (o' & ->). destruct IH as (objs & ->); [intros p o1 i props v N I; apply (H p o1 i props v N), or_intror, I|].
  cbn. eexists. reflexivity.
Qed.

Lemma C70_lemma sf re cb : complete sf re cb -> exists b c, dbus_init sf re cb = Ok (b, c).
Proof.
  intros (resp & selected & Sb & Ne & Pr & One & Mg & Pf & Co). unfold dbus_init. rewrite Sb.
  destruct (gather_total (cb_managed cb) (fst (scan resp))) as (confs & Eg).
  { intros owner m I. pose proof (owner_mgr _ _ _ _ I). subst m. apply Mg; [apply managers_ok|]. apply has_config_iff, I. }
  destruct (profiles_total selected confs) as (objs & Ea).
  { intros path o i props v Ns I J. eapply Pf; [exact Ns|apply managers_ok|eapply gathered_offered; eassumption|exact J]. }
  pose proof (reads_ok _ _ _ _ _ Eg Pr Ea) as Rd.
  destruct (Co (bus_of resp) objs (searched_bus resp) Rd) as (Lim & Ob).
  set (w := Setting sf re resp (bus_of resp) (cb_thresholds cb)) in *.
  assert (Bo : s_bus w = bus_of (s_resp w)) by reflexivity.
  assert (Fo : Forall (fun e => object_complete w (parts objs) (snd e)) objs).
  { apply Forall_forall. intros [path o] I. eapply Ob, I. }
  destruct (reserve_total objs) with (f := @nil (string * Z)) as (f0 & Ef & Lf).
  { intros e props I G. rewrite Forall_forall in Fo. destruct (Fo e I) as (Cz & _). destruct (Cz _ G) as (A & B & _). auto. }
  { cbn [List.length]. lia. }
  cbn [List.length] in Lf.
  destruct (reserve_ok _ _ _ good_nil Ef) as (G0 & _).
  destruct (acts_total w Bo One (parts objs) f0 G0 (parts_complete w _ _ Fo)) with (rest := parts objs) (before := @nil part)
    (st := MkReading f0 [] [] []) as (st & Est).
  { unfold int64_max. lia. }
  { reflexivity. }
  { reflexivity. }
  { cbn [r_found List.length]. lia. }
  apply (unflatten_objects w _ _ Fo) in Est.
  destruct resp as [|x r]; [congruence|]. destruct (scan (x :: r)) as [owners sensors] eqn:Sc. cbn [fst] in *.
  rewrite Eg. cbn [bind]. rewrite Pr. cbn [bind]. rewrite Ea. cbn [bind]. unfold read_objects. rewrite Ef. cbn [bind].
  assert (Ce : ConfigEnv sf re (cb_thresholds cb) sensors = ce_of w).
  { unfold ce_of, sensors_of. cbn [w s_flags s_regex s_thresholds s_resp]. rewrite Sc. reflexivity. }
  rewrite Ce, Est. cbn [bind]. eexists. eexists. reflexivity.
Qed.
