(** * What one PID or stepwise controller on D-Bus does. *)
From Coq Require Import ZArith Bool List String Ascii Lia.
From Verif Require Import Base BaseFacts Dbl PidModel ZoneModel BuilderModel SensorModel WriteModel SpecWrite SystemModel SpecSystem
  SpecConfig JsonModel SpecJson JsonProofs ConfigModel ConfigProofs DbusConfigModel SpecDbus DbusProofs.
Import ListNotations.
Local Open Scope string_scope.

(** ** Values *)
Lemma at_key_ok key base v : at_key key base = Ok v -> mget key base = Some v.
Proof. unfold at_key. destruct (mget key base); congruence. Qed.
Lemma attribute_ok key base v : getPIDAttribute key base = Ok v -> mget key base = Some v.
Proof. unfold getPIDAttribute. destruct (mget key base); congruence. Qed.
Lemma get_str_ok v s : get_str v = Ok s -> v = VStr s.
Proof. destruct v; cbn; congruence. Qed.
Lemma get_strs_ok v s : get_strs v = Ok s -> v = VStrs s.
Proof. destruct v; cbn; congruence. Qed.
Lemma get_dbls_ok v s : get_dbls v = Ok s -> v = VDbls s.
Proof. destruct v; cbn; congruence. Qed.
Lemma get_flag_ok v s : get_flag v = Ok s -> v = VBool s.
Proof. destruct v; cbn; congruence. Qed.
Lemma to_double_ok v d : variant_to_double v = Ok d -> number_value v d.
Proof. destruct v; cbn; intros E; try discriminate; injection E as <-; constructor. Qed.
Lemma text_ok key base v s : at_key key base = Ok v -> get_str v = Ok s -> says_text base key s.
Proof. intros E F. apply at_key_ok in E. apply get_str_ok in F. unfold says_text. congruence. Qed.
Lemma texts_ok key base v s : at_key key base = Ok v -> get_strs v = Ok s -> says_texts base key s.
Proof. intros E F. apply at_key_ok in E. apply get_strs_ok in F. unfold says_texts. congruence. Qed.
Lemma pid_number_ok key base d : pid_number key base = Ok d -> says_number base key d.
Proof.
  unfold pid_number. intros E. apply bind_ok in E. destruct E as (v & E & F). apply attribute_ok in E.
  exists v. split; [exact E|]. apply to_double_ok, F.
Qed.
Lemma opt_flag_ok default key base b : opt_attr get_flag default key base = Ok b -> flag_or default base key b.
Proof.
  unfold opt_attr, flag_or. destruct (mget key base); [apply get_flag_ok|congruence].
Qed.
Lemma opt_strs_ok key base b : opt_attr get_strs [] key base = Ok b -> texts_or_none base key b.
Proof.
  unfold opt_attr, texts_or_none. destruct (mget key base); [apply get_strs_ok|congruence].
Qed.
Lemma opt_dbls_ok key base b : opt_attr get_dbls [] key base = Ok b -> numbers_or_none base key b.
Proof.
  unfold opt_attr, numbers_or_none. destruct (mget key base); [apply get_dbls_ok|congruence].
Qed.
Lemma opt_number_ok default key base b :
  opt_attr variant_to_double default key base = Ok b -> number_or default base key b.
Proof.
  unfold opt_attr, number_or. destruct (mget key base); [apply to_double_ok|congruence].
Qed.
Lemma percent_ok base d : fail_safe_percent base = Ok d -> percent_set base d.
Proof.
  unfold fail_safe_percent, percent_set. destruct (mget "FailSafePercent" base) as [v|]; [|congruence].
  intros E. apply bind_ok in E. destruct E as (x & E & F). destruct (dtrunc _ _ x) as [n|] eqn:T; [|discriminate].
  injection F as <-. exists x, n. split; [apply to_double_ok, E|auto].
Qed.
Lemma texts_or_none_unique props key l l' : texts_or_none props key l -> texts_or_none props key l' -> l = l'.
Proof. unfold texts_or_none. destruct (mget key props); congruence. Qed.
Lemma says_text_unique props key l l' : says_text props key l -> says_text props key l' -> l = l'.
Proof. unfold says_text. congruence. Qed.
Lemma says_texts_unique props key l l' : says_texts props key l -> says_texts props key l' -> l = l'.
Proof. unfold says_texts. congruence. Qed.

Lemma Forall2_unique {A B} (R : A -> B -> Prop) l : (forall a b b', R a b -> R a b' -> b = b') ->
  forall m m', Forall2 R l m -> Forall2 R l m' -> m = m'.
Proof.
  intros U. induction l as [|a r IH]; intros m m' H H'; inversion H; inversion H'; subst; [reflexivity|].
  f_equal; [eapply U; eassumption|apply IH; assumption].
Qed.

(** ** Lists of sensors that were found *)
Section World.
  Variable w : setting.
  Hypothesis bus_ok : s_bus w = bus_of (s_resp w).

  Definition ce_of : config_env := ConfigEnv (s_flags w) (s_regex w) (s_thresholds w) (sensors_of (s_resp w)).
  Definition finds (name : string) (l : list (string * string)) : Prop :=
    findSensors (s_regex w) (sensors_of (s_resp w)) (sensorNameToDbusName name) = Ok l.

  Lemma finds_found names ls : Forall2 finds names ls ->
    Forall2 (found w) names (map (map fst) ls) /\ Forall (Forall (kind_ok (s_resp w))) ls.
  Proof.
    induction 1 as [|n l r rs F _ [IH1 IH2]]; cbn; [split; constructor|].
    destruct (findSensors_found w n l bus_ok F) as [A B]. split; constructor; assumption.
  Qed.
  Lemma find_all_ok names : forall l, find_all (s_regex w) (sensors_of (s_resp w)) names = Ok l ->
    exists ls, Forall2 finds names ls /\ l = List.concat ls.
  Proof.
    induction names as [|n r IH]; intros l E; cbn in E; [injection E as <-; exists []; split; [constructor|reflexivity]|].
    apply bind_ok in E. destruct E as (a & E1 & E). apply bind_ok in E. destruct E as (b & E2 & E).
    injection E as <-. destruct (IH _ E2) as (ls & F & ->). exists (a :: ls). split; [constructor; assumption|reflexivity].
  Qed.
  Lemma map_fst_concat {A B} (ls : list (list (A * B))) : map fst (List.concat ls) = List.concat (map (map fst) ls).
  Proof. apply concat_map. Qed.
  Lemma kinds_concat ls : Forall (Forall (kind_ok (s_resp w))) ls -> Forall (kind_ok (s_resp w)) (List.concat ls).
  Proof.
    induction 1 as [|l r H _ IH]; [constructor|]. cbn. apply Forall_app. auto.
  Qed.

  Lemma missing_cons sf acc n t l ls :
    missing_names sf acc (n :: t) (l :: ls) =
    ((if HANDLE_MISSING_OBJECT_PATHS sf && match l with [] => negb (smem n acc) | _ => false end
     then [underscored n] else []) ++ missing_names sf acc t ls)%list.
  Proof.
    unfold missing_names. destruct (HANDLE_MISSING_OBJECT_PATHS sf); cbn; [|reflexivity].
    destruct l; cbn; [|reflexivity]. destruct (negb (smem n acc)); reflexivity.
  Qed.

  (** ** Sensor updates *)
  Definition updates : Type := list (string * (SensorConfig -> SensorConfig)).
  Definition apply_updates (us : updates) (m : smap SensorConfig) : smap SensorConfig :=
    fold_left (fun m u => update_sensor (fst u) (snd u) m) us m.
  Lemma apply_updates_app a b m : apply_updates (a ++ b)%list m = apply_updates b (apply_updates a m).
  Proof. apply fold_left_app. Qed.
  Lemma apply_updates_in_order us : forall m, sorted_map m -> sorted_map (apply_updates us m).
  Proof.
    induction us as [|u r IH]; intros m S; [exact S|]. cbn. apply IH, sorted_mset, S.
  Qed.
  Lemma apply_updates_keys us : forall m n, (exists c, mget n m = Some c) \/ In n (map fst us) ->
    exists c, mget n (apply_updates us m) = Some c.
  Proof.
    induction us as [|u r IH]; intros m n H; cbn; [destruct H as [H|[]]; exact H|].
    apply IH. unfold update_sensor. rewrite mget_mset. destruct (String.eqb_spec n (fst u)) as [E|E].
    - left. eexists. reflexivity.
    - destruct H as [H|[H|H]]; [left; exact H|congruence|right; exact H].
  Qed.

  (** ** Inputs of a PID *)
  Section Pid.
    Variables (pidClass : string) (acceptable : list string) (asFailed hostOff : bool).

    Definition missing_update (n : string) : string * (SensorConfig -> SensorConfig) :=
      (n, as_thermal pidClass (getSensorPath pidClass n) asFailed hostOff).
    Definition thermal_update (path : string) : string * (SensorConfig -> SensorConfig) :=
      (getSensorNameFromPath path, as_thermal pidClass path asFailed hostOff).
    Definition fan_update (e : string * string) : string * (SensorConfig -> SensorConfig) :=
      (getSensorNameFromPath (fst e) ++ getSensorNameFromPath (snd e), as_fan (fst e) (snd e)).

    Lemma find_inputs_ok names : forall st st',
      foldM (find_input (s_flags w) (s_regex w) (sensors_of (s_resp w)) pidClass acceptable asFailed hostOff)
        names st = Ok st' ->
      exists ls, Forall2 finds names ls /\ in_interfaces st' = (in_interfaces st ++ List.concat ls)%list /\
        let miss := if String.eqb pidClass "fan" then [] else
                      missing_names (s_flags w) acceptable names (map (map fst) ls) in
        in_archived st' = (in_archived st ++ miss)%list /\
        in_sensors st' = apply_updates (map missing_update miss) (in_sensors st).
    Proof.
      induction names as [|n r IH]; intros st st' E.
      - injection E as <-. exists []. split; [constructor|]. cbn [map List.concat]. rewrite app_nil_r.
        split; [reflexivity|]. unfold missing_names. cbn [combine filter map].
        destruct (String.eqb pidClass "fan"), (HANDLE_MISSING_OBJECT_PATHS (s_flags w)); cbn;
          rewrite app_nil_r; auto.
      - cbn [foldM] in E. apply bind_ok in E. destruct E as (st1 & E1 & E).
        unfold find_input in E1. apply bind_ok in E1. destruct E1 as (l & F & E1).
        destruct (IH _ _ E) as (ls & H1 & H2 & H3). clear IH E.
        exists (l :: ls). split; [constructor; [exact F|exact H1]|]. cbn [map List.concat]. rewrite missing_cons.
        cbv zeta in H3 |- *. destruct H3 as [H3 H4].
        destruct l as [|e l]; cbn [map].
        + destruct (HANDLE_MISSING_OBJECT_PATHS (s_flags w)), (String.eqb pidClass "fan"), (smem n acceptable);
            cbn [andb negb] in E1 |- *; injection E1 as <-; cbn [in_interfaces in_archived in_sensors] in *;
            rewrite ?app_nil_l; try (split; [exact H2|split; [exact H3|exact H4]]).
          split; [exact H2|]. rewrite underscored_eq in *. split.
          * rewrite H3, <- app_assoc. reflexivity.
          * rewrite H4. reflexivity.
        + injection E1 as <-. cbn [in_interfaces in_archived in_sensors] in *.
          rewrite andb_false_r. cbn [app]. split; [|split; assumption].
          rewrite H2, <- app_assoc. reflexivity.
    Qed.

    Lemma add_inputs_ok l : forall st st',
      foldM (add_input pidClass asFailed hostOff) l st = Ok st' ->
      Forall (fun e => snd e = value_intf) l /\
      if is_thermal_class pidClass
      then fst st' = apply_updates (map thermal_update (map fst l)) (fst st) /\
           snd st' = (snd st ++ map getSensorNameFromPath (map fst l))%list
      else st' = st.
    Proof.
      induction l as [|[path intf] r IH]; intros st st' E.
      - injection E as <-. split; [constructor|]. destruct (is_thermal_class pidClass); cbn; [|reflexivity].
        rewrite app_nil_r. auto.
      - cbn [foldM] in E. apply bind_ok in E. destruct E as (st1 & E1 & E). destruct (IH _ _ E) as [H1 H2].
        unfold add_input in E1. destruct (String.eqb_spec intf value_intf) as [->|N]; [|discriminate].
        split; [constructor; [reflexivity|exact H1]|].
        destruct (is_thermal_class pidClass); injection E1 as <-; [|exact H2].
        destruct H2 as [H2 H3]. cbn [map fst snd] in *. split; [exact H2|]. rewrite H3, <- app_assoc. reflexivity.
    Qed.
    Lemma add_fans_ok l : forall st st',
      foldM add_fan l st = Ok st' ->
      Forall (fun e => snd (snd e) = pwm_intf) l /\
      fst st' = apply_updates (map fan_update (map (fun e => (fst (fst e), fst (snd e))) l)) (fst st) /\
      snd st' = (snd st ++ map (fun e => fst (fan_update (fst (fst e), fst (snd e)))) l)%list.
    Proof.
      induction l as [|[[f fi] [p pi]] r IH]; intros st st' E.
      - injection E as <-. split; [constructor|]. cbn. rewrite app_nil_r. auto.
      - cbn [foldM] in E. apply bind_ok in E. destruct E as (st1 & E1 & E). destruct (IH _ _ E) as (H1 & H2 & H3).
        unfold add_fan in E1. destruct (String.eqb_spec pwm_intf pi) as [<-|N]; [|discriminate].
        cbn [negb] in E1. injection E1 as <-. split; [constructor; [reflexivity|exact H1]|].
        cbn [map fst snd] in *. split; [exact H2|]. rewrite H3, <- app_assoc. reflexivity.
    Qed.
    Lemma pair_fans_ok inputs outputs st st' :
      Forall (kind_ok (s_resp w)) outputs -> pair_fans inputs outputs st = Ok st' ->
      exists pairs, paired (map fst inputs) (map fst outputs) pairs /\
        Forall (fun e => bus_pwm (s_resp w) (snd e)) pairs /\
        fst st' = apply_updates (map fan_update pairs) (fst st) /\
        snd st' = (snd st ++ map (fun e => fst (fan_update e)) pairs)%list.
    Proof.
      intros K E.
      assert (G : forall l, Forall (fun e => kind_ok (s_resp w) (snd e)) l -> foldM add_fan l st = Ok st' ->
        let pairs := map (fun e => (fst (fst e), fst (snd e))) l in
        Forall (fun e => bus_pwm (s_resp w) (snd e)) pairs /\
        fst st' = apply_updates (map fan_update pairs) (fst st) /\
        snd st' = (snd st ++ map (fun e => fst (fan_update e)) pairs)%list).
      { intros l Kl F. destruct (add_fans_ok _ _ _ F) as (A & B & C). cbv zeta. split; [|split].
        - apply Forall_map. rewrite Forall_forall in *. intros e I. cbn.
          specialize (A e I). specialize (Kl e I). destruct Kl as [[X _]|[_ X]]; [|exact X].
          rewrite A in X. vm_compute in X. discriminate.
        - exact B.
        - rewrite map_map. exact C. }
      unfold pair_fans in E.
      assert (Case : (exists pwm, outputs = [pwm]) \/
        (List.length outputs <> 1%nat /\ (if Nat.eqb (List.length inputs) (List.length outputs)
          then foldM add_fan (combine inputs outputs) st
          else Throw "fan PID has invalid number of Outputs") = Ok st')).
      { destruct outputs as [|o [|o2 os]]; [right|left; eexists; reflexivity|right]; split; try exact E; cbn; lia. }
      destruct Case as [[pwm ->]|[N E']].
      - destruct (G (map (fun i => (i, pwm)) inputs)) as (A & B & C); [| exact E|].
        + apply Forall_map. apply Forall_forall. intros i _. cbn. inversion K; assumption.
        + assert (P : map (fun e => (fst (fst e), fst (snd e))) (map (fun i => (i, pwm)) inputs) =
                      map (fun f => (f, fst pwm)) (map fst inputs)) by (rewrite !map_map; reflexivity).
          rewrite P in A, B, C. eexists. split; [|split; [exact A|split; [exact B|exact C]]].
          left. exists (fst pwm). split; reflexivity.
      - destruct (Nat.eqb_spec (List.length inputs) (List.length outputs)) as [L|L]; [|discriminate].
        destruct (G (combine inputs outputs)) as (A & B & C); [|exact E'|].
        + apply Forall_forall. intros [a b] I. cbn. rewrite Forall_forall in K. apply K.
          eapply in_combine_r, I.
        + eexists. split; [|split; [exact A|split; [exact B|exact C]]]. right.
          rewrite !map_length. split; [exact N|]. split; [exact L|].
          clear. revert outputs. induction inputs as [|x r IH]; intros [|y s]; cbn; try reflexivity. rewrite IH. reflexivity.
    Qed.
  End Pid.

  Lemma source_names_fan pairs : Forall2 (source_name "fan") pairs (map (fun e => fst (fan_update e)) pairs).
  Proof.
    induction pairs as [|e r IH]; cbn [map]; constructor; [|exact IH].
    exists (getSensorNameFromPath (fst e)), (getSensorNameFromPath (snd e)).
    split; [apply called_name|]. split; [apply called_name|reflexivity].
  Qed.
  Lemma source_names_thermal class paths : class <> "fan" ->
    Forall2 (source_name class) (map (fun p => (p, "")) paths) (map getSensorNameFromPath paths).
  Proof.
    intros N. induction paths as [|p r IH]; cbn; constructor; [|exact IH].
    unfold source_name. destruct (String.eqb_spec class "fan"); [contradiction|]. apply called_name.
  Qed.
  Lemma called_names paths : Forall2 called paths (map getSensorNameFromPath paths).
  Proof. induction paths; cbn; constructor; [apply called_name|assumption]. Qed.

  Lemma is_thermal_iff c : is_thermal_class c = true <-> thermal_class c.
  Proof. apply smem_In. Qed.
  Lemma thermal_not_fan c : is_thermal_class c = true -> c <> "fan".
  Proof. intros E ->. discriminate. Qed.

  (** A sensor that a PID adds. *)
  Definition pid_update (props : properties) (class : string) (u : string * (SensorConfig -> SensorConfig)) : Prop :=
    exists missing sources, pid_sources w props missing sources /\
    ((class <> "fan" /\ exists path af ho, snd u = as_thermal class path af ho /\
        flag_or true props "InputUnavailableAsFailed" af /\ flag_or false props "IgnoreFailIfHostOff" ho /\
        (In (path, "") sources /\ called path (fst u) \/ In (fst u) missing /\ path = getSensorPath class (fst u))) \/
     (class = "fan" /\ exists e, snd u = as_fan (fst e) (snd e) /\ In e sources /\ fan_name e (fst u))).

  Definition conf_at (i : Z) (m : list (Z * PIDConf)) : PIDConf :=
    match zget i m with Some c => c | None => [] end.

  Lemma mapM_ok {A B} (f : A -> outcome B) l : forall l', mapM f l = Ok l' -> Forall2 (fun a b => f a = Ok b) l l'.
  Proof.
    induction l as [|a r IH]; intros l' E; cbn in E; [injection E as <-; constructor|].
    apply bind_ok in E. destruct E as (b & E1 & E). apply bind_ok in E. destruct E as (r' & E2 & E).
    injection E as <-. constructor; [exact E1|apply IH, E2].
  Qed.

  Lemma pid_main props class inputs acceptable outs af ho sc0 i os a1 sensors archived :
    says_text props "Class" class -> says_texts props "Inputs" inputs ->
    texts_or_none props "MissingIsAcceptable" acceptable ->
    (if String.eqb class "fan" then bind (getPIDAttribute "Outputs" props) get_strs else Ok []) = Ok outs ->
    flag_or true props "InputUnavailableAsFailed" af -> flag_or false props "IgnoreFailIfHostOff" ho ->
    foldM (find_input (s_flags w) (s_regex w) (sensors_of (s_resp w)) class acceptable af ho) inputs
      (MkInputs sc0 [] []) = Ok i ->
    find_all (s_regex w) (sensors_of (s_resp w)) outs = Ok os ->
    foldM (add_input class af ho) (in_interfaces i) (in_sensors i, in_archived i) = Ok a1 ->
    (if String.eqb class "fan" then pair_fans (in_interfaces i) os a1 else Ok a1) = Ok (sensors, archived) ->
    exists us missing sources short,
       pid_sources w props missing sources /\ Forall2 (source_name class) sources short /\
       archived = (missing ++ short)%list /\ sensors = apply_updates us sc0 /\
       Forall (pid_update props class) us /\ (forall n, In n archived -> In n (map fst us)).
  Proof.
    intros Cl Hin Eacc Eout Eaf Eho Efi Eo Ea1 Ea2.
    destruct (find_inputs_ok _ _ _ _ _ _ _ Efi) as (ls & Fl & Hi1 & Hi2). cbv zeta in Hi2. destruct Hi2 as [Hi2 Hi3].
    cbn [in_interfaces in_archived in_sensors app] in Hi1, Hi2, Hi3.
    destruct (finds_found _ _ Fl) as [Fl1 Fl2].
    destruct (add_inputs_ok _ _ _ _ _ _ Ea1) as [Hv Ha1]. cbn [fst snd] in Ha1.
    assert (Hs : Forall (bus_sensor (s_resp w)) (List.concat (map (map fst) ls))).
    { rewrite <- map_fst_concat, <- Hi1. apply Forall_map. rewrite Hi1 in Hv |- *. apply kinds_concat in Fl2.
      rewrite Forall_forall in *. intros e I. destruct (Fl2 e I) as [[_ X]|[X _]]; [exact X|].
      rewrite (Hv e I) in X. vm_compute in X. discriminate. }
    destruct (find_all_ok _ _ Eo) as (osl & Fo & ->). destruct (finds_found _ _ Fo) as [Fo1 Fo2].
    rename osl into os.
    destruct (String.eqb_spec class "fan") as [->|Nf].
      - (* fan *)
        cbn [is_thermal_class] in Ha1. change (is_thermal_class "fan") with false in Ha1. cbv iota in Ha1.
        subst a1. rewrite Hi2, Hi3 in Ea2. cbn [map] in Ea2.
        destruct (pair_fans_ok _ _ _ _ (kinds_concat _ Fo2) Ea2) as (pairs & Hp & Hpw & Hs' & Ha').
        cbn [fst snd app] in Hs', Ha'. cbn [apply_updates fold_left] in Hs'.
        rewrite Hi1, !map_fst_concat in Hp.
        assert (Src : pid_sources w props [] pairs).
        { exists "fan", inputs, acceptable, (map (map fst) ls).
          split; [exact Cl|]. split; [exact Hin|]. split; [exact Eacc|]. split; [exact Fl1|]. split; [exact Hs|].
          left. split; [reflexivity|]. split; [reflexivity|]. exists outs, (map (map fst) os).
          apply bind_ok in Eout. destruct Eout as (v2 & Ev & Es). apply attribute_ok in Ev. apply get_strs_ok in Es.
          subst v2. split; [exact Ev|]. split; [exact Fo1|]. split; [exact Hp|exact Hpw]. }
        exists (map fan_update pairs), [], pairs, (map (fun e => fst (fan_update e)) pairs).
        split; [exact Src|]. split; [apply source_names_fan|]. split; [exact Ha'|]. split; [exact Hs'|]. split.
        + apply Forall_map, Forall_forall. intros e I. exists [], pairs. split; [exact Src|]. right.
          split; [reflexivity|]. exists e. split; [reflexivity|]. split; [exact I|].
          exists (getSensorNameFromPath (fst e)), (getSensorNameFromPath (snd e)).
          split; [apply called_name|]. split; [apply called_name|reflexivity].
        + rewrite Ha'. intros n I. rewrite map_map. exact I.
      - (* others *)
        injection Ea2 as ->. rewrite Hi2, Hi3 in Ha1.
        set (miss := missing_names (s_flags w) acceptable inputs (map (map fst) ls)) in *.
        set (paths := List.concat (map (map fst) ls)) in *.
        assert (Src : pid_sources w props miss (if is_thermal_class class then map (fun p => (p, "")) paths else [])).
        { exists class, inputs, acceptable, (map (map fst) ls).
          split; [exact Cl|]. split; [exact Hin|]. split; [exact Eacc|]. split; [exact Fl1|]. split; [exact Hs|].
          right. split; [exact Nf|]. split; [reflexivity|]. pose proof (is_thermal_iff class) as T.
          destruct (is_thermal_class class); [left|right]; (split; [|reflexivity]); [apply T; reflexivity|].
          intros X. apply T in X. discriminate. }
        assert (Umiss : Forall (pid_update props class) (map (missing_update class af ho) miss)).
        { apply Forall_map, Forall_forall. intros n I. eexists. eexists. split; [exact Src|]. left.
          split; [exact Nf|]. exists (getSensorPath class n), af, ho. split; [reflexivity|]. split; [exact Eaf|].
          split; [exact Eho|]. right. split; [exact I|reflexivity]. }
        rewrite Hi1, map_fst_concat in Ha1. fold paths in Ha1.
        destruct (is_thermal_class class) eqn:T.
        + cbn [fst snd] in Ha1. destruct Ha1 as [H1 H2].
          exists (map (missing_update class af ho) miss ++ map (thermal_update class af ho) paths)%list, miss,
            (map (fun p => (p, "")) paths), (map getSensorNameFromPath paths).
          split; [exact Src|]. split; [apply source_names_thermal, Nf|]. split; [exact H2|].
          split; [rewrite apply_updates_app; exact H1|]. split.
          * apply Forall_app. split; [exact Umiss|].
            apply Forall_map, Forall_forall. intros p I. eexists. eexists. split; [exact Src|]. left.
            split; [exact Nf|]. exists p, af, ho. split; [reflexivity|]. split; [exact Eaf|].
            split; [exact Eho|]. left. split; [apply in_map_iff; exists p; auto|apply called_name].
          * rewrite H2. intros n I. rewrite map_app, !map_map. cbn. rewrite map_id. exact I.
        + injection Ha1 as -> ->. exists (map (missing_update class af ho) miss), miss, [], [].
          split; [exact Src|]. split; [constructor|]. split; [symmetry; apply app_nil_r|].
          split; [reflexivity|]. split; [exact Umiss|]. intros n I. rewrite map_map. cbn. rewrite map_id. exact I.
  Qed.

  Lemma pid_in_zone_ok props name class st zone st' :
    says_text props "Class" class ->
    pid_in_zone ce_of props name class st zone = Ok st' ->
    exists index us names conf',
      getZoneIndex zone (r_found st) = Ok (index, r_found st') /\
      pid_names w props names /\
      r_sensors st' = apply_updates us (r_sensors st) /\
      Forall (pid_update props class) us /\ (forall n, In n names -> In n (map fst us)) /\
      r_zones st' = r_zones st /\
      r_pids st' = zset index conf' (r_pids st) /\
      ((names = [] /\ conf' = conf_at index (r_pids st)) \/
       (names <> [] /\ exists offsetType margins acceptable,
          offset_type props = Ok offsetType /\ numbers_or_none props "TempToMargin" margins /\
          pid_acceptable w props acceptable /\
          add_pid_info (s_thresholds w) props name offsetType (r_sensors st')
            (spliceInputs names margins acceptable) (conf_at index (r_pids st)) = Ok conf')).
  Proof.
    intros Cl E. unfold pid_in_zone in E.
    apply bind_ok in E. destruct E as ([index found'] & EI & E). cbv zeta beta iota in E.
    apply bind_ok in E. destruct E as (v1 & Ei & E). apply bind_ok in E. destruct E as (inputs & Ein & E).
    apply bind_ok in E. destruct E as (acceptable & Eacc & E).
    apply bind_ok in E. destruct E as (outs & Eout & E).
    apply bind_ok in E. destruct E as (af & Eaf & E). apply bind_ok in E. destruct E as (ho & Eho & E).
    apply bind_ok in E. destruct E as (i & Efi & E).
    apply bind_ok in E. destruct E as (outputs & Eo & E).
    apply bind_ok in E. destruct E as (accs & Ea & E).
    apply bind_ok in E. destruct E as (a1 & Ea1 & E).
    apply bind_ok in E. destruct E as (accNames & Ean & E).
    apply bind_ok in E. destruct E as ([sensors archived] & Ea2 & E).
    cbn [ce_of ce_flags ce_regex ce_sensors ce_thresholds] in *.
    pose proof (texts_ok _ _ _ _ Ei Ein) as Hin. apply opt_strs_ok in Eacc.
    apply opt_flag_ok in Eaf. apply opt_flag_ok in Eho.
    destruct (find_all_ok _ _ Ea) as (als & Fa & ->). destruct (finds_found _ _ Fa) as [Fa1 Fa2].
    assert (Hacc : pid_acceptable w props accNames).
    { exists acceptable, (map (map fst) als). split; [exact Eacc|]. split; [exact Fa1|].
      assert (V : Forall (fun e => snd e = value_intf) (List.concat als)).
      { apply mapM_ok in Ean. clear -Ean. induction Ean as [|[p x] b r rs H _ IH]; constructor; [|exact IH].
        unfold acceptable_name in H. cbn [fst snd] in *.
        destruct (String.eqb_spec x value_intf) as [->|]; [reflexivity|discriminate]. }
      rewrite <- map_fst_concat. split.
      { apply Forall_map. apply kinds_concat in Fa2. rewrite Forall_forall in *. intros e I.
        destruct (Fa2 e I) as [[_ X]|[X _]]; [exact X|]. rewrite (V e I) in X. vm_compute in X. discriminate. } apply mapM_ok in Ean. clear -Ean.
      induction Ean as [|[p x] b r rs H _ IH]; cbn; constructor; [|exact IH].
      unfold acceptable_name in H. cbn [fst snd] in H. destruct (String.eqb x value_intf); [|discriminate].
      injection H as <-. apply called_name. }
    destruct (pid_main _ _ _ _ _ _ _ _ _ _ _ _ _ Cl Hin Eacc Eout Eaf Eho Efi Eo Ea1 Ea2) as (us & missing & sources & short & M1 & M2 & M3 & M4 & M5 & M6).
    assert (Nm : pid_names w props archived).
    { exists class, missing, sources, short. split; [exact Cl|]. auto. }
    exists index, us, archived.
    destruct archived as [|n0 ar] eqn:Ear.
    - injection E as <-. cbn [r_found r_sensors r_zones r_pids]. eexists.
      split; [exact EI|]. split; [exact Nm|]. split; [exact M4|]. split; [exact M5|]. split; [exact M6|].
      split; [reflexivity|]. split; [reflexivity|]. left. split; reflexivity.
    - rewrite <- Ear in *. apply bind_ok in E. destruct E as (ot & Eot & E).
      apply bind_ok in E. destruct E as (margins & Em & E). apply bind_ok in E. destruct E as (conf' & Ec & E).
      injection E as <-. cbn [r_found r_sensors r_zones r_pids]. exists conf'.
      split; [exact EI|]. split; [exact Nm|]. split; [exact M4|]. split; [exact M5|]. split; [exact M6|].
      split; [reflexivity|]. split; [reflexivity|]. right. split; [rewrite Ear; discriminate|].
      exists ot, margins, accNames. split; [exact Eot|]. split; [apply opt_dbls_ok, Em|]. split; [exact Hacc|exact Ec].
  Qed.

  (** ** Stepwise controllers *)
  Section Step.
    Variables (acceptable : list string) (asFailed hostOff : bool).
    Definition step_update (taken : list string) (ls : list (list string))
        (u : string * (SensorConfig -> SensorConfig)) : Prop :=
      exists path, snd u = as_thermal "temp" path asFailed hostOff /\
        ((exists name l, In (name, l) (combine taken ls) /\ In path l) /\ called path (fst u) \/
         In (fst u) (missing_names (s_flags w) acceptable taken ls) /\ path = getSensorPath "temp" (fst u)).
    Definition taken_ok (names taken : list string) (ls : list (list (string * string))) : Prop :=
      Forall2 finds taken ls /\
      if HANDLE_MISSING_OBJECT_PATHS (s_flags w) then taken = names
      else Forall (fun l => l <> []) ls /\
        (taken = names \/ exists n rest, names = (taken ++ n :: rest)%list /\ finds n []).

    Lemma add_step_sensors_ok l : forall st,
      fold_left (add_step_sensor asFailed hostOff) l st =
      (apply_updates (map (thermal_update "temp" asFailed hostOff) (map fst l)) (fst st),
       (snd st ++ map getSensorNameFromPath (map fst l))%list).
    Proof.
      induction l as [|e r IH]; intros [s n]; cbn [fold_left map]; [cbn; rewrite app_nil_r; reflexivity|].
      rewrite IH. cbn [add_step_sensor fst snd]. rewrite <- app_assoc. reflexivity.
    Qed.
    Lemma step_update_cons n taken l ls u : step_update taken ls u -> step_update (n :: taken) (l :: ls) u.
    Proof.
      intros (path & E & H). exists path. split; [exact E|]. rewrite missing_cons. cbn [combine].
      destruct H as [[(nm & l' & I & J) C]|[I C]]; [left|right].
      - split; [|exact C]. exists nm, l'. split; [right; exact I|exact J].
      - split; [|exact C]. apply in_app_iff. right. exact I.
    Qed.
    Lemma step_inputs_ok names : forall st st',
      step_inputs (s_flags w) (s_regex w) (sensors_of (s_resp w)) acceptable asFailed hostOff names st = Ok st' ->
      exists taken lsi us nss, taken_ok names taken lsi /\
        Forall2 (step_name (s_flags w) acceptable) (combine taken (map (map fst) lsi)) nss /\
        snd st' = (snd st ++ List.concat nss)%list /\ fst st' = apply_updates us (fst st) /\
        map fst us = List.concat nss /\ Forall (step_update taken (map (map fst) lsi)) us.
    Proof.
      induction names as [|n r IH]; intros st st' E; cbn [step_inputs] in E.
      - injection E as <-. exists [], [], [], []. cbn. rewrite app_nil_r.
        repeat split; try constructor; try reflexivity.
        destruct (HANDLE_MISSING_OBJECT_PATHS (s_flags w)); [reflexivity|]. split; [constructor|left; reflexivity].
      - apply bind_ok in E. destruct E as (l & F & E). destruct l as [|e l].
        + destruct (HANDLE_MISSING_OBJECT_PATHS (s_flags w)) eqn:H; cbn [negb] in E.
          * destruct (smem n acceptable) eqn:A.
            -- destruct (IH _ _ E) as (taken & lsi & us & nss & [T1 T2] & N & S1 & S2 & S3 & S4). rewrite H in T2.
               exists (n :: taken), ([] :: lsi), us, ([] :: nss). unfold taken_ok. rewrite H. cbn [map combine List.concat].
               split; [split; [constructor; assumption|congruence]|]. split.
               { constructor; [|exact N]. unfold step_name. cbn [fst snd]. rewrite H, A. reflexivity. }
               split; [exact S1|]. split; [exact S2|]. split; [exact S3|].
               eapply Forall_impl; [|exact S4]. intros u. apply step_update_cons.
            -- destruct (IH _ _ E) as (taken & lsi & us & nss & [T1 T2] & N & S1 & S2 & S3 & S4). rewrite H in T2.
               cbn [fst snd] in S1, S2. rewrite underscored_eq in S1, S2.
               exists (n :: taken), ([] :: lsi), (missing_update "temp" asFailed hostOff (underscored n) :: us),
                 ([underscored n] :: nss). unfold taken_ok. rewrite H. cbn [map combine List.concat app].
               split; [split; [constructor; assumption|congruence]|]. split.
               { constructor; [|exact N]. unfold step_name. cbn [fst snd]. rewrite H, A. reflexivity. }
               split; [rewrite S1, <- app_assoc; reflexivity|]. split; [exact S2|].
               split; [cbn; rewrite S3; reflexivity|]. constructor.
               ++ exists (getSensorPath "temp" (underscored n)). split; [reflexivity|]. right. cbn [fst missing_update].
                  split; [|reflexivity]. rewrite missing_cons, H, A. left. reflexivity.
               ++ eapply Forall_impl; [|exact S4]. intros u. apply step_update_cons.
          * injection E as <-. exists [], [], [], []. cbn. rewrite app_nil_r.
            repeat split; try constructor; try reflexivity.
            rewrite H. split; [constructor|]. right. exists n, r. split; [reflexivity|exact F].
        + destruct (IH _ _ E) as (taken & lsi & us & nss & [T1 T2] & N & S1 & S2 & S3 & S4).
          rewrite add_step_sensors_ok in S1, S2. cbn [fst snd] in S1, S2.
          exists (n :: taken), ((e :: l) :: lsi),
            (map (thermal_update "temp" asFailed hostOff) (map fst (e :: l)) ++ us)%list,
            (map getSensorNameFromPath (map fst (e :: l)) :: nss).
          split; [split; [constructor; assumption|]|split; [|split; [|split; [|split]]]].
          * destruct (HANDLE_MISSING_OBJECT_PATHS (s_flags w)); [congruence|]. destruct T2 as [T2 T3].
            split; [constructor; [discriminate|exact T2]|]. destruct T3 as [->|(n' & rest & -> & G)]; [left; reflexivity|].
            right. exists n', rest. split; [reflexivity|exact G].
          * cbn [map combine]. constructor; [|exact N]. unfold step_name. cbn [snd].
            exact (called_names (map fst (e :: l))).
          * cbn [List.concat]. rewrite S1, <- app_assoc. reflexivity.
          * rewrite apply_updates_app. exact S2.
          * cbn [List.concat]. rewrite map_app, S3. f_equal. rewrite map_map. reflexivity.
          * apply Forall_app. split.
            -- apply Forall_map, Forall_forall. intros p I. exists p. split; [reflexivity|]. left.
               split; [|apply called_name]. exists n, (map fst (e :: l)). split; [left; reflexivity|exact I].
            -- eapply Forall_impl; [|exact S4]. intros u. apply step_update_cons.
    Qed.
    Lemma taken_up names taken lsi : taken_ok names taken lsi ->
      up_to_missing w names taken (map (map fst) lsi).
    Proof.
      intros [F T]. destruct (finds_found _ _ F) as [F1 _]. split; [exact F1|].
      destruct (HANDLE_MISSING_OBJECT_PATHS (s_flags w)); [exact T|]. destruct T as [T1 T2]. split.
      - apply Forall_map. eapply Forall_impl; [|exact T1]. intros [|x l] N; [congruence|discriminate].
      - destruct T2 as [->|(n & rest & -> & G)]; [left; reflexivity|right]. exists n, rest. split; [reflexivity|].
        apply (findSensors_found w n [] bus_ok G).
    Qed.
  End Step.

  Lemma step_acceptable_ok names : forall l,
    step_acceptable (s_flags w) (s_regex w) (sensors_of (s_resp w)) names = Ok l ->
    exists taken lsi, taken_ok names taken lsi /\ Forall2 called (List.concat (map (map fst) lsi)) l.
  Proof.
    induction names as [|n r IH]; intros l E; cbn [step_acceptable] in E.
    - injection E as <-. exists [], []. split; [|constructor]. split; [constructor|].
      destruct (HANDLE_MISSING_OBJECT_PATHS (s_flags w)); [reflexivity|]. split; [constructor|left; reflexivity].
    - apply bind_ok in E. destruct E as (f & F & E). destruct f as [|e f].
      + destruct (HANDLE_MISSING_OBJECT_PATHS (s_flags w)) eqn:H; cbn [negb] in E.
        * destruct (IH _ E) as (taken & lsi & [T1 T2] & N). rewrite H in T2. exists (n :: taken), ([] :: lsi).
          split; [|exact N]. split; [constructor; assumption|]. rewrite H. congruence.
        * injection E as <-. exists [], []. split; [|constructor]. split; [constructor|]. rewrite H.
          split; [constructor|]. right. exists n, r. split; [reflexivity|exact F].
      + apply bind_ok in E. destruct E as (r' & E1 & E). injection E as <-.
        destruct (IH _ E1) as (taken & lsi & [T1 T2] & N). exists (n :: taken), ((e :: f) :: lsi). split.
        * split; [constructor; assumption|]. destruct (HANDLE_MISSING_OBJECT_PATHS (s_flags w)); [congruence|].
          destruct T2 as [T2 T3]. split; [constructor; [discriminate|exact T2]|].
          destruct T3 as [->|(n' & rest & -> & G)]; [left; reflexivity|].
          right. exists n', rest. split; [reflexivity|exact G].
        * change (Forall2 called (map fst (e :: f) ++ List.concat (map (map fst) lsi))%list
            (map (fun s => getSensorNameFromPath (fst s)) (e :: f) ++ r')%list).
          apply Forall2_app; [|exact N].
          rewrite <- (map_map fst getSensorNameFromPath (e :: f)). apply called_names.
  Qed.

  Definition step_updated (props : properties) (u : string * (SensorConfig -> SensorConfig)) : Prop :=
    exists missing sources path af ho, step_sources w props missing sources /\
      snd u = as_thermal "temp" path af ho /\
      flag_or true props "InputUnavailableAsFailed" af /\ flag_or false props "IgnoreFailIfHostOff" ho /\
      ((exists name l, In (name, l) sources /\ In path l) /\ called path (fst u) \/
       In (fst u) missing /\ path = getSensorPath "temp" (fst u)).

  Lemma step_in_zone_ok props name st zone st' :
    step_in_zone ce_of props name st zone = Ok st' ->
    exists index us names conf',
      getZoneIndex zone (r_found st) = Ok (index, r_found st') /\
      step_names w props names /\
      r_sensors st' = apply_updates us (r_sensors st) /\
      Forall (step_updated props) us /\ (forall n, In n names -> In n (map fst us)) /\
      r_zones st' = r_zones st /\
      r_pids st' = zset index conf' (r_pids st) /\
      ((names = [] /\ conf' = conf_at index (r_pids st)) \/
       (names <> [] /\ exists margins acceptable table,
          numbers_or_none props "TempToMargin" margins /\ step_acceptable_names w props acceptable /\
          let info := info_of name (conf_at index (r_pids st)) in
          read_table props (ci_stepwiseInfo info) = Ok table /\
          conf' = mset name (MkInfo "stepwise" (spliceInputs names margins acceptable) (ci_setpoint info)
                     (ci_pidInfo info) table (ci_failSafePercent info)) (conf_at index (r_pids st)))).
  Proof.
    intros E. unfold step_in_zone in E.
    apply bind_ok in E. destruct E as ([index found'] & EI & E). cbv zeta beta iota in E.
    apply bind_ok in E. destruct E as (v1 & Ei & E). apply bind_ok in E. destruct E as (inputs & Ein & E).
    apply bind_ok in E. destruct E as (acceptable & Eacc & E).
    apply bind_ok in E. destruct E as (af & Eaf & E). apply bind_ok in E. destruct E as (ho & Eho & E).
    apply bind_ok in E. destruct E as ([sensors names] & Es & E).
    cbn [ce_of ce_flags ce_regex ce_sensors ce_thresholds] in *.
    pose proof (texts_ok _ _ _ _ Ei Ein) as Hin. apply opt_strs_ok in Eacc.
    apply opt_flag_ok in Eaf. apply opt_flag_ok in Eho.
    destruct (step_inputs_ok _ _ _ _ _ _ Es) as (taken & lsi & us & nss & T & N & S1 & S2 & S3 & S4).
    cbn [fst snd app] in S1, S2. subst names. pose proof (taken_up _ _ _ T) as U.
    set (ls := map (map fst) lsi) in *.
    assert (Src : step_sources w props (missing_names (s_flags w) acceptable taken ls) (combine taken ls)).
    { exists inputs, acceptable, taken, ls. auto. }
    assert (Nm : step_names w props (List.concat nss)).
    { exists (missing_names (s_flags w) acceptable taken ls), (combine taken ls), acceptable, nss. auto. }
    assert (Up : Forall (step_updated props) us).
    { eapply Forall_impl; [|exact S4]. intros u (path & A & B).
      exists (missing_names (s_flags w) acceptable taken ls), (combine taken ls), path, af, ho. auto. }
    exists index, us, (List.concat nss).
    assert (Ks : forall n, In n (List.concat nss) -> In n (map fst us)) by (rewrite S3; auto).
    destruct (List.concat nss) as [|n0 ar] eqn:Ear.
    - injection E as <-. cbn [r_found r_sensors r_zones r_pids]. eexists.
      split; [exact EI|]. split; [exact Nm|]. split; [exact S2|]. split; [exact Up|]. split; [exact Ks|].
      split; [reflexivity|]. split; [reflexivity|]. left. split; reflexivity.
    - rewrite <- Ear in *. apply bind_ok in E. destruct E as (an & Ean & E).
      apply bind_ok in E. destruct E as (margins & Em & E). apply bind_ok in E. destruct E as (table & Et & E).
      injection E as <-. cbn [r_found r_sensors r_zones r_pids]. eexists.
      split; [exact EI|]. split; [exact Nm|]. split; [exact S2|]. split; [exact Up|]. split; [exact Ks|].
      split; [reflexivity|]. split; [reflexivity|]. right. split; [rewrite Ear; discriminate|].
      exists margins, an, table. split; [apply opt_dbls_ok, Em|]. split.
      + destruct (step_acceptable_ok _ _ Ean) as (tk & al & T' & C). exists acceptable, tk, (map (map fst) al).
        split; [exact Eacc|]. split; [apply taken_up, T'|exact C].
      + split; [exact Et|reflexivity].
  Qed.
End World.
