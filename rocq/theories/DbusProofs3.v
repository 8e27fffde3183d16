(** * The controllers that the parts of a D-Bus configuration give. *)
From Coq Require Import ZArith Bool List String Ascii Lia.
From Verif Require Import Base BaseFacts Dbl PidModel ZoneModel BuilderModel SensorModel WriteModel SpecWrite SystemModel SpecSystem
  SpecConfig JsonModel SpecJson JsonProofs ConfigModel ConfigProofs DbusConfigModel SpecDbus DbusProofs DbusProofs2.
Import ListNotations.
Local Open Scope string_scope.

(** ** What is found is determined *)
Lemma paired_unique fans pwms p p' : paired fans pwms p -> paired fans pwms p' -> p = p'.
Proof.
  intros [(a & E & ->)|(N & _ & ->)] [(b & F & ->)|(N' & _ & ->)].
  - rewrite E in F. injection F as <-. reflexivity.
  - subst. cbn in N'. lia.
  - subst. cbn in N. lia.
  - reflexivity.
Qed.
Lemma pid_sources_unique w props m s m' s' :
  pid_sources w props m s -> pid_sources w props m' s' -> m = m' /\ s = s'.
Proof.
  intros (c & i & a & ls & C & I & A & F & _ & H) (c' & i' & a' & ls' & C' & I' & A' & F' & _ & H').
  assert (c' = c) by (eapply says_text_unique; eassumption).
  assert (i' = i) by (eapply says_texts_unique; eassumption).
  assert (a' = a) by (eapply texts_or_none_unique; eassumption). subst.
  assert (ls' = ls) by (eapply Forall2_unique; [apply found_unique|eassumption|eassumption]). subst.
  destruct H as [(-> & -> & o & os & O & Fo & P & _)|(N & -> & H)],
           H' as [(E & -> & o' & os' & O' & Fo' & P' & _)|(N' & -> & H')]; try congruence.
  - split; [reflexivity|]. assert (o' = o) by (eapply says_texts_unique; eassumption). subst.
    assert (os' = os) by (eapply Forall2_unique; [apply found_unique|eassumption|eassumption]). subst.
    eapply paired_unique; eassumption.
  - split; [reflexivity|]. destruct H as [[T ->]|[T ->]], H' as [[T' ->]|[T' ->]]; tauto.
Qed.
Lemma source_name_unique class e n n' : source_name class e n -> source_name class e n' -> n = n'.
Proof.
  unfold source_name. destruct (String.eqb class "fan"); [|apply called_unique].
  intros (a & b & A & B & ->) (a' & b' & A' & B' & ->).
  rewrite (called_unique _ _ _ A A'), (called_unique _ _ _ B B'). reflexivity.
Qed.
Lemma pid_names_unique w props l l' : pid_names w props l -> pid_names w props l' -> l = l'.
Proof.
  intros (c & m & s & sh & C & S & F & ->) (c' & m' & s' & sh' & C' & S' & F' & ->).
  assert (c' = c) by (eapply says_text_unique; eassumption). subst.
  destruct (pid_sources_unique _ _ _ _ _ _ S S') as [-> ->]. f_equal.
  eapply Forall2_unique; [apply source_name_unique|eassumption|eassumption].
Qed.
Lemma up_unique w names : forall t l t' l',
  up_to_missing w names t l -> up_to_missing w names t' l' -> t = t' /\ l = l'.
Proof.
  assert (G : forall t l l', Forall2 (found w) t l -> Forall2 (found w) t l' -> l = l')
    by (intros; eapply Forall2_unique; [apply found_unique|eassumption|eassumption]).
  intros t l t' l' [F T] [F' T']. enough (t = t') by (subst; split; [reflexivity|eapply G; eassumption]).
  destruct (HANDLE_MISSING_OBJECT_PATHS (s_flags w)); [congruence|].
  destruct T as [T1 T2], T' as [T1' T2']. revert t l t' l' F F' T1 T1' T2 T2'.
  induction names as [|a r IH]; intros t l t' l' F F' T1 T1' T2 T2'.
  - assert (X : forall t : list string, (t = [] \/ exists n rest, [] = (t ++ n :: rest)%list /\ found w n []) -> t = []).
    { intros [|x y] [X|(n & rest & X & _)]; try reflexivity; discriminate. }
    rewrite (X _ T2), (X _ T2'). reflexivity.
  - destruct t as [|b t], t' as [|b' t'].
    + reflexivity.
    + exfalso. destruct T2 as [T2|(n & rest & T2 & N)]; [discriminate|]. cbn in T2. injection T2 as <- <-.
      assert (b' = a) by (destruct T2' as [X|(? & ? & X & _)]; cbn in X; congruence). subst.
      inversion F' as [|? x ? y Fx]; subst. inversion T1'; subst.
      pose proof (found_unique _ _ _ _ N Fx). congruence.
    + exfalso. destruct T2' as [T2'|(n & rest & T2' & N)]; [discriminate|]. cbn in T2'. injection T2' as <- <-.
      assert (b = a) by (destruct T2 as [X|(? & ? & X & _)]; cbn in X; congruence). subst.
      inversion F as [|? x ? y Fx]; subst. inversion T1; subst.
      pose proof (found_unique _ _ _ _ N Fx). congruence.
    + assert (b = a) by (destruct T2 as [X|(? & ? & X & _)]; cbn in X; congruence).
      assert (b' = a) by (destruct T2' as [X|(? & ? & X & _)]; cbn in X; congruence). subst.
      destruct l as [|x l]; [inversion F|]. destruct l' as [|x' l']; [inversion F'|].
      inversion F; inversion F'; inversion T1; inversion T1'; subst. f_equal.
      apply (IH t l t' l'); try assumption.
      * destruct T2 as [X|(n & rest & X & N)]; [left; congruence|right]. exists n, rest. cbn in X.
        split; [congruence|exact N].
      * destruct T2' as [X|(n & rest & X & N)]; [left; congruence|right]. exists n, rest. cbn in X.
        split; [congruence|exact N].
Qed.
Lemma step_name_unique sf acc e n n' : step_name sf acc e n -> step_name sf acc e n' -> n = n'.
Proof.
  unfold step_name. destruct (snd e); [congruence|].
  intros F F'. eapply Forall2_unique; [apply called_unique|eassumption|eassumption].
Qed.
Lemma step_names_unique w props l l' : step_names w props l -> step_names w props l' -> l = l'.
Proof.
  intros (m & s & a & ns & (i & a1 & t & ls & I & A1 & U & -> & _) & A & F & ->)
         (m' & s' & a' & ns' & (i' & a1' & t' & ls' & I' & A1' & U' & -> & _) & A' & F' & ->).
  assert (i' = i) by (eapply says_texts_unique; eassumption). subst.
  assert (a' = a) by (eapply texts_or_none_unique; eassumption). subst.
  destruct (up_unique _ _ _ _ _ _ U U') as [-> ->].
  f_equal. eapply Forall2_unique; [apply step_name_unique|eassumption|eassumption].
Qed.

(** ** Settings *)
Lemma populate_ok tb base info th sc info' :
  populatePidInfo tb base info th sc = Ok info' ->
  pid_settings base info' /\ ci_inputs info' = ci_inputs info /\
  exists s, own_setpoint base (ci_type info') s /\
    match th with
    | None => ci_setpoint info' = s
    | Some p => exists r first c, hd_error (ci_inputs info) = Some first /\ mget (si_name first) sc = Some c /\
        offset_read tb (sc_readPath c) p r /\ ci_setpoint info' = dadd s r
    end.
Proof.
  unfold populatePidInfo. intros E.
  apply bind_ok in E. destruct E as (v & Ev & E). apply bind_ok in E. destruct E as (type & Et & E).
  apply bind_ok in E. destruct E as (s & Es & E). apply bind_ok in E. destruct E as (pc & Ep & E).
  apply bind_ok in E. destruct E as (sp & Esp & E).
  repeat match type of E with
  | bind (pid_number _ _) _ = _ =>
      let d := fresh "d" in let H := fresh "Hd" in
      apply bind_ok in E; destruct E as (d & H & E); apply pid_number_ok in H
  end.
  apply bind_ok in E. destruct E as (ch & Ech & E). apply opt_flag_ok in Ech.
  repeat match type of E with
  | bind (opt_attr _ _ _ _) _ = _ =>
      let d := fresh "d" in let H := fresh "Hd" in
      apply bind_ok in E; destruct E as (d & H & E); apply opt_number_ok in H
  end.
  injection E as <-. apply attribute_ok in Ev. apply get_str_ok in Et. subst v.
  split; [|split].
  - unfold pid_settings. cbn [ci_type ci_pidInfo ci_failSafePercent proportionalCoeff integralCoeff derivativeCoeff
      feedFwdOffset feedFwdGain integralLimit outLim slewNeg slewPos positiveHysteresis negativeHysteresis
      checkHysterWithSetpt ts lim_min lim_max].
    apply percent_ok in Ep.
    repeat match goal with |- _ /\ _ => split end; try assumption. reflexivity.
  - reflexivity.
  - exists s. cbn [ci_type ci_inputs ci_setpoint]. split.
    + unfold own_setpoint. destruct (String.eqb type "fan"); [congruence|]. apply pid_number_ok, Es.
    + destruct th as [p|]; [|congruence]. apply bind_ok in Esp. destruct Esp as (r & Er & X). injection X as <-.
      unfold threshold_reading in Er. destruct (ci_inputs info) as [|i l]; [discriminate|].
      destruct (mget (si_name i) sc) as [c|] eqn:G; [|discriminate].
      exists r, i, c. split; [reflexivity|]. split; [exact G|].
      assert (X : offset_read tb (sc_readPath c) p r).
      { unfold offset_read. cbv zeta. destruct (tb_owned tb _ (sc_readPath c)) eqn:O; [|discriminate].
        split; [reflexivity|]. cbn [negb] in Er. injection Er as <-.
        destruct (tb_value tb _ (sc_readPath c) p); reflexivity. }
      split; [exact X|reflexivity].
Qed.

Lemma fill_table_ok l old : List.length l <= 20 -> table_is l (fill_table l old).
Proof.
  intros L. unfold fill_table, maxStepwisePoints. split.
  - intros k v E. assert (K : k < List.length l) by (apply nth_error_Some; congruence).
    apply Nat.ltb_lt in K. rewrite K. apply nth_error_nth. exact E.
  - intros K. rewrite Nat.ltb_irrefl, Nat.eqb_refl. apply Nat.ltb_lt in K. rewrite K. reflexivity.
Qed.
Lemma read_table_ok props name_inputs old table sp pi pc :
  read_table props old = Ok table ->
  step_settings props (MkInfo "stepwise" name_inputs sp pi table pc).
Proof.
  unfold read_table. intros E.
  apply bind_ok in E. destruct E as (v & Ev & E). apply bind_ok in E. destruct E as (sub & Esub & E).
  apply bind_ok in E. destruct E as (pos & Epos & E). apply bind_ok in E. destruct E as (neg & Eneg & E).
  apply bind_ok in E. destruct E as (v2 & Ev2 & E). apply bind_ok in E. destruct E as (rs & Ers & E).
  destruct (Nat.ltb_spec maxStepwisePoints (List.length rs)) as [L|L]; [discriminate|].
  destruct (Nat.eqb_spec (List.length rs) 0) as [Z|Z]; [discriminate|].
  apply bind_ok in E. destruct E as (v3 & Ev3 & E). apply bind_ok in E. destruct E as (os & Eos & E).
  destruct (Nat.eqb_spec (List.length rs) (List.length os)) as [Q|Q]; [|discriminate].
  cbn [negb] in E. injection E as <-. unfold maxStepwisePoints in L.
  unfold step_settings. cbn [ci_type ci_stepwiseInfo sw_isCeiling sw_positiveHysteresis sw_negativeHysteresis
    sw_ts sw_reading sw_output].
  split; [reflexivity|]. split.
  { exists sub. split; [eapply text_ok; eassumption|]. apply String.eqb_eq. }
  split; [apply opt_number_ok, Epos|]. split; [apply opt_number_ok, Eneg|]. split; [reflexivity|].
  exists rs, os. apply get_dbls_ok in Ers. apply get_dbls_ok in Eos. subst.
  split; [apply at_key_ok, Ev2|]. split; [apply at_key_ok, Ev3|]. split; [lia|]. split; [congruence|].
  split; apply fill_table_ok; lia.
Qed.

Lemma spliced_marked names margins acceptable :
  inputs_marked names margins acceptable (spliceInputs names margins acceptable).
Proof.
  split; [apply C37_names_lemma|]. intros k i E.
  assert (N : nth_error names k = Some (si_name i)).
  { rewrite <- (C37_names_lemma names margins acceptable). apply map_nth_error. exact E. }
  destruct (C37_lemma names margins acceptable k _ N) as (i' & E' & _ & A & B).
  rewrite E in E'. injection E' as <-. auto.
Qed.

(** ** One part's effect on the controllers of its zone *)
Record conf_effect (w : setting) (number : string -> option Z) (i : Z) (p : part)
    (conf conf' : PIDConf) (sensors : smap SensorConfig) : Prop := ConfEffect {
  ce_sorted : sorted_map conf -> sorted_map conf';
  ce_other : forall n, ~ touches w number i n p -> mget n conf' = mget n conf;
  ce_touched : forall n, touches w number i n p -> exists info, mget n conf' = Some info /\
    forall before ps, (mget n conf <> None -> Exists (touches w number i n) before) ->
      (forall m c, mget m sensors = Some c -> sensor_entry w ps m c) ->
      entry_from w ps number i n info before p;
  ce_inputs : forall n info x, mget n conf' = Some info -> In x (ci_inputs info) ->
    (exists c, mget (si_name x) sensors = Some c) \/
    exists info0, mget n conf = Some info0 /\ In x (ci_inputs info0)
}.

Lemma touches_pid w number i n props zone name names :
  number zone = Some i -> says_text props "Name" name -> pid_names w props names ->
  (touches w number i n (PPid props zone) <->
   names <> [] /\ (plain props /\ n = underscored name \/ ~ plain props /\ In n names)).
Proof.
  intros Z N P. cbn [touches]. split.
  - intros (_ & name' & names' & N' & P' & Ne & H).
    rewrite (says_text_unique _ _ _ _ N N'), (pid_names_unique _ _ _ _ P P'). auto.
  - intros (Ne & H). split; [exact Z|]. exists name, names. auto.
Qed.
Lemma touches_step w number i n props zone name names :
  number zone = Some i -> says_text props "Name" name -> step_names w props names ->
  (touches w number i n (PStep props zone) <-> names <> [] /\ n = underscored name).
Proof.
  intros Z N P. cbn [touches]. split.
  - intros (_ & name' & names' & N' & P' & Ne & H).
    rewrite (says_text_unique _ _ _ _ N N'), (step_names_unique _ _ _ _ P P'). auto.
  - intros (Ne & H). split; [exact Z|]. exists name, names. auto.
Qed.

Lemma effect_none w number i p conf sensors :
  (forall n, ~ touches w number i n p) -> conf_effect w number i p conf conf sensors.
Proof.
  intros N. constructor; auto.
  - intros n T. destruct (N n T).
  - intros n info x G I. right. exists info. auto.
Qed.

(** The loop over inputs with a setpoint offset. *)
Definition offset_loop (tb : threshold_bus) (props : properties) (type : string) (sc : smap SensorConfig)
    (inputs : list SensorInput) (conf : PIDConf) : outcome PIDConf :=
  foldM (fun conf i =>
    let info := info_of (si_name i) conf in
    do info <- populatePidInfo tb props (set_inputs (ci_inputs info ++ [i])%list info) (Some type) sc;
    Ok (mset (si_name i) info conf))%outcome inputs conf.

Lemma offset_loop_ok tb props type sc inputs : forall conf conf',
  offset_loop tb props type sc inputs conf = Ok conf' ->
  (sorted_map conf -> sorted_map conf') /\
  (forall n, ~ In n (map si_name inputs) -> mget n conf' = mget n conf) /\
  (forall n, In n (map si_name inputs) -> exists info input earlier s r first c,
     mget n conf' = Some info /\ pid_settings props info /\ In input inputs /\ si_name input = n /\
     ci_inputs info = (earlier ++ [input])%list /\
     (earlier <> [] -> mget n conf <> None \/ ~ NoDup (map si_name inputs)) /\
     hd_error (ci_inputs info) = Some first /\ mget (si_name first) sc = Some c /\
     offset_read tb (sc_readPath c) type r /\ own_setpoint props (ci_type info) s /\
     ci_setpoint info = dadd s r) /\
  (forall n info x, mget n conf' = Some info -> In x (ci_inputs info) ->
     In x inputs \/ exists info0, mget n conf = Some info0 /\ In x (ci_inputs info0)).
Proof.
  induction inputs as [|i r IH]; intros conf conf' E.
  - injection E as <-. split; [auto|]. split; [auto|]. split; [intros n []|].
    intros n info x G I. right. exists info. auto.
  - unfold offset_loop in E. cbn [foldM] in E. apply bind_ok in E. destruct E as (conf1 & E1 & E).
    apply bind_ok in E1. destruct E1 as (info1 & P & E1). injection E1 as <-.
    destruct (populate_ok _ _ _ _ _ _ P) as (S1 & S2 & s & S3 & rr & first & c & S4 & S5 & S6 & S7).
    cbn [set_inputs ci_inputs] in S2, S4.
    destruct (IH _ _ E) as (A & B & C & D). clear IH E.
    assert (Back : forall x, In x (ci_inputs info1) -> In x (i :: r) \/
       exists info0, mget (si_name i) conf = Some info0 /\ In x (ci_inputs info0)).
    { intros x I. rewrite S2 in I. apply in_app_iff in I. destruct I as [I|[<-|[]]]; [|left; left; reflexivity].
      unfold info_of in I. destruct (mget (si_name i) conf) as [i0|] eqn:G; [|destruct I]. right. exists i0. auto. }
    split; [|split; [|split]].
    + intros So. apply A, sorted_mset, So.
    + intros n N. cbn [map In] in N. rewrite B by tauto. apply mget_mset_other. intros X. apply N. left. exact X.
    + intros n N. destruct (in_dec string_dec n (map si_name r)) as [J|J].
      * destruct (C n J) as (info & input & earlier & s' & r' & first' & c' & X1 & X2 & X3 & X4 & X5 & X6 & X7).
        exists info, input, earlier, s', r', first', c'. split; [exact X1|]. split; [exact X2|].
        split; [right; exact X3|]. split; [exact X4|]. split; [exact X5|]. split; [|exact X7].
        intros Y. destruct (X6 Y) as [Z|Z].
        -- rewrite mget_mset in Z. destruct (String.eqb_spec n (si_name i)) as [Q|Q]; [|left; exact Z].
           right. intros ND. cbn in ND. inversion ND as [|? ? ND1 ND2]; subst. congruence.
        -- right. intros ND. apply Z. cbn in ND. inversion ND; assumption.
      * cbn in N. destruct N as [N|N]; [|contradiction]. subst n.
        exists info1, i, (ci_inputs (info_of (si_name i) conf)), s, rr, first, c.
        split; [rewrite B by exact J; apply mget_mset_same|]. split; [exact S1|]. split; [left; reflexivity|].
        split; [reflexivity|]. split; [exact S2|]. split.
        { intros Y. left. unfold info_of in Y. destruct (mget (si_name i) conf); [discriminate|]. intros _. apply Y. reflexivity. }
        rewrite S2. split; [exact S4|]. split; [exact S5|]. split; [exact S6|]. split; [exact S3|exact S7].
    + intros n info x G I. destruct (D _ _ _ G I) as [H|(info0 & H1 & H2)]; [left; right; exact H|].
      rewrite mget_mset in H1. destruct (String.eqb_spec n (si_name i)) as [Q|Q]; [|right; exists info0; auto].
      injection H1 as <-. subst n. apply Back, H2.
Qed.

Lemma pid_effect w number i props zone name names ot margins acceptable sensors conf conf' :
  number zone = Some i -> says_text props "Name" name -> pid_names w props names -> names <> [] ->
  offset_type props = Ok ot -> numbers_or_none props "TempToMargin" margins ->
  pid_acceptable w props acceptable -> (forall n, In n names -> exists c, mget n sensors = Some c) ->
  add_pid_info (s_thresholds w) props (sensorNameToDbusName name) ot sensors
    (spliceInputs names margins acceptable) conf = Ok conf' ->
  conf_effect w number i (PPid props zone) conf conf' sensors.
Proof.
  intros Z N P Ne O M Acc K E. set (l := spliceInputs names margins acceptable) in *.
  assert (Ml : inputs_marked names margins acceptable l) by apply spliced_marked.
  assert (Kl : forall x, In x l -> exists c, mget (si_name x) sensors = Some c).
  { intros x I. apply K. destruct Ml as [Ml _]. rewrite <- Ml. apply in_map, I. }
  unfold add_pid_info in E. rewrite underscored_eq in E.
  destruct (String.eqb_spec ot "") as [->|No].
  - assert (Pl : plain props).
    { unfold plain. unfold offset_type in O. destruct (mget "SetPointOffset" props) as [v|]; [|reflexivity].
      apply bind_ok in O. destruct O as (t & _ & O). destruct (smem t threshold_types) eqn:T; [|discriminate].
      injection O as ->. discriminate. }
    assert (T : forall n, touches w number i n (PPid props zone) <-> n = underscored name).
    { intros n. rewrite (touches_pid w number i n props zone name names Z N P). tauto. }
    apply bind_ok in E. destruct E as (info & Pp & E). injection E as <-.
    destruct (populate_ok _ _ _ _ _ _ Pp) as (S1 & S2 & s & S3 & S4). cbn [set_inputs ci_inputs] in S2.
    constructor.
    + apply sorted_mset.
    + intros n X. apply mget_mset_other. intros Y. apply X, T. congruence.
    + intros n X. apply T in X. subst n. exists info. split; [apply mget_mset_same|]. intros before ps _ _.
      cbn [entry_from]. split; [exact Z|]. split; [exact S1|]. exists name, names, margins, acceptable, l.
      split; [exact N|]. split; [exact P|]. split; [exact Ne|]. split; [exact M|]. split; [exact Acc|]. split; [exact Ml|].
      rewrite Pl. split; [reflexivity|]. split; [exact S2|]. rewrite S4. exact S3.
    + intros n info0 x G I. rewrite mget_mset in G. destruct (String.eqb n (underscored name)).
      * injection G as <-. left. rewrite S2 in I. apply Kl, I.
      * right. exists info0. auto.
  - assert (Off : exists v, mget "SetPointOffset" props = Some v /\ v = VStr ot /\ In ot threshold_types).
    { unfold offset_type in O. destruct (mget "SetPointOffset" props) as [v|]; [|congruence].
      apply bind_ok in O. destruct O as (t & T1 & O). destruct (smem t threshold_types) eqn:T; [|discriminate].
      injection O as ->. exists v. split; [reflexivity|]. split; [apply get_str_ok, T1|apply smem_In, T]. }
    destruct Off as (v & Ov & -> & Ot).
    assert (T : forall n, touches w number i n (PPid props zone) <-> In n names).
    { intros n. rewrite (touches_pid w number i n props zone name names Z N P). unfold plain. rewrite Ov.
      split; [intros (_ & [[X _]|[_ X]]); [discriminate|exact X]|]. intros X. split; [exact Ne|]. right.
      split; [discriminate|exact X]. }
    change (offset_loop (s_thresholds w) props ot sensors l conf = Ok conf') in E.
    destruct (offset_loop_ok _ _ _ _ _ _ _ E) as (A & B & C & D).
    assert (Nl : map si_name l = names) by (apply Ml). rewrite Nl in B, C.
    constructor.
    + exact A.
    + intros n X. apply B. intros Y. apply X, T, Y.
    + intros n X. apply T in X.
      destruct (C n X) as (info & input & earlier & s & r & first & c & X1 & X2 & X3 & X4 & X5 & X6 & X7 & X8 & X9 & X10 & X11).
      exists info. split; [exact X1|]. intros before ps Hb Hs. cbn [entry_from]. split; [exact Z|].
      split; [exact X2|]. exists name, names, margins, acceptable, l.
      split; [exact N|]. split; [exact P|]. split; [exact Ne|]. split; [exact M|]. split; [exact Acc|]. split; [exact Ml|].
      rewrite Ov. exists ot, s, r, first, c, input, earlier. split; [reflexivity|]. split; [exact Ot|].
      split; [exact X3|]. split; [exact X4|]. split; [exact X5|]. split.
      { intros Y. destruct (X6 Y) as [Q|Q]; [left; apply Hb, Q|right; exact Q]. }
      split; [exact X7|]. split; [apply Hs, X8|]. auto.
    + intros n info x G I. destruct (D _ _ _ G I) as [H|H]; [left; apply Kl, H|right; exact H].
Qed.

Lemma step_effect w number i props zone name names margins acceptable table sensors conf :
  number zone = Some i -> says_text props "Name" name -> step_names w props names -> names <> [] ->
  numbers_or_none props "TempToMargin" margins -> step_acceptable_names w props acceptable ->
  (forall n, In n names -> exists c, mget n sensors = Some c) ->
  let info := info_of (sensorNameToDbusName name) conf in
  read_table props (ci_stepwiseInfo info) = Ok table ->
  conf_effect w number i (PStep props zone) conf
    (mset (sensorNameToDbusName name) (MkInfo "stepwise" (spliceInputs names margins acceptable) (ci_setpoint info)
       (ci_pidInfo info) table (ci_failSafePercent info)) conf) sensors.
Proof.
  intros Z N P Ne M Acc K info E. subst info. rewrite underscored_eq in *.
  assert (Ml := spliced_marked names margins acceptable).
  set (l := spliceInputs names margins acceptable) in *.
  assert (T : forall n, touches w number i n (PStep props zone) <-> n = underscored name).
  { intros n. rewrite (touches_step w number i n props zone name names Z N P). tauto. }
  constructor.
  - apply sorted_mset.
  - intros n X. apply mget_mset_other. intros Y. apply X, T. congruence.
  - intros n X. apply T in X. subst n. eexists. split; [apply mget_mset_same|]. intros before ps Hb _.
    cbn [entry_from]. split; [exact Z|]. split; [eapply read_table_ok, E|]. split; [exists name; auto|]. split.
    + cbn [ci_failSafePercent]. unfold info_of. destruct (mget (underscored name) conf) as [i0|] eqn:G.
      * right. apply Hb. discriminate.
      * left. reflexivity.
    + exists names, margins, acceptable. auto.
  - intros n info0 x G I. rewrite mget_mset in G. destruct (String.eqb n (underscored name)).
    + injection G as <-. left. cbn [ci_inputs] in I. apply K. destruct Ml as [Ml _]. rewrite <- Ml. apply in_map, I.
    + right. exists info0. auto.
Qed.
