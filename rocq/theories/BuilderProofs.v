(** * Zone construction (proofs only). *)
From Coq Require Import ZArith Bool List String Lia.
From Verif Require Import Base BaseFacts Dbl DblFacts DblOrder PidModel ZoneModel LoopModel SpecZone
  ZoneFrame ZoneThermal ZoneFan ZoneProofs CacheProofs BuilderModel SpecBuilder.
Import ListNotations.
Local Open Scope string_scope.
Local Open Scope list_scope.
Local Arguments pid_process : simpl never.

Lemma foldM_prefix {A S : Type} (P : list A -> S -> Prop) (f : S -> A -> outcome S) (l : list A) :
  forall done s s',
  (forall d x t t', P d t -> In x l -> f t x = Ok t' -> P (d ++ [x]) t') ->
  P done s -> foldM f l s = Ok s' -> P (done ++ l) s'.
Proof.
  induction l as [|x r IH]; intros done s s' Hs H0 H; simpl in H.
  - injection H as <-. rewrite app_nil_r. exact H0.
  - apply bind_ok in H. destruct H as (s1 & H1 & H2).
    assert (K : P (done ++ [x]) s1) by (eapply Hs; [exact H0|left; reflexivity|exact H1]).
    specialize (IH (done ++ [x]) s1 s'). rewrite <- app_assoc in IH. apply IH; [|exact K|exact H2].
    intros d y t t' Pd I E. eapply Hs; [exact Pd|right; exact I|exact E].
Qed.

(** ** Inputs *)
Definition acc_flags (inputs : list SensorInput) (n : string) : Prop :=
  exists i, In i inputs /\ si_name i = n /\ si_missingIsAcceptable i = true.

Lemma fan_inputs_spec inputs : forall z, exists ma,
  add_fan_inputs inputs z = set_missingAcceptable ma (set_fanInputs (z_fanInputs z ++ map si_name inputs) z) /\
  forall n, In n ma <-> In n (z_missingAcceptable z) \/ acc_flags inputs n.
Proof.
  induction inputs as [|i r IH]; intros z.
  - exists (z_missingAcceptable z). split.
    + cbn. rewrite app_nil_r. destruct z; reflexivity.
    + intros n. split; [auto|]. intros [H|(i & [] & _)]. exact H.
  - cbn [add_fan_inputs fold_left map]. fold (add_fan_inputs r).
    destruct (IH (addFanInput (si_name i) (si_missingIsAcceptable i) z)) as (ma & E & M).
    exists ma. split.
    + unfold add_fan_inputs in E. rewrite E.
      unfold addFanInput. destruct (si_missingIsAcceptable i && _); cbn;
        rewrite <- app_assoc; destruct z; reflexivity.
    + intros n. rewrite M. unfold addFanInput, acc_flags. cbn [z_missingAcceptable set_fanInputs].
      destruct (si_missingIsAcceptable i) eqn:Ea; cbn [andb].
      * destruct (smem (si_name i) (z_missingAcceptable z)) eqn:Em; cbn [negb].
        -- apply smem_In in Em. split.
           ++ intros [H|(j & J & K)]; [auto|]. right. exists j. split; [right; exact J|exact K].
           ++ intros [H|(j & [<-|J] & K & L)]; [auto|left; rewrite <- K; exact Em|].
              right. exists j. auto.
        -- cbn. rewrite in_app_iff. cbn. split.
           ++ intros [[H|[H|[]]]|(j & J & K)]; [auto| |].
              ** right. exists i. auto.
              ** right. exists j. split; [right; exact J|exact K].
           ++ intros [H|(j & [<-|J] & K & L)]; [auto|left; right; left; exact K|].
              right. exists j. auto.
      * split.
        -- intros [H|(j & J & K)]; [auto|]. right. exists j. split; [right; exact J|exact K].
        -- intros [H|(j & [<-|J] & K & L)]; [auto|congruence|]. right. exists j. auto.
Qed.

Lemma thermal_inputs_spec inputs : forall z, exists ma ti,
  add_thermal_inputs inputs z = set_missingAcceptable ma (set_thermalInputs ti z) /\
  (forall n, In n ma <-> In n (z_missingAcceptable z) \/ acc_flags inputs n) /\
  (forall n, In n ti <-> In n (z_thermalInputs z) \/ In n (map si_name inputs)) /\
  (NoDup (z_thermalInputs z) -> NoDup ti).
Proof.
  induction inputs as [|i r IH]; intros z.
  - exists (z_missingAcceptable z), (z_thermalInputs z). split; [destruct z; reflexivity|].
    split; [|split; [|auto]].
    + intros n. split; [auto|]. intros [H|(i & [] & _)]. exact H.
    + intros n. cbn. tauto.
  - cbn [add_thermal_inputs fold_left map]. fold (add_thermal_inputs r).
    destruct (IH (addThermalInput (si_name i) (si_missingIsAcceptable i) z)) as (ma & ti & E & M & T & N).
    exists ma, ti. split; [|split; [|split]].
    + unfold add_thermal_inputs in E. rewrite E. unfold addThermalInput.
      destruct (smem (si_name i) (z_thermalInputs z)); destruct (si_missingIsAcceptable i && _);
        destruct z; reflexivity.
    + intros n. rewrite M. unfold addThermalInput, acc_flags.
      assert (EE : z_missingAcceptable (if smem (si_name i) (z_thermalInputs z) then z
                 else set_thermalInputs (z_thermalInputs z ++ [si_name i]) z) = z_missingAcceptable z)
        by (destruct (smem (si_name i) (z_thermalInputs z)); reflexivity).
      cbv zeta. rewrite EE.
      destruct (si_missingIsAcceptable i) eqn:Ea; cbn [andb].
      * destruct (smem (si_name i) (z_missingAcceptable z)) eqn:Em; cbn [negb].
        -- rewrite EE. apply smem_In in Em. split.
           ++ intros [H|(j & J & K)]; [auto|]. right. exists j. split; [right; exact J|exact K].
           ++ intros [H|(j & [<-|J] & K & L)]; [auto|left; rewrite <- K; exact Em|].
              right. exists j. auto.
        -- cbn. rewrite in_app_iff. cbn. split.
           ++ intros [[H|[H|[]]]|(j & J & K)]; [auto| |].
              ** right. exists i. auto.
              ** right. exists j. split; [right; exact J|exact K].
           ++ intros [H|(j & [<-|J] & K & L)]; [auto|left; right; left; exact K|].
              right. exists j. auto.
      * rewrite EE. split.
        -- intros [H|(j & J & K)]; [auto|]. right. exists j. split; [right; exact J|exact K].
        -- intros [H|(j & [<-|J] & K & L)]; [auto|congruence|]. right. exists j. auto.
    + intros n. rewrite T. unfold addThermalInput. cbn [In].
      destruct (smem (si_name i) (z_thermalInputs z)) eqn:Em.
      * assert (z_thermalInputs (if si_missingIsAcceptable i && negb (smem (si_name i) (z_missingAcceptable z))
          then set_missingAcceptable (z_missingAcceptable z ++ [si_name i]) z else z) = z_thermalInputs z) as ->
          by (destruct (si_missingIsAcceptable i && _); reflexivity).
        apply smem_In in Em. split; [tauto|]. intros [H|[<-|H]]; tauto.
      * match goal with |- context [z_thermalInputs ?w] =>
          assert (z_thermalInputs w = z_thermalInputs z ++ [si_name i]) as ->
            by (destruct (si_missingIsAcceptable i && _); reflexivity) end.
        rewrite in_app_iff. cbn. tauto.
    + intros ND. apply N. unfold addThermalInput.
      destruct (smem (si_name i) (z_thermalInputs z)) eqn:Em.
      * destruct (si_missingIsAcceptable i && _); exact ND.
      * match goal with |- NoDup (z_thermalInputs ?w) =>
          assert (z_thermalInputs w = z_thermalInputs z ++ [si_name i]) as ->
            by (destruct (si_missingIsAcceptable i && _); reflexivity) end.
        apply smem_false in Em. clear - ND Em. induction (z_thermalInputs z) as [|x l IH]; cbn.
        -- constructor; [intros []|constructor].
        -- inversion ND; subst. constructor.
           ++ rewrite in_app_iff. intros [H|[H|[]]]; [contradiction|]. apply Em. left. auto.
           ++ apply IH; [assumption|]. intro. apply Em. right. assumption.
Qed.

(** ** Percents *)
Definition maxopt (l : list dbl) : option dbl :=
  match l with [] => None | x :: r => Some (fold_left dmax r x) end.
Lemma maxopt_app l p : maxopt (l ++ [p]) = Some (match maxopt l with Some v => dmax v p | None => p end).
Proof. destruct l as [|x r]; [reflexivity|]. cbn. rewrite fold_left_app. reflexivity. Qed.
Lemma dmax_idem v p : dmax (dmax v p) p = dmax v p.
Proof.
  unfold dmax. destruct (dltb v p) eqn:E; [|rewrite E; reflexivity].
  destruct (dltb p p) eqn:E2; [reflexivity|reflexivity].
Qed.

Lemma percents_spec names p : forall z, exists m,
  addPidFailSafePercent names p z = set_sensorFailSafePercent m z /\
  forall n, mget n m = if smem n names
    then Some (match mget n (z_sensorFailSafePercent z) with Some v => dmax v p | None => p end)
    else mget n (z_sensorFailSafePercent z).
Proof.
  induction names as [|x r IH]; intros z.
  - exists (z_sensorFailSafePercent z). split; [destruct z; reflexivity|]. reflexivity.
  - unfold addPidFailSafePercent. cbn [fold_left].
    destruct (IH (addPidFailSafePercent1 p z x)) as (m & E & M). exists m. split.
    + unfold addPidFailSafePercent in E. rewrite E. destruct z; reflexivity.
    + intros n. rewrite M. unfold addPidFailSafePercent1. cbn [z_sensorFailSafePercent set_sensorFailSafePercent smem].
      rewrite mget_mset. destruct (String.eqb_spec n x) as [->|Nx].
      * destruct (smem x r); [|reflexivity]. f_equal.
        destruct (mget x (z_sensorFailSafePercent z)); [apply dmax_idem|].
        unfold dmax. destruct (dltb p p); reflexivity.
      * reflexivity.
Qed.

(** ** One PID at a time *)
Record partial (id : Z) (c : ZoneConfig) (done : PIDConf) (z : zone) : Prop := Partial {
  pt_zone : zone_of id done c z;
  pt_acc : forall n, acceptable z n <-> acceptable_in done n;
  pt_pct : forall n, mget n (z_sensorFailSafePercent z) = maxopt (percents_for done n)
}.

Lemma zone_new_partial id c :
  partial id c [] (zone_new id (zc_minThermalOutput c) (zc_failsafePercent c)
    (zc_cycleIntervalTimeMS c) (zc_updateThermalsTimeMS c) (zc_accumulateSetPoint c)).
Proof.
  constructor.
  - constructor; try reflexivity.
    + repeat split.
    + constructor.
    + constructor.
    + constructor.
    + intros n. split; [intros []|]. intros (e & [] & _).
    + intros n. split; [|intros p H; discriminate]. split; [intros []|]. intros (p & H). discriminate.
  - intros n. split; [intros []|]. intros (e & i & [] & _).
  - reflexivity.
Qed.

Lemma acceptable_in_app pids e n :
  acceptable_in (pids ++ [e]) n <->
  acceptable_in pids n \/ ((is_fan_pid e || is_thermal_pid e = true)%bool /\ acc_flags (ci_inputs (snd e)) n).
Proof.
  unfold acceptable_in, acc_flags. split.
  - intros (x & i & I & H). apply in_app_iff in I. destruct I as [I|[<-|[]]].
    + left. exists x, i. tauto.
    + right. split; [tauto|]. exists i. tauto.
  - intros [(x & i & I & H)|(B & i & H)].
    + exists x, i. rewrite in_app_iff. tauto.
    + exists e, i. rewrite in_app_iff. cbn. tauto.
Qed.

Lemma percents_for_app pids e n :
  percents_for (pids ++ [e]) n =
  percents_for pids n ++
    (if (is_fan_pid e || is_thermal_pid e) && smem n (names_of e) then [ci_failSafePercent (snd e)] else []).
Proof.
  unfold percents_for. rewrite filter_app, map_app. cbn [filter].
  destruct ((is_fan_pid e || is_thermal_pid e) && smem n (names_of e)); reflexivity.
Qed.

Lemma listed_app fam pids e n :
  listed_by fam (pids ++ [e]) n <-> listed_by fam pids n \/ (fam e = true /\ In n (names_of e)).
Proof.
  unfold listed_by. split.
  - intros (x & I & H). apply in_app_iff in I. destruct I as [I|[<-|[]]]; [left; eauto|right; tauto].
  - intros [(x & I & H)|H]; [exists x|exists e]; rewrite in_app_iff; cbn; tauto.
Qed.

Lemma pct_step pids e n p z :
  (is_fan_pid e || is_thermal_pid e = true)%bool -> p = ci_failSafePercent (snd e) ->
  (forall n, mget n (z_sensorFailSafePercent z) = maxopt (percents_for pids n)) ->
  (if smem n (names_of e)
    then Some (match mget n (z_sensorFailSafePercent z) with Some v => dmax v p | None => p end)
    else mget n (z_sensorFailSafePercent z)) = maxopt (percents_for (pids ++ [e]) n).
Proof.
  intros B -> H. rewrite percents_for_app, B. cbn [andb]. rewrite H.
  destruct (smem n (names_of e)); [rewrite maxopt_app; reflexivity|].
  rewrite app_nil_r. reflexivity.
Qed.

Lemma thermal_types (e : string * ControllerInfo) :
  is_thermal_pid e = isThermalType (ci_type (snd e)) || String.eqb (ci_type (snd e)) "stepwise".
Proof.
  unfold is_thermal_pid, isThermalType. cbn [smem].
  repeat (destruct (String.eqb _ _); [reflexivity|]). reflexivity.
Qed.
Lemma fan_not_thermal e : is_fan_pid e = true -> is_thermal_pid e = false.
Proof. unfold is_fan_pid, is_thermal_pid. intros H. apply String.eqb_eq in H. rewrite H. reflexivity. Qed.
Lemma thermalType_some s : isThermalType s = true -> exists ty, getThermalType s = Ok ty /\ kind_of s ty.
Proof.
  unfold isThermalType, getThermalType, kind_of. cbn [smem].
  destruct (String.eqb_spec s "temp") as [->|]; [exists absolute; auto|].
  destruct (String.eqb_spec s "margin") as [->|]; [exists margin; auto|].
  destruct (String.eqb_spec s "power") as [->|]; [exists absolute; auto|].
  destruct (String.eqb_spec s "powersum") as [->|]; [exists summation; auto|]. discriminate.
Qed.

Lemma objects_step pids e m n (p : ProcessObject) :
  is_thermal_pid e = true -> object_for e p ->
  (forall n, (In n (map fst (filter is_thermal_pid pids)) <-> exists p, mget n m = Some p) /\
             (forall p, mget n m = Some p ->
                exists e, In e (filter is_thermal_pid pids) /\ fst e = n /\ object_for e p)) ->
  (In n (map fst (filter is_thermal_pid (pids ++ [e]))) <-> exists q, mget n (mset (fst e) p m) = Some q) /\
  (forall q, mget n (mset (fst e) p m) = Some q ->
     exists x, In x (filter is_thermal_pid (pids ++ [e])) /\ fst x = n /\ object_for x q).
Proof.
  intros B P H. rewrite filter_app, map_app, in_app_iff. cbn [filter]. rewrite B. cbn [map In].
  destruct (H n) as [H1 H2]. rewrite mget_mset. destruct (String.eqb_spec n (fst e)) as [->|N].
  - split; [split; [eauto|auto]|]. intros q Q. injection Q as <-. exists e.
    rewrite in_app_iff. cbn. auto.
  - split; [|intros q Q; destruct (H2 q Q) as (x & X & Y); exists x; rewrite in_app_iff; auto]. rewrite <- H1. split; [|auto]. intros [X|[X|[]]]; [exact X|congruence].
Qed.

Lemma new_object name info : is_thermal_pid (name, info) = true ->
  object_for (name, info) (MkProcess true (ci_setpoint info)
    (if String.eqb (ci_type info) "temp" then "Temperature"
     else if String.eqb (ci_type info) "margin" then "Margin"
     else if String.eqb (ci_type info) "power" then "Power"
     else if String.eqb (ci_type info) "powersum" then "PowerSum" else "") "" d0 d0).
Proof.
  unfold is_thermal_pid, object_for, classes. cbn [snd smem po_enabled po_setpoint po_classType].
  intros H. split; [reflexivity|]. split; [reflexivity|].
  destruct (String.eqb_spec (ci_type info) "temp") as [->|]; [cbn; tauto|].
  destruct (String.eqb_spec (ci_type info) "margin") as [->|]; [cbn; tauto|].
  destruct (String.eqb_spec (ci_type info) "power") as [->|]; [cbn; tauto|].
  destruct (String.eqb_spec (ci_type info) "powersum") as [->|]; [cbn; tauto|].
  destruct (String.eqb_spec (ci_type info) "stepwise") as [->|]; [cbn; tauto|]. discriminate.
Qed.

Lemma add_pid_ok bus_ok id c done z e z' :
  partial id c done z -> add_pid bus_ok z e = Ok z' -> partial id c (done ++ [e]) z'.
Proof.
  intros [[Zi Zm Zp Zc Zu Za Zf Zfa Zth Zfi Zon Zti Zob Zq] Ac Pc] H.
  destruct e as [name info]. unfold add_pid in H. cbv beta iota zeta in H.
  destruct (String.eqb (ci_type info) "fan") eqn:Ef.
  { assert (Bf : is_fan_pid (name, info) = true) by exact Ef.
    assert (Bt := fan_not_thermal _ Bf).
    destruct (fan_inputs_spec (ci_inputs info) z) as (ma & E1 & M1). rewrite E1 in H.
    match type of H with Ok (addPidFailSafePercent ?a ?b ?w) = _ =>
      destruct (percents_spec a b w) as (m & E2 & M2); rewrite E2 in H end.
    injection H as <-.
    constructor.
    - constructor; cbn; try assumption.
      + rewrite filter_app. cbn [filter]. rewrite Bf. apply Forall2_app; [exact Zfa|].
        constructor; [|constructor]. unfold createFanPid, fan_for, splitNames, names_of. cbn [snd fst].
        destruct (ci_inputs info) as [|i r]; [reflexivity|]. cbn. repeat split. discriminate.
      + rewrite filter_app. cbn [filter]. rewrite Bt, app_nil_r. exact Zth.
      + rewrite filter_app. cbn [filter]. rewrite Bf, flat_map_app, Zfi. cbn. rewrite app_nil_r. reflexivity.
      + intros n. rewrite listed_app, Bt, Zti. split; [auto|]. intros [X|[X _]]; [exact X|discriminate].
      + intros n. rewrite filter_app. cbn [filter]. rewrite Bt, app_nil_r. apply Zob.
    - intros n. rewrite acceptable_in_app, Bf. unfold acceptable in *. cbn. rewrite M1, Ac. cbn. tauto.
    - intros n. cbn [z_sensorFailSafePercent set_sensorFailSafePercent]. rewrite M2.
      apply (pct_step done (name, info) n); [rewrite Bf; reflexivity|reflexivity|exact Pc]. }
  assert (Bf : is_fan_pid (name, info) = false) by exact Ef.
  assert (TH : is_thermal_pid (name, info) = true -> forall pid,
     thermal_for (name, info) pid ->
     (do _ <- register bus_ok (getPidControlPath (z_zoneId (addThermalPID pid (add_thermal_inputs (ci_inputs info) z))) name);
      Ok (addPidFailSafePercent (splitNames (ci_inputs info)) (ci_failSafePercent info)
        (addPidControlProcess name (ci_type info) (ci_setpoint info)
          (addThermalPID pid (add_thermal_inputs (ci_inputs info) z)))))%outcome = Ok z' ->
     partial id c (done ++ [(name, info)]) z').
  { intros Bt pid TF K. unfold register in K. destruct (bus_ok _); [|discriminate]. cbn [bind] in K.
    destruct (thermal_inputs_spec (ci_inputs info) z) as (ma & ti & E1 & M1 & T1 & N1). rewrite E1 in K.
    match type of K with Ok (addPidFailSafePercent ?a ?b ?w) = _ =>
      destruct (percents_spec a b w) as (m & E2 & M2); rewrite E2 in K end.
    injection K as <-.
    constructor.
    - constructor; try assumption.
      + rewrite filter_app. cbn [filter]. rewrite Bf, app_nil_r. exact Zfa.
      + rewrite filter_app. cbn [filter]. rewrite Bt. apply Forall2_app; [exact Zth|].
        constructor; [exact TF|constructor].
      + rewrite filter_app. cbn [filter]. rewrite Bf, app_nil_r. exact Zfi.
      + apply N1. exact Zon.
      + intros n. rewrite listed_app, Bt, <- Zti. cbn. rewrite T1. unfold names_of. cbn. tauto.
      + intros n. apply (objects_step done (name, info)); [exact Bt|exact (new_object name info Bt)|exact Zob].
    - intros n. rewrite acceptable_in_app, Bf, Bt. unfold acceptable in *. cbn. rewrite M1, Ac. cbn. tauto.
    - intros n. cbn [z_sensorFailSafePercent set_sensorFailSafePercent]. rewrite M2.
      apply (pct_step done (name, info) n); [rewrite Bt; apply orb_true_r|reflexivity|exact Pc]. }
  assert (TT := thermal_types (name, info)). cbn [snd] in TT.
  destruct (isThermalType (ci_type info)) eqn:Et.
  { destruct (thermalType_some _ Et) as (ty & Ety & Kty). rewrite Ety in H. cbn [bind] in H.
    unfold createThermalPid in H. destruct (ci_inputs info) as [|i r] eqn:Ei; [discriminate|].
    cbn [bind] in H. rewrite <- Ei in *. eapply TH; [exact TT| |exact H].
    split; [rewrite Ei; discriminate|]. repeat split. exact Kty. }
  destruct (String.eqb (ci_type info) "stepwise") eqn:Es.
  { unfold createStepwiseController, splitNames in H.
    destruct (ci_inputs info) as [|i r] eqn:Ei; [discriminate|]. rewrite <- Ei in *.
    assert (Em : map si_name (ci_inputs info) = si_name i :: map si_name r) by (rewrite Ei; reflexivity).
    rewrite Em in H. cbn [bind] in H. rewrite <- Em in H. eapply TH; [exact TT| |exact H].
    split; [rewrite Ei; discriminate|]. repeat split. apply String.eqb_eq. exact Es. }
  injection H as <-. cbn [orb] in TT.
  assert (Fn : filter is_thermal_pid (done ++ [(name, info)]) = filter is_thermal_pid done)
    by (rewrite filter_app; cbn [filter]; rewrite TT; apply app_nil_r).
  assert (Ff : filter is_fan_pid (done ++ [(name, info)]) = filter is_fan_pid done)
    by (rewrite filter_app; cbn [filter]; rewrite Bf; apply app_nil_r).
  constructor.
  - constructor; rewrite ?Fn, ?Ff; try assumption.
    intros n. rewrite listed_app, TT, Zti. split; [auto|]. intros [X|[X _]]; [exact X|discriminate].
  - intros n. rewrite acceptable_in_app, Bf, TT, Ac. cbn. split; [auto|]. intros [X|[X _]]; [exact X|discriminate].
  - intros n. rewrite percents_for_app, Bf, TT. cbn [orb andb]. rewrite app_nil_r. apply Pc.
Qed.

Lemma build_zone_ok bus_ok confs e r :
  build_zone bus_ok confs e = Ok r ->
  fst r = fst e /\ exists c, zget (fst e) confs = Some c /\ partial (fst e) c (snd e) (snd r).
Proof.
  destruct e as [id pids]. unfold build_zone. cbn [fst snd].
  destruct (zget id confs) as [c|]; [|discriminate]. intros H.
  apply bind_ok in H. destruct H as (u & _ & H). apply bind_ok in H. destruct H as (z & H & K).
  injection K as <-. cbn [fst snd]. split; [reflexivity|]. exists c. split; [reflexivity|].
  change pids with ([] ++ pids). eapply foldM_prefix; [|apply zone_new_partial|exact H].
  intros d x t t' P _ E. eapply add_pid_ok; eauto.
Qed.

Lemma buildZones_ok bus_ok confs zp : forall zs,
  buildZones bus_ok zp confs = Ok zs ->
  Forall2 (fun e r => fst r = fst e /\ exists c, zget (fst e) confs = Some c /\ partial (fst e) c (snd e) (snd r)) zp zs.
Proof.
  induction zp as [|e r IH]; intros zs H; cbn [buildZones] in H.
  - injection H as <-. constructor.
  - apply bind_ok in H. destruct H as (z & H1 & H). apply bind_ok in H. destruct H as (zs' & H2 & H).
    injection H as <-. constructor; [eapply build_zone_ok; eauto|auto].
Qed.

Lemma Forall2_In_r {A B : Type} (P : A -> B -> Prop) l m b :
  Forall2 P l m -> In b m -> exists a, In a l /\ P a b.
Proof.
  induction 1; intros []; [subst; eexists; split; [left; reflexivity|assumption]|].
  destruct IHForall2 as (a & I & Q); [assumption|]. exists a. split; [right; exact I|exact Q].
Qed.

Lemma built_In bus_ok confs zp zs id z :
  buildZones bus_ok zp confs = Ok zs -> In (id, z) zs ->
  exists pids c, In (id, pids) zp /\ zget id confs = Some c /\ partial id c pids z.
Proof.
  intros H I. apply buildZones_ok in H. destruct (Forall2_In_r _ _ _ _ H I) as ([i p] & J & E & c & G & P).
  cbn [fst snd] in *. subst i. eauto.
Qed.

(** ** When construction succeeds *)
Lemma add_pid_id bus_ok z e z' : add_pid bus_ok z e = Ok z' -> z_zoneId z' = z_zoneId z.
Proof.
  destruct e as [name info]. unfold add_pid. cbv beta iota zeta.
  assert (A : forall a b w, z_zoneId (addPidFailSafePercent a b w) = z_zoneId w).
  { intros a b w. destruct (percents_spec a b w) as (m & -> & _). reflexivity. }
  assert (T : z_zoneId (add_thermal_inputs (ci_inputs info) z) = z_zoneId z).
  { destruct (thermal_inputs_spec (ci_inputs info) z) as (ma & ti & -> & _). reflexivity. }
  destruct (String.eqb (ci_type info) "fan").
  { intros H. injection H as <-. rewrite A. destruct (fan_inputs_spec (ci_inputs info) z) as (ma & -> & _). reflexivity. }
  destruct (isThermalType (ci_type info)).
  { intros H. apply bind_ok in H. destruct H as (ty & _ & H). apply bind_ok in H. destruct H as (pid & _ & H).
    apply bind_ok in H. destruct H as (u & _ & H). injection H as <-. rewrite A. cbn. exact T. }
  destruct (String.eqb (ci_type info) "stepwise").
  { intros H. apply bind_ok in H. destruct H as (pid & _ & H).
    apply bind_ok in H. destruct H as (u & _ & H). injection H as <-. rewrite A. cbn. exact T. }
  intros H. injection H as <-. reflexivity.
Qed.

Lemma add_pid_returns bus_ok z e :
  returns (add_pid bus_ok z e) <->
  (is_thermal_pid e = true -> ci_inputs (snd e) <> [] /\ bus_ok (getPidControlPath (z_zoneId z) (fst e)) = true).
Proof.
  destruct e as [name info]. unfold returns, add_pid. cbv beta iota zeta. cbn [fst snd].
  rewrite (thermal_types (name, info)). cbn [snd].
  destruct (String.eqb_spec (ci_type info) "fan") as [->|N].
  { split; [cbn; discriminate|eauto]. }
  assert (T : z_zoneId (add_thermal_inputs (ci_inputs info) z) = z_zoneId z).
  { destruct (thermal_inputs_spec (ci_inputs info) z) as (ma & ti & -> & _). reflexivity. }
  assert (R : forall pid, z_zoneId (addThermalPID pid (add_thermal_inputs (ci_inputs info) z)) = z_zoneId z)
    by (intros; exact T).
  unfold register.
  destruct (isThermalType (ci_type info)) eqn:Et; cbn [orb].
  { destruct (thermalType_some _ Et) as (ty & -> & _). cbn [bind]. unfold createThermalPid.
    destruct (ci_inputs info) as [|i r] eqn:Ei; cbn [bind].
    { split; [intros (a & H); discriminate|]. intros H. destruct (H eq_refl) as [[] _]. reflexivity. }
    rewrite R. destruct (bus_ok _); cbn [bind].
    - split; [intros _ _; split; [discriminate|reflexivity]|eauto].
    - split; [intros (a & H); discriminate|]. intros H. destruct (H eq_refl). discriminate. }
  destruct (String.eqb (ci_type info) "stepwise") eqn:Es; cbn [orb].
  { unfold createStepwiseController, splitNames.
    destruct (ci_inputs info) as [|i r] eqn:Ei; cbn [map bind].
    { split; [intros (a & H); discriminate|]. intros H. destruct (H eq_refl) as [[] _]. reflexivity. }
    rewrite R. destruct (bus_ok _); cbn [bind].
    - split; [intros _ _; split; [discriminate|reflexivity]|eauto].
    - split; [intros (a & H); discriminate|]. intros H. destruct (H eq_refl). discriminate. }
  split; [discriminate|eauto].
Qed.

Lemma add_pids_return bus_ok pids : forall z,
  returns (foldM (add_pid bus_ok) pids z) <->
  (forall p, In p pids -> is_thermal_pid p = true ->
    ci_inputs (snd p) <> [] /\ bus_ok (getPidControlPath (z_zoneId z) (fst p)) = true).
Proof.
  induction pids as [|e r IH]; intros z.
  - split; [intros _ p []|]. intros _. eexists. reflexivity.
  - cbn [foldM]. split.
    + intros (a & H). apply bind_ok in H. destruct H as (z1 & H1 & H2).
      assert (I := add_pid_id _ _ _ _ H1).
      intros p [<-|J].
      * apply add_pid_returns. exists z1. exact H1.
      * rewrite <- I. apply (proj1 (IH z1)); [exists a; exact H2|exact J].
    + intros H. destruct (proj2 (add_pid_returns bus_ok z e)) as (z1 & H1); [apply H; left; reflexivity|].
      rewrite H1. cbn [bind]. apply IH. rewrite (add_pid_id _ _ _ _ H1). intros p J. apply H. right. exact J.
Qed.

Lemma build_zone_returns bus_ok confs e :
  returns (build_zone bus_ok confs e) <-> buildable bus_ok confs e.
Proof.
  destruct e as [id pids]. unfold returns, build_zone, buildable, register. cbn [fst snd].
  destruct (zget id confs) as [c|].
  2:{ split; [intros (a & H); discriminate|]. intros ((c & H) & _). discriminate. }
  change (zone_path id) with (getControlPath id).
  destruct (bus_ok (getControlPath id)) eqn:Eb; cbn [bind].
  2:{ split; [intros (a & H); discriminate|]. intros (_ & H & _). discriminate. }
  set (z0 := zone_new id _ _ _ _ _). assert (K := add_pids_return bus_ok pids z0). cbn in K.
  split.
  - intros (a & H). apply bind_ok in H. destruct H as (z & H & _).
    split; [eauto|]. split; [reflexivity|]. apply K. exists z. exact H.
  - intros (_ & _ & H). destruct (proj2 K H) as (z & E). rewrite E. cbn [bind]. eauto.
Qed.

Lemma buildZones_returns bus_ok confs zp :
  returns (buildZones bus_ok zp confs) <-> (forall e, In e zp -> buildable bus_ok confs e).
Proof.
  induction zp as [|e r IH]; cbn [buildZones].
  - split; [intros _ e []|]. intros _. eexists. reflexivity.
  - split.
    + intros (a & H). apply bind_ok in H. destruct H as (z & H1 & H). apply bind_ok in H. destruct H as (zs & H2 & H).
      intros x [<-|J]; [apply build_zone_returns; exists z; exact H1|]. apply IH; [exists zs; exact H2|exact J].
    + intros H. destruct (proj2 (build_zone_returns bus_ok confs e)) as (z & ->); [apply H; left; reflexivity|].
      destruct (proj2 IH) as (zs & ->); [intros x J; apply H; right; exact J|]. cbn [bind]. eexists. reflexivity.
Qed.

Lemma buildZones_defined bus_ok confs zp : defined (buildZones bus_ok zp confs).
Proof.
  assert (BD : forall A B (o : outcome A) (k : A -> outcome B), defined o -> (forall a, defined (k a)) -> defined (bind o k)).
  { intros A B o k D K m. destruct o as [a|t|t]; cbn; [apply K|discriminate|]. intro. exact (D t eq_refl). }
  assert (AP : forall z e, defined (add_pid bus_ok z e)).
  { intros z [name info]. unfold add_pid. cbv beta iota zeta.
    destruct (String.eqb (ci_type info) "fan"); [intros m; discriminate|].
    destruct (isThermalType (ci_type info)).
    { apply BD; [|intros ty; apply BD; [|intros pid; apply BD]].
      - unfold getThermalType. repeat (destruct (_ : bool); [intros m; discriminate|]). intros m; discriminate.
      - unfold createThermalPid. destruct (ci_inputs info); intros m; discriminate.
      - unfold register. destruct (bus_ok _); intros m; discriminate.
      - intros u m. discriminate. }
    destruct (String.eqb (ci_type info) "stepwise"); [|intros m; discriminate].
    apply BD; [|intros pid; apply BD].
    - unfold createStepwiseController. destruct (splitNames _); intros m; discriminate.
    - unfold register. destruct (bus_ok _); intros m; discriminate.
    - intros u m. discriminate. }
  assert (FP : forall l z, defined (foldM (add_pid bus_ok) l z)).
  { induction l as [|e r IH]; intros z; cbn [foldM]; [intros m; discriminate|]. apply BD; [apply AP|exact IH]. }
  induction zp as [|e r IH]; cbn [buildZones]; [intros m; discriminate|].
  apply BD; [|intros z; apply BD; [exact IH|intros zs m; discriminate]].
  destruct e as [id pids]. unfold build_zone. destruct (zget id confs) as [c|]; [|intros m; discriminate].
  apply BD; [unfold register; destruct (bus_ok _); intros m; discriminate|].
  intros u. apply BD; [apply FP|intros z m; discriminate].
Qed.
