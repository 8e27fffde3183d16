(** * Proofs about the objects on the bus and the messages (C73-C78). *)
From Coq Require Import ZArith Bool List String Ascii Lia FinFun.
From Verif Require Import Base BaseFacts Dbl DblFacts DblOrder PidModel ZoneModel LoopModel BuilderModel
  SpecZone SpecBuilder SpecObserve ZoneFrame ZoneThermal ZoneFan ZoneProofs LoopProofs BuilderProofs.
Import ListNotations.
Local Open Scope string_scope.
Local Open Scope list_scope.
Local Arguments pid_process : simpl never.
Local Arguments stepwise_process : simpl never.

(** ** C73: object paths *)

Lemma zone_path_inj i j : zone_path i = zone_path j -> i = j.
Proof. unfold zone_path. intros E. apply append_inj in E. apply to_string_inj. exact E. Qed.

Lemma append_assoc_s a b c : ((a ++ b) ++ c = a ++ (b ++ c))%string.
Proof. induction a; cbn; congruence. Qed.

Lemma pid_path_eq i n : pid_path i n =
  ("/xyz/openbmc_project/settings/fanctrl/zone" ++ (to_string i ++ String "/"%char n))%string.
Proof. unfold pid_path, zone_path. rewrite append_assoc_s. reflexivity. Qed.

Lemma pid_path_inj i j n m : pid_path i n = pid_path j m -> i = j /\ n = m.
Proof.
  rewrite !pid_path_eq. intros E. apply append_inj in E.
  apply split_inj in E; [|apply to_string_no_slash|apply to_string_no_slash].
  destruct E as [E ->]. apply to_string_inj in E. auto.
Qed.

Lemma zone_path_pid i j n : zone_path i <> pid_path j n.
Proof.
  rewrite pid_path_eq. unfold zone_path. intros E. apply append_inj in E.
  eapply split_none in E; [exact E|]. apply to_string_no_slash.
Qed.

Lemma NoDup_map_filter {A B : Type} (g : A -> B) (p : A -> bool) l : NoDup (map g l) -> NoDup (map g (filter p l)).
Proof.
  induction l as [|a r IH]; cbn; intros H; [constructor|]. inversion H as [|x y N H']; subst.
  destruct (p a); [|auto]. cbn. constructor; [|auto].
  intros I. apply N. apply in_map_iff in I. destruct I as (b & E & I). apply filter_In in I.
  apply in_map_iff. exists b. tauto.
Qed.

Lemma object_path_of e p : In p (object_paths e) <->
  p = zone_path (fst e) \/ exists q, In q (snd e) /\ is_thermal_pid q = true /\ p = pid_path (fst e) (fst q).
Proof.
  unfold object_paths. cbn [In]. split.
  - intros [<-|I]; [auto|]. apply in_map_iff in I. destruct I as (q & <- & I). apply filter_In in I.
    right. exists q. tauto.
  - intros [->|(q & I & T & ->)]; [auto|]. right. apply in_map_iff. exists q. split; [reflexivity|].
    apply filter_In. auto.
Qed.

Lemma object_paths_zone e e' p : In p (object_paths e) -> In p (object_paths e') -> fst e = fst e'.
Proof.
  rewrite !object_path_of. intros [->|(q & _ & _ & ->)] [E|(q' & _ & _ & E)].
  - apply zone_path_inj. exact E.
  - exfalso. eapply zone_path_pid. exact E.
  - exfalso. eapply zone_path_pid. symmetry. exact E.
  - apply pid_path_inj in E. tauto.
Qed.

Lemma object_paths_nodup e : NoDup (map fst (snd e)) -> NoDup (object_paths e).
Proof.
  intros H. unfold object_paths. constructor.
  - intros I. apply in_map_iff in I. destruct I as (q & E & _). symmetry in E. eapply zone_path_pid. exact E.
  - rewrite <- (map_map fst (pid_path (fst e))). apply Injective_map_NoDup.
    + intros a b E. apply pid_path_inj in E. tauto.
    + apply NoDup_map_filter. exact H.
Qed.

Lemma NoDup_app_intro {A : Type} (a b : list A) :
  NoDup a -> NoDup b -> (forall x, In x a -> In x b -> False) -> NoDup (a ++ b).
Proof.
  induction a as [|x a IH]; cbn; intros Ha Hb D; [exact Hb|]. inversion Ha; subst. constructor.
  - intros I. apply in_app_or in I. destruct I as [I|I]; [auto|]. eapply D; [left; reflexivity|exact I].
  - apply IH; auto. intros y I J. eapply D; [right; exact I|exact J].
Qed.

Lemma C73_distinct_lemma (zp : list (Z * PIDConf)) :
  NoDup (map fst zp) -> (forall e, In e zp -> NoDup (map fst (snd e))) ->
  NoDup (flat_map object_paths zp).
Proof.
  induction zp as [|e r IH]; intros H K; [constructor|]. cbn [map flat_map] in *. inversion H as [|x y N H']; subst.
  apply NoDup_app_intro.
  - apply object_paths_nodup. apply K. left. reflexivity.
  - apply IH; [exact H'|]. intros e' I. apply K. right. exact I.
  - intros p I J. apply in_flat_map in J. destruct J as (e' & J & J').
    assert (E := object_paths_zone _ _ _ I J'). apply N. rewrite E. apply in_map. exact J.
Qed.

Lemma add_pid_ext b1 b2 z e :
  (is_thermal_pid e = true -> b1 (pid_path (z_zoneId z) (fst e)) = b2 (pid_path (z_zoneId z) (fst e))) ->
  add_pid b1 z e = add_pid b2 z e.
Proof.
  destruct e as [name info]. intros H. cbn [fst] in H.
  assert (T := thermal_types (name, info)). cbn [snd] in T.
  assert (I : z_zoneId (add_thermal_inputs (ci_inputs info) z) = z_zoneId z).
  { destruct (thermal_inputs_spec (ci_inputs info) z) as (ma & ti & -> & _). reflexivity. }
  unfold add_pid. destruct (String.eqb (ci_type info) "fan"); [reflexivity|].
  assert (R : forall pid, is_thermal_pid (name, info) = true ->
    register b1 (getPidControlPath (z_zoneId (addThermalPID pid (add_thermal_inputs (ci_inputs info) z))) name)
    = register b2 (getPidControlPath (z_zoneId (addThermalPID pid (add_thermal_inputs (ci_inputs info) z))) name)).
  { intros pid J. unfold register.
    change (z_zoneId (addThermalPID pid (add_thermal_inputs (ci_inputs info) z)))
      with (z_zoneId (add_thermal_inputs (ci_inputs info) z)). rewrite I.
    change (getPidControlPath (z_zoneId z) name) with (pid_path (z_zoneId z) name). rewrite (H J). reflexivity. }
  destruct (isThermalType (ci_type info)) eqn:E1.
  { destruct (getThermalType (ci_type info)); cbn [bind]; try reflexivity.
    destruct (createThermalPid _ _ _ _ _); cbn [bind]; try reflexivity.
    rewrite R; [reflexivity|]. rewrite T. reflexivity. }
  destruct (String.eqb (ci_type info) "stepwise") eqn:E2; [|reflexivity].
  destruct (createStepwiseController _ _ _); cbn [bind]; try reflexivity.
  rewrite R; [reflexivity|]. rewrite T. reflexivity.
Qed.

Lemma add_pids_ext b1 b2 pids : forall z,
  (forall q, In q pids -> is_thermal_pid q = true ->
     b1 (pid_path (z_zoneId z) (fst q)) = b2 (pid_path (z_zoneId z) (fst q))) ->
  foldM (add_pid b1) pids z = foldM (add_pid b2) pids z.
Proof.
  induction pids as [|e r IH]; intros z H; [reflexivity|]. cbn [foldM].
  rewrite (add_pid_ext b1 b2 z e) by (intros T; apply H; [left; reflexivity|exact T]).
  destruct (add_pid b2 z e) as [z1| |] eqn:E; cbn [bind]; try reflexivity.
  apply IH. rewrite (add_pid_id _ _ _ _ E). intros q I. apply H. right. exact I.
Qed.

Lemma build_zone_ext b1 b2 confs e :
  (forall p, In p (object_paths e) -> b1 p = b2 p) -> build_zone b1 confs e = build_zone b2 confs e.
Proof.
  destruct e as [id pids]. intros H. unfold build_zone, register.
  destruct (zget id confs) as [c|]; [|reflexivity].
  change (getControlPath id) with (zone_path id).
  rewrite (H (zone_path id)) by (apply object_path_of; left; reflexivity).
  destruct (b2 (zone_path id)); cbn [bind]; [|reflexivity].
  rewrite (add_pids_ext b1 b2); [reflexivity|].
  intros q I T. apply H. apply object_path_of. right. exists q. auto.
Qed.

Lemma C73_ext_lemma b1 b2 confs zp :
  (forall p, In p (flat_map object_paths zp) -> b1 p = b2 p) ->
  buildZones b1 zp confs = buildZones b2 zp confs.
Proof.
  induction zp as [|e r IH]; intros H; [reflexivity|]. cbn [buildZones flat_map] in *.
  rewrite (build_zone_ext b1 b2) by (intros p I; apply H; apply in_or_app; auto).
  rewrite IH by (intros p I; apply H; apply in_or_app; auto). reflexivity.
Qed.

Lemma C73_needed_lemma bus_ok confs zp p :
  In p (flat_map object_paths zp) -> bus_ok p = false -> ~ returns (buildZones bus_ok zp confs).
Proof.
  intros I N R. assert (B := proj1 (buildZones_returns bus_ok confs zp) R).
  apply in_flat_map in I. destruct I as (e & I & J). destruct (B e I) as (_ & B1 & B2).
  apply object_path_of in J. destruct J as [->|(q & Iq & T & ->)]; [congruence|].
  destruct (B2 q Iq T). congruence.
Qed.
