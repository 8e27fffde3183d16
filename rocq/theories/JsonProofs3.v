(** * JSON documents that are always answered. *)
From Coq Require Import ZArith Bool List String Lia.
From Verif Require Import Base BaseFacts Dbl PidModel ZoneModel BuilderModel ConfigModel SensorModel
  JsonModel SpecJson JsonProofs JsonProofs2.
Import ListNotations.
Local Open Scope string_scope.

Definition noub {A} (o : outcome A) : Prop := forall m, o <> UB m.
Lemma noub_ok {A} (x : A) : noub (Ok x).
Proof. intros m E. discriminate. Qed.
Lemma noub_throw {A} e : noub (@Throw A e).
Proof. intros m E. discriminate. Qed.
Lemma noub_bind {A B} (o : outcome A) (f : A -> outcome B) :
  noub o -> (forall x, o = Ok x -> noub (f x)) -> noub (bind o f).
Proof.
  intros H1 H2 m. destruct o as [x|e|e]; cbn; [apply H2; reflexivity|discriminate|].
  intros E. injection E as ->. apply (H1 m). reflexivity.
Qed.
Lemma noub_foldM {S A} (f : S -> A -> outcome S) (P : A -> Prop) :
  (forall s x, P x -> noub (f s x)) -> forall l s, Forall P l -> noub (foldM f l s).
Proof.
  intros H. induction l as [|x r IH]; intros s F; cbn; [apply noub_ok|].
  inversion F; subst. apply noub_bind; [apply H; assumption|]. intros y _. apply IH. assumption.
Qed.
Lemma noub_mapM {A B} (f : A -> outcome B) l : (forall x, noub (f x)) -> noub (mapM f l).
Proof.
  intros H. induction l as [|x r IH]; cbn; [apply noub_ok|].
  apply noub_bind; [apply H|]. intros y _. apply noub_bind; [exact IH|]. intros ys _. apply noub_ok.
Qed.

Lemma noub_string j : noub (json_to_string j).
Proof. destruct j; cbn; intros ? E; discriminate. Qed.
Lemma noub_bool j : noub (json_to_bool j).
Proof. destruct j; cbn; intros ? E; discriminate. Qed.
Lemma noub_double j : noub (json_to_double j).
Proof. destruct j; cbn; intros ? E; discriminate. Qed.
Lemma noub_vector {A} (f : json -> outcome A) j : (forall x, noub (f x)) -> noub (json_to_vector f j).
Proof. intros H. destruct j; cbn; try apply noub_throw. apply noub_mapM. exact H. Qed.
Lemma noub_int64 j : not_huge fits_int64 j -> noub (json_to_int64 j).
Proof.
  intros H. destruct j; cbn [json_to_int64]; try apply noub_throw; try apply noub_ok.
  specialize (H I). apply isok_int64 in H. destruct H as (x & E). cbn [json_to_int64] in E. rewrite E. apply noub_ok.
Qed.
Lemma noub_uint64 j : not_huge fits_uint64 j -> noub (json_to_uint64 j).
Proof.
  intros H. destruct j; cbn [json_to_uint64]; try apply noub_throw; try apply noub_ok.
  specialize (H I). apply isok_uint64 in H. destruct H as (x & E). cbn [json_to_uint64] in E. rewrite E. apply noub_ok.
Qed.
Lemma noub_int j : not_huge fits_int32 j -> noub (json_to_int j).
Proof.
  intros H. destruct j; cbn [json_to_int]; try apply noub_throw; try apply noub_ok.
  specialize (H I). apply isok_int in H. destruct H as (x & E). cbn [json_to_int] in E. rewrite E. apply noub_ok.
Qed.
Lemma noub_jat key j : noub (jat key j).
Proof. destruct j; cbn; try apply noub_throw. destruct (mget key m); [apply noub_ok|apply noub_throw]. Qed.
Lemma noub_at_to {A} (f : json -> outcome A) key j : (forall x, noub (f x)) -> noub (at_to f key j).
Proof. intros H. apply noub_bind; [apply noub_jat|intros x _; apply H]. Qed.
Lemma noub_get_or {A} (f : json -> outcome A) d o : (forall x, noub (f x)) -> noub (get_or f d o).
Proof. intros H. destruct o; cbn; [apply H|apply noub_ok]. Qed.
Lemma noub_get_may {A} (f : json -> outcome A) (P : json -> Prop) d key j :
  may_have key P j -> (forall x, P x -> noub (f x)) -> noub (get_or f d (jfind key j)).
Proof.
  intros M H. rewrite jfind_value. destruct (value_at key j) as [v|] eqn:E; cbn; [apply H, M, E|apply noub_ok].
Qed.
Lemma noub_index key j : (is_object j -> value_at key j <> None) -> noub (jindex key j).
Proof.
  intros H. destruct j; cbn; try apply noub_throw. assert (O : is_object (JObj m)) by (exists m; reflexivity).
  specialize (H O). cbn in H. destruct (mget key m); [apply noub_ok|contradiction].
Qed.
Lemma index_ok key j v : jindex key j = Ok v -> value_at key j = Some v.
Proof. destruct j; cbn; try discriminate. destruct (mget key m); congruence. Qed.

Lemma noub_points key j : noub (from_json_points key j).
Proof.
  unfold from_json_points. destruct (jfind key j); [|apply noub_ok].
  apply noub_mapM. intros i. apply noub_get_or. exact noub_double.
Qed.
Ltac nb := apply noub_bind; [|intros ? ?].
Lemma noub_pid j a b c d : noub (from_json_pid j a b c d).
Proof. unfold from_json_pid. repeat (nb; [apply noub_at_to; exact noub_double|]). apply noub_ok. Qed.
Lemma noub_stepwise j a b : noub (from_json_stepwise j a b).
Proof.
  unfold from_json_stepwise. nb; [apply noub_at_to; exact noub_double|].
  nb; [apply noub_at_to; exact noub_bool|]. nb; [apply noub_points|]. nb; [apply noub_points|]. apply noub_ok.
Qed.
Lemma noub_controller j : may_have "FailSafePercent" (not_huge fits_int32) j -> noub (from_json_ControllerInfo j).
Proof.
  intros H. unfold from_json_ControllerInfo.
  nb; [apply noub_at_to; exact noub_string|].
  nb; [apply noub_at_to; intros v; apply noub_vector; exact noub_string|].
  nb; [apply noub_at_to; exact noub_double|].
  nb; [apply noub_get_or; intros v; apply noub_vector; exact noub_double|].
  nb; [apply noub_get_or; intros v; apply noub_vector; exact noub_string|].
  cbv zeta. nb; [apply noub_jat|].
  nb; [apply noub_get_or; exact noub_bool|].
  nb; [apply noub_get_or; exact noub_double|].
  nb; [apply noub_get_or; exact noub_double|].
  nb; [apply noub_get_or; exact noub_double|].
  nb; [eapply noub_get_may; [exact H|exact noub_int]|].
  destruct (negb _).
  - nb; [apply noub_pid|apply noub_ok].
  - nb; [apply noub_stepwise|apply noub_ok].
Qed.
Lemma controller_object j i : from_json_ControllerInfo j = Ok i -> is_object j.
Proof. destruct j; cbn; try discriminate. intros _. eexists. reflexivity. Qed.

Lemma noub_read_pid m j : tame_pid j -> noub (read_pid m j).
Proof.
  intros T. unfold read_pid. nb; [apply noub_index; intros O; apply T, O|].
  assert (O : is_object j). { destruct j; try discriminate. eexists. reflexivity. }
  nb; [apply noub_controller, T, O|]. nb; [apply noub_string|apply noub_ok].
Qed.

Lemma noub_time j key d : may_have key (not_huge fits_uint64) j -> noub (read_cycle_time j key d).
Proof.
  intros H. unfold read_cycle_time, getCycleTimeSetting_json.
  destruct j; try apply noub_ok. 
  destruct (mget key m) as [v|] eqn:E; [|apply noub_ok].
  nb; [apply noub_uint64, H, E|]. destruct (1 <=? x)%Z; apply noub_ok.
Qed.
Lemma noub_read_zone c j : tame_zone j -> has "pids" (fun p => entries p <> []) j -> noub (read_zone c j).
Proof.
  intros T (p & Ep & _). unfold read_zone.
  nb. { apply noub_index. intros O. destruct (T O) as ((v & E & _) & _). congruence. }
  match goal with H : jindex "id" j = Ok ?v |- _ => rename v into vid, H into Hid end.
  assert (O : is_object j). { destruct j; try discriminate. eexists. reflexivity. }
  destruct (T O) as ((v & E & Nh) & T2 & T3 & T4 & T5 & T6).
  pose proof (index_ok _ _ _ Hid) as Ei. rewrite E in Ei. injection Ei as ->.
  nb; [apply noub_int64; exact Nh|].
  nb; [apply noub_index; intros _; exact T2|]. nb; [apply noub_double|].
  nb; [apply noub_index; intros _; exact T3|]. nb; [apply noub_double|].
  nb; [apply noub_time; exact T4|]. nb; [apply noub_time; exact T5|].
  nb; [apply noub_get_or; exact noub_bool|].
  rewrite (index_value _ _ _ Ep). cbn [bind].
  nb; [apply (noub_foldM _ tame_pid); [intros; apply noub_read_pid; assumption|exact (T6 p Ep)]|].
  apply noub_ok.
Qed.

Lemma noub_limit type key j : may_have key (not_huge fits_int64) j -> noub (fan_limit type key j).
Proof.
  intros H. unfold fan_limit. rewrite jfind_value. destruct (value_at key j) as [v|] eqn:E; [|apply noub_ok].
  destruct (String.eqb type "fan"); [apply noub_int64, H, E|apply noub_ok].
Qed.
Lemma noub_read_sensor m j : tame_sensor j -> noub (read_sensor m j).
Proof.
  intros T. unfold read_sensor.
  nb.
  - unfold from_json_SensorConfig.
    nb; [apply noub_at_to; exact noub_string|].
    assert (O : is_object j). { destruct j; try discriminate. eexists. reflexivity. }
    destruct (T O) as (T1 & T2 & T3 & T4).
    nb; [apply noub_at_to; exact noub_string|].
    nb; [apply noub_get_or; exact noub_string|].
    nb; [apply noub_get_or; exact noub_bool|].
    nb; [apply noub_get_or; exact noub_bool|].
    nb; [apply noub_get_or; exact noub_bool|].
    nb; [apply noub_limit; exact T2|]. nb; [apply noub_limit; exact T3|].
    nb; [eapply noub_get_may; [exact T4|exact noub_int64]|]. apply noub_ok.
  - nb; [apply noub_index; intros O; apply T, O|]. nb; [apply noub_string|apply noub_ok].
Qed.

Lemma noub_validate_zone u j : noub (validate_zone u j).
Proof.
  unfold validate_zone, jcount. rewrite jfind_value. destruct (value_at "pids" j) as [p|] eqn:E; cbn [Nat.eqb negb]; [|apply noub_throw].
  rewrite (index_value _ _ _ E). cbn [bind]. destruct (Nat.eqb (jsize p) 0); [apply noub_throw|apply noub_ok].
Qed.

Theorem C67_lemma j : tame_document j -> forall m, load_json j <> UB m.
Proof.
  intros [T1 T2]. change (noub (load_json j)). unfold load_json.
  nb.
  - unfold validateJson, jcount. rewrite !jfind_value.
    destruct (value_at "sensors" j) as [s|] eqn:Es; cbn [Nat.eqb negb]; [|apply noub_throw].
    rewrite (index_value _ _ _ Es). cbn [bind]. destruct (Nat.eqb (jsize s) 0); [apply noub_throw|].
    rewrite jfind_value. destruct (value_at "zones" j) as [z|] eqn:Ez; cbn [Nat.eqb negb]; [|apply noub_throw].
    rewrite (index_value _ _ _ Ez). cbn [bind].
    apply (noub_foldM _ (fun _ => True)); [intros; apply noub_validate_zone|].
    apply Forall_forall. auto.
  - match goal with H : validateJson j = Ok _ |- _ => rename H into V end.
    unfold validateJson, jcount in V. rewrite !jfind_value in V.
    destruct (value_at "sensors" j) as [s|] eqn:Es; cbn [Nat.eqb negb] in V; [|discriminate].
    rewrite (index_value _ _ _ Es) in V. cbn [bind] in V. destruct (Nat.eqb (jsize s) 0); [discriminate|].
    rewrite jfind_value in V. destruct (value_at "zones" j) as [z|] eqn:Ez; cbn [Nat.eqb negb] in V; [|discriminate].
    rewrite (index_value _ _ _ Ez) in V. cbn [bind] in V.
    assert (F : Forall (has "pids" (fun p => entries p <> [])) (entries z)).
    { apply (isok_foldM validate_zone) with (s := tt); [intros; apply isok_validate_zone|]. eexists. exact V. }
    nb.
    + unfold buildSensorsFromJson. rewrite (index_value _ _ _ Es). cbn [bind].
      apply (noub_foldM _ tame_sensor); [intros; apply noub_read_sensor; assumption|]. exact (T1 s Es).
    + nb; [|apply noub_ok]. unfold buildPIDsFromJson. rewrite (index_value _ _ _ Ez). cbn [bind].
      apply (noub_foldM _ (fun x => tame_zone x /\ has "pids" (fun p => entries p <> []) x)).
      * intros c x' [A B]. apply noub_read_zone; assumption.
      * pose proof (T2 z Ez) as T3. rewrite Forall_forall in *. intros y I. split; [apply T3|apply F]; exact I.
Qed.
