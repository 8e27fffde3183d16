(** * What is read from the bus at start (C29, C47). *)
From Coq Require Import ZArith Bool List String.
From Verif Require Import Base Dbl SensorModel SpecSensor.
Import ListNotations.
Local Open Scope string_scope.

Lemma available_kept sf pow10 p m p' b scale value min max a a' unav now failed :
  handleSensorValue sf pow10 p m = Ok p' -> says available_intf "Available" m = Some (VBool b) ->
  initFromSettings pow10 now (MkProps scale value min max a unav) failed p' =
  initFromSettings pow10 now (MkProps scale value min max a' unav) failed p'.
Proof.
  intros H S. unfold says in S. destruct (String.eqb (m_intf m) available_intf) eqn:E; [|discriminate].
  apply String.eqb_eq in E.
  assert (Ov : p_availableOverridden p' = true).
  { unfold handleSensorValue in H. rewrite E in H.
    change (String.eqb available_intf value_intf) with false in H. change (String.eqb available_intf critical_intf) with false in H.
    change (String.eqb available_intf warning_intf) with false in H. rewrite andb_false_r, String.eqb_refl in H.
    rewrite S in H. cbn [get_bool bind] in H. injection H as <-. destruct b; [reflexivity|].
    unfold updateValue. cbv zeta. cbn [disfinite]. destruct (p_typeMargin _); reflexivity. }
  unfold initFromSettings. cbv zeta. cbn [sp_scale sp_value sp_min sp_max sp_available sp_unavailableAsFailed].
  unfold setAvailableFromProperty. cbn [pset_failed pset_scale pset_min pset_max pset_unavailableAsFailed p_availableOverridden].
  rewrite Ov. reflexivity.
Qed.

Lemma failing_queries objs rest :
  populateFailures None = Ok [] /\
  populateFailures (Some (map Some objs ++ None :: rest)%list) = populateFailures (Some (map Some objs)).
Proof.
  split; [reflexivity|]. unfold populateFailures. generalize (@nil string).
  induction objs as [|o r IH]; intros l; cbn [map app populate]; [reflexivity|].
  destruct (ro_status o) as [| |s]; [apply IH|reflexivity|]. destruct (negb (status_failed s)); [apply IH|].
  destruct (ro_collection o); [apply IH|reflexivity].
Qed.
