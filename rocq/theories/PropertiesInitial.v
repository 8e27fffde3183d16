(** * Properties C29 and C47, continued: what is read from the bus at start.

    Vocabulary: SpecSensor.v.  Proofs: InitialProofs.v. *)
From Coq Require Import ZArith Bool List String.
From Verif Require Import Base Dbl SensorModel SpecSensor InitialProofs.
Import ListNotations.
Local Open Scope string_scope.

(** A message about availability beats the property read at start, in whatever order
    they arrive: after such a message the value of the property does not matter. *)
Theorem C29_message_beats_initial_property : forall sf pow10 p m p' b scale value min max a a' unav now failed,
  handleSensorValue sf pow10 p m = Ok p' -> says available_intf "Available" m = Some (VBool b) ->
  initFromSettings pow10 now (MkProps scale value min max a unav) failed p' =
  initFromSettings pow10 now (MkProps scale value min max a' unav) failed p'.
Proof. exact available_kept. Qed.
Print Assumptions C29_message_beats_initial_property.

(** If the first query for fan groups fails no fan counts as failed.  If the query of one
    group fails, that group and all later ones are left out.  Neither ends the daemon. *)
Theorem C47_failing_queries : forall objs rest,
  populateFailures None = Ok [] /\
  populateFailures (Some (map Some objs ++ None :: rest)%list) = populateFailures (Some (map Some objs)).
Proof. exact failing_queries. Qed.
Print Assumptions C47_failing_queries.

(** A sensor told to be unavailable, then given the property "available"; the same two
    values of the property without the message; two groups and a failing query between. *)
Definition in_new : passive := passive_new "temp" "t" false "/t".
Definition in_msg : sensor_msg := Msg available_intf [("Available", VBool false)] 5%Z.
Definition in_init (a : bool) (p : passive) : bool :=
  fst (passive_getFailed None (initFromSettings (fun _ => D 1) 6 (MkProps 0 (D 30) d0 (D 100) a true) false p)).
Example C29_initial_property_example :
  says available_intf "Available" in_msg = Some (VBool false) /\
  match handleSensorValue (SFlags false false) (fun _ => D 1) in_new in_msg with
  | Ok p => (in_init true p, in_init false p, in_init true in_new, in_init false in_new)
  | _ => (false, false, false, false)
  end = (true, true, false, true) /\
  populateFailures (Some [Some (RObj (RStatus "x.Failed") (Some ["a"])); None; Some (RObj (RStatus "x.Failed") (Some ["b"]))])
    = Ok ["a"].
Proof. vm_compute. repeat split. Qed.
