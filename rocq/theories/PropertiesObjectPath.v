(** * Property C42, continued: which object paths a D-Bus call accepts.

    Vocabulary: SpecObjectPath.v.  Proofs: ObjectPathProofs.v. *)
From Coq Require Import ZArith Bool List String.
From Verif Require Import Base IpmiModel SpecObjectPath ObjectPathProofs.
Import ListNotations.
Local Open Scope string_scope.

(** A call of the IPMI helper goes out exactly if the path it is given is an object path
    of the D-Bus specification; otherwise it ends in an exception before anything is sent. *)
Theorem C42_calls_need_an_object_path : forall (A : Type) path (sent : outcome A),
  (an_object_path path -> new_method_call path sent = sent) /\
  (~ an_object_path path -> new_method_call path sent = Throw "sd_bus_message_new_method_call").
Proof. exact calls_lemma. Qed.
Print Assumptions C42_calls_need_an_object_path.

(** The path of zone 5, and the path zone byte 200 is turned into. *)
Example C42_object_path_example :
  an_object_path (ipmi_getControlPath 5) /\ ~ an_object_path (ipmi_getControlPath 200) /\
  ~ an_object_path "/xyz//zone1" /\ ~ an_object_path "/xyz/zone1/" /\ ~ an_object_path "xyz" /\ an_object_path "/".
Proof.
  rewrite <- !object_path_lemma.
  split; [vm_compute; reflexivity|]. split; [vm_compute; discriminate|]. split; [vm_compute; discriminate|].
  split; [vm_compute; discriminate|]. split; [vm_compute; discriminate|vm_compute; reflexivity].
Qed.
