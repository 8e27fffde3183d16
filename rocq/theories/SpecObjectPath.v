(** * D-Bus object paths, in words of the D-Bus specification (C42). *)
From Coq Require Import List String.
Import ListNotations.
Local Open Scope string_scope.

(** Letters, digits and the underscore. *)
Definition element_characters : string := "ABCDEFGHIJKLMNOPQRSTUVWXYZabcdefghijklmnopqrstuvwxyz0123456789_".
Definition path_element (e : string) : Prop :=
  e <> "" /\ incl (list_ascii_of_string e) (list_ascii_of_string element_characters).
(** "/" and "/a/b/c": every element is preceded by one slash. *)
Fixpoint joined (es : list string) : string :=
  match es with [] => "" | e :: r => "/" ++ e ++ joined r end.
Definition an_object_path (s : string) : Prop :=
  s = "/" \/ exists es, es <> [] /\ Forall path_element es /\ s = joined es.
