(** * The path check of the IPMI helper is the one of the D-Bus specification. *)
From Coq Require Import ZArith Bool List String Ascii Lia.
From Verif Require Import Base IpmiModel SpecObjectPath.
Import ListNotations.
Local Open Scope string_scope.

Definition echar (c : ascii) : Prop := In c (list_ascii_of_string element_characters).
Lemma path_char_spec c : path_char c = true <-> echar c.
Proof.
  unfold echar. split.
  - destruct c as [[] [] [] [] [] [] [] []]; intros H; try discriminate H; vm_compute; tauto.
  - intros H. assert (A : forallb path_char (list_ascii_of_string element_characters) = true) by (vm_compute; reflexivity).
    rewrite forallb_forall in A. exact (A _ H).
Qed.
Lemma echar_not_slash c : echar c -> c <> "/"%char.
Proof. intros H ->. apply path_char_spec in H. discriminate H. Qed.

(** [fresh]: an element is about to begin; otherwise part of one has been read. *)
Lemma path_rest_spec s : forall fresh, path_rest fresh s = true <->
  exists e es, (fresh = true -> e <> "") /\ incl (list_ascii_of_string e) (list_ascii_of_string element_characters) /\
    Forall path_element es /\ s = e ++ joined es.
Proof.
  induction s as [|c r IH]; intros fresh; cbn [path_rest].
  - split.
    + intros H. exists "", []. destruct fresh; [discriminate|]. split; [discriminate|]. split; [intros x []|]. split; [constructor|reflexivity].
    + intros (e & es & N & _ & _ & E). destruct fresh; [|reflexivity]. destruct e; [exfalso; apply N; reflexivity|discriminate].
  - destruct (Ascii.eqb_spec c "/") as [-> |Nc].
    + split.
      * intros H. apply andb_true_iff in H. destruct H as (F & H). apply IH in H. destruct H as (e & es & N & Ic & Fo & ->).
        destruct fresh; [discriminate|]. exists "", (e :: es). split; [discriminate|]. split; [intros x []|].
        split; [|reflexivity]. constructor; [split; auto|exact Fo].
      * intros (e & es & N & Ic & Fo & E). destruct e as [|x e].
        -- destruct fresh; [exfalso; apply N; reflexivity|]. cbn [negb andb]. destruct es as [|e' es]; [discriminate E|].
           cbn in E. injection E as ->. inversion Fo as [|? ? (N' & I') Fo']; subst. apply IH. exists e', es. auto.
        -- exfalso. cbn in E. injection E as <- _. apply (echar_not_slash "/"%char); [|reflexivity]. apply Ic. left. reflexivity.
    + split.
      * intros H. apply andb_true_iff in H. destruct H as (F & H). apply IH in H. destruct H as (e & es & _ & Ic & Fo & ->).
        exists (String c e), es. split; [discriminate|]. split; [|auto]. intros x [<-|J]; [now apply path_char_spec|now apply Ic].
      * intros (e & es & N & Ic & Fo & E). destruct e as [|x e].
        -- destruct es as [|e' es]; [discriminate E|]. cbn in E. injection E as E _. congruence.
        -- cbn in E. injection E as <- ->. apply andb_true_iff. split; [apply path_char_spec, Ic; left; reflexivity|].
           apply IH. exists e, es. split; [discriminate|]. split; [|auto]. intros y J. apply Ic. right. exact J.
Qed.

Lemma object_path_lemma s : object_path_valid s = true <-> an_object_path s.
Proof.
  unfold an_object_path. destruct s as [|c r]; cbn [object_path_valid].
  - split; [discriminate|]. intros [E|([|e es] & N & _ & E)]; [discriminate E|congruence|discriminate E].
  - rewrite andb_true_iff, orb_true_iff, Ascii.eqb_eq, String.eqb_eq, path_rest_spec. split.
    + intros (-> & [-> |(e & es & N & Ic & Fo & ->)]); [left; reflexivity|]. right. exists (e :: es). split; [discriminate|].
      split; [|reflexivity]. constructor; [split; auto|exact Fo].
    + intros [E|([|e es] & N & Fo & E)]; [|congruence|].
      * injection E as -> ->. auto.
      * cbn in E. injection E as -> ->. split; [reflexivity|]. right. inversion Fo as [|? ? (A & B) C]; subst. exists e, es. auto.
Qed.

(** What an invalid path does to a call. *)
Lemma calls_lemma (A : Type) path (k : outcome A) :
  (an_object_path path -> new_method_call path k = k) /\
  (~ an_object_path path -> new_method_call path k = Throw "sd_bus_message_new_method_call").
Proof.
  unfold new_method_call. rewrite <- object_path_lemma. destruct (object_path_valid path); split; intros H; try reflexivity.
  - congruence.
  - discriminate H.
Qed.
