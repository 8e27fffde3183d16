(** * Facts about outcomes and ordered maps (proofs only). *)
From Coq Require Import List String Ascii Bool ZArith Lia Sorted OrderedTypeEx DecimalString DecimalZ Decimal.
From Verif Require Import Base.
Import ListNotations.
Local Open Scope string_scope.

(** ** Monad *)
Lemma bind_ok {A B : Type} (o : outcome A) (k : A -> outcome B) (b : B) :
  bind o k = Ok b -> exists a, o = Ok a /\ k a = Ok b.
Proof. destruct o as [a|m|m]; simpl; intros H; try discriminate. exists a. auto. Qed.

Lemma foldM_app {A S : Type} (f : S -> A -> outcome S) (l1 l2 : list A) (s : S) :
  foldM f (l1 ++ l2) s = bind (foldM f l1 s) (foldM f l2).
Proof.
  revert s. induction l1 as [|x r IH]; intros s; simpl; [reflexivity|].
  destruct (f s x); simpl; auto.
Qed.

Lemma foldM_inv {A S : Type} (P : S -> Prop) (f : S -> A -> outcome S) (l : list A) :
  (forall s x s', In x l -> P s -> f s x = Ok s' -> P s') ->
  forall s s', P s -> foldM f l s = Ok s' -> P s'.
Proof.
  induction l as [|x r IH]; intros Hs s s' H0 H; simpl in H.
  - injection H as <-. exact H0.
  - apply bind_ok in H. destruct H as (s1 & H1 & H2).
    apply (IH (fun s x s' I => Hs s x s' (or_intror I)) s1 s'); auto.
    apply (Hs s x s1); simpl; auto.
Qed.

(** ** Membership *)
Lemma smem_In (k : string) (l : list string) : smem k l = true <-> In k l.
Proof.
  induction l as [|x r IH]; simpl; [split; [discriminate|tauto]|].
  destruct (String.eqb_spec k x) as [E|E].
  - subst. tauto.
  - rewrite IH. split; [tauto|]. intros [H|H]; [congruence|exact H].
Qed.
Lemma smem_false (k : string) (l : list string) : smem k l = false <-> ~ In k l.
Proof. rewrite <- smem_In. destruct (smem k l); split; congruence. Qed.
Lemma smem_app (k : string) (l1 l2 : list string) : smem k (l1 ++ l2) = (smem k l1 || smem k l2)%bool.
Proof. induction l1 as [|x r IH]; simpl; [reflexivity|]. destruct (String.eqb k x); auto. Qed.

(** ** Maps *)
Section Maps.
Context {V : Type}.
Implicit Types (m : smap V) (k : string) (v : V).

Lemma mget_mset_same m k v : mget k (mset k v m) = Some v.
Proof.
  induction m as [|[k' v'] r IH]; simpl.
  - rewrite String.eqb_refl. reflexivity.
  - destruct (String.eqb k k') eqn:E; simpl.
    + rewrite String.eqb_refl. reflexivity.
    + destruct (String.ltb k k'); simpl.
      * rewrite String.eqb_refl. reflexivity.
      * rewrite E. exact IH.
Qed.

Lemma mget_mset_other m k k' v : k <> k' -> mget k' (mset k v m) = mget k' m.
Proof.
  intros N. induction m as [|[a b] r IH]; simpl.
  - destruct (String.eqb_spec k' k) as [E|_]; [congruence|reflexivity].
  - destruct (String.eqb_spec k a) as [E|E]; simpl.
    + subst a. destruct (String.eqb_spec k' k) as [E|_]; [congruence|reflexivity].
    + destruct (String.ltb k a); simpl.
      * destruct (String.eqb_spec k' k) as [E'|_]; [congruence|reflexivity].
      * destruct (String.eqb k' a); [reflexivity|exact IH].
Qed.

Lemma mget_mset m k k' v : mget k' (mset k v m) = if String.eqb k' k then Some v else mget k' m.
Proof.
  destruct (String.eqb_spec k' k) as [E|E].
  - subst. apply mget_mset_same.
  - apply mget_mset_other. congruence.
Qed.

Lemma mget_mdel m k k' : mget k' (mdel k m) = if String.eqb k' k then None else mget k' m.
Proof.
  induction m as [|[a b] r IH]; simpl.
  - destruct (String.eqb k' k); reflexivity.
  - destruct (String.eqb_spec k a) as [E|E].
    + subst a. rewrite IH. destruct (String.eqb k' k); reflexivity.
    + simpl. rewrite IH. destruct (String.eqb_spec k' k) as [E'|E'].
      * subst k'. destruct (String.eqb_spec k a); [congruence|reflexivity].
      * reflexivity.
Qed.

Lemma mget_In m k v : mget k m = Some v -> In (k, v) m.
Proof.
  induction m as [|[a b] r IH]; simpl; [discriminate|].
  destruct (String.eqb_spec k a) as [E|E]; intros H.
  - injection H as ->. subst. left. reflexivity.
  - right. auto.
Qed.

(** Strictly increasing keys, as [std::map] keeps them. *)
Definition key_lt (a b : string * V) : Prop := String.ltb (fst a) (fst b) = true.
Definition sorted_map m : Prop := StronglySorted key_lt m.

Lemma ltb_lt (a b : string) : String.ltb a b = true <-> String_as_OT.lt a b.
Proof.
  unfold String.ltb. rewrite <- String_as_OT.cmp_lt. unfold String_as_OT.cmp.
  destruct (String.compare a b); split; congruence.
Qed.
Lemma ltb_trans (a b c : string) :
  String.ltb a b = true -> String.ltb b c = true -> String.ltb a c = true.
Proof. rewrite !ltb_lt. apply String_as_OT.lt_trans. Qed.
Lemma ltb_irrefl (a : string) : String.ltb a a = false.
Proof.
  destruct (String.ltb a a) eqn:E; [|reflexivity].
  apply ltb_lt in E. exfalso. apply (String_as_OT.lt_not_eq _ _ E). reflexivity.
Qed.
Lemma ltb_total (a b : string) : a <> b -> String.ltb a b = false -> String.ltb b a = true.
Proof.
  intros N H. apply ltb_lt.
  destruct (String_as_OT.compare a b) as [L|E|L].
  - apply ltb_lt in L. congruence.
  - contradiction.
  - exact L.
Qed.

Lemma sorted_nil : sorted_map [].
Proof. constructor. Qed.

Lemma mset_keys m k v x : In x (mset k v m) -> x = (k, v) \/ In x m.
Proof.
  induction m as [|[a b] r IH]; simpl.
  - intros [H|H]; [left; auto|tauto].
  - destruct (String.eqb k a); [intros [H|H]; auto|].
    destruct (String.ltb k a); simpl.
    + intros [H|H]; auto.
    + intros [H|H]; auto. destruct (IH H); auto.
Qed.

Lemma sorted_mset m k v : sorted_map m -> sorted_map (mset k v m).
Proof.
  unfold sorted_map. induction m as [|[a b] r IH]; intros S; simpl.
  - constructor; constructor.
  - apply StronglySorted_inv in S. destruct S as [S F].
    destruct (String.eqb_spec k a) as [E|E].
    + subst. constructor; auto.
    + destruct (String.ltb k a) eqn:L.
      * constructor; [constructor; auto|]. constructor; [exact L|].
        eapply Forall_impl; [|exact F]. intros x Hx. unfold key_lt in *. simpl in *.
        eapply ltb_trans; eauto.
      * constructor; auto. rewrite Forall_forall in *. intros x Hx.
        apply mset_keys in Hx. destruct Hx as [->|Hx]; [|auto].
        unfold key_lt. simpl. apply ltb_total; auto.
Qed.

Lemma mdel_keys m k x : In x (mdel k m) -> In x m.
Proof.
  induction m as [|[a b] r IH]; simpl; [tauto|].
  destruct (String.eqb k a); simpl; intros H; [auto|]. destruct H; auto.
Qed.

Lemma sorted_mdel m k : sorted_map m -> sorted_map (mdel k m).
Proof.
  unfold sorted_map. induction m as [|[a b] r IH]; intros S; simpl; [constructor|].
  apply StronglySorted_inv in S. destruct S as [S F].
  destruct (String.eqb k a); [auto|]. constructor; auto.
  rewrite Forall_forall in *. intros x Hx. apply F. eapply mdel_keys; eauto.
Qed.

Lemma sorted_In_mget m k v : sorted_map m -> In (k, v) m -> mget k m = Some v.
Proof.
  unfold sorted_map. induction m as [|[a b] r IH]; intros S I; simpl in *; [tauto|].
  apply StronglySorted_inv in S. destruct S as [S F].
  destruct I as [I|I].
  - injection I as -> ->. rewrite String.eqb_refl. reflexivity.
  - destruct (String.eqb_spec k a) as [E|E]; [|auto].
    subst a. rewrite Forall_forall in F. specialize (F _ I). unfold key_lt in F. simpl in F.
    rewrite ltb_irrefl in F. discriminate.
Qed.

Lemma mget_nil_all m : (forall k, mget k m = None) -> m = [].
Proof.
  destruct m as [|[a b] r]; [reflexivity|]. intros H. specialize (H a). simpl in H.
  rewrite String.eqb_refl in H. discriminate.
Qed.

Lemma mmem_get m k : mmem k m = true <-> exists v, mget k m = Some v.
Proof.
  unfold mmem. destruct (mget k m) as [v|]; split; try discriminate; eauto.
  intros [v H]; discriminate.
Qed.

End Maps.

(** Witnesses of concrete runs, found by evaluating a boolean. *)
Lemma some_exists {A : Type} (o : option A) :
  match o with Some _ => true | None => false end = true -> exists x, o = Some x.
Proof. destruct o; [eexists; reflexivity|discriminate]. Qed.
Lemma some_such {A : Type} (f : A -> bool) (P : A -> Prop) (o : option A) :
  match o with Some x => f x | None => false end = true ->
  (forall x, f x = true -> P x) -> exists x, o = Some x /\ P x.
Proof. destruct o as [x|]; [|discriminate]. intros H I. exists x. auto. Qed.

(** ** Strings *)
Lemma append_inj a : forall b c, a ++ b = a ++ c -> b = c.
Proof. induction a as [|x a IH]; cbn; intros b c E; [exact E|]. injection E as E. apply IH. exact E. Qed.
Lemma to_string_inj n m : to_string n = to_string m -> n = m.
Proof.
  unfold to_string. intros E. apply (f_equal NilEmpty.int_of_string) in E. rewrite !NilEmpty.isi in E.
  injection E as E. apply to_int_inj. exact E.
Qed.
(** [c] does not occur in [s]. *)
Fixpoint no_char (c : ascii) (s : string) : Prop :=
  match s with EmptyString => True | String x r => x <> c /\ no_char c r end.
Lemma to_string_no_slash n : no_char "/" (to_string n).
Proof.
  assert (U : forall u, no_char "/" (NilEmpty.string_of_uint u)).
  { induction u; cbn; try (split; [discriminate|]); auto. }
  unfold to_string. destruct (Z.to_int n) as [u|u]; cbn; [apply U|]. split; [discriminate|apply U].
Qed.
(** What comes before the first [c] is determined. *)
Lemma split_inj c a : forall a' b b', no_char c a -> no_char c a' ->
  a ++ String c b = a' ++ String c b' -> a = a' /\ b = b'.
Proof.
  induction a as [|x a IH]; intros [|y a'] b b' Na Na' E; cbn in *; inversion E; subst.
  - auto.
  - tauto.
  - tauto.
  - destruct (IH a' b b' (proj2 Na) (proj2 Na')) as [-> ->]; auto.
Qed.
Lemma split_none c a : forall a' b, no_char c a -> a <> a' ++ String c b.
Proof.
  induction a as [|x a IH]; intros [|y a'] b N E; cbn in *; try discriminate; inversion E; subst.
  - tauto.
  - eapply IH; [exact (proj2 N)|reflexivity].
Qed.
