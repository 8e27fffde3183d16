(** * Wildcards in sysfs paths. *)
From Coq Require Import ZArith Bool List Ascii String.
From Verif Require Import Base WriteModel SpecWrite.
Import ListNotations.
Local Open Scope string_scope.

Lemma append_nil_r s : s ++ "" = s.
Proof. induction s as [|c s IH]; [reflexivity|]. cbn. now rewrite IH. Qed.
Lemma append_assoc a b c : (a ++ b) ++ c = a ++ b ++ c.
Proof. induction a as [|x a IH]; [reflexivity|]. cbn. now rewrite IH. Qed.
Lemma append_inj_l a b c : a ++ b = a ++ c -> b = c.
Proof. induction a as [|x a IH]; cbn; [auto|]. intros H. inversion H. auto. Qed.

Lemma no_stars_nil : ~ contains "**" "".
Proof. intros (a & b & E). destruct a; discriminate. Qed.
Lemma no_stars_one c : ~ contains "**" (String c "").
Proof. intros (a & b & E). destruct a as [|x [|y a]]; discriminate. Qed.
Lemma stars_cons c r : contains "**" r -> contains "**" (String c r).
Proof. intros (a & b & ->). exists (String c a), b. reflexivity. Qed.
Lemma stars_cons_inv c r : contains "**" (String c r) ->
  (c = "*"%char /\ exists f, r = String "*" f) \/ contains "**" r.
Proof.
  intros (a & b & E). destruct a as [|x a]; cbn in E.
  - inversion E; subst. left. split; [reflexivity|]. now exists b.
  - inversion E; subst. right. now exists a, b.
Qed.

Lemma split_stars_some s : forall base f, split_stars s = Some (base, f) -> first_stars s base f.
Proof.
  induction s as [|a r IH]; intros base f H; [discriminate|]. cbn [split_stars] in H.
  destruct r as [|b g]; [discriminate|].
  destruct (Ascii.eqb_spec a "*") as [->|Na]; [destruct (Ascii.eqb_spec b "*") as [->|Nb]|]; cbn [andb] in H.
  1: { injection H as <- <-. split; [reflexivity|]. apply no_stars_one. }
  all: destruct (split_stars (String b g)) as [[base' f']|] eqn:E; [|discriminate];
    injection H as <- <-; destruct (IH _ _ eq_refl) as [E1 E2]; split; [cbn [append]; now rewrite E1|];
    cbn [append]; intros C; apply stars_cons_inv in C; destruct C as [[C1 [g' C2]]|C]; [|now apply E2].
  - destruct base' as [|x base']; cbn in C2, E1.
    + inversion E1; subst. congruence.
    + inversion C2; subst. inversion E1; subst. congruence.
  - congruence.
Qed.
Lemma split_stars_none s : split_stars s = None -> ~ contains "**" s.
Proof.
  induction s as [|a r IH]; intros H; [apply no_stars_nil|]. cbn [split_stars] in H.
  destruct r as [|b g]; [apply no_stars_one|].
  intros C. apply stars_cons_inv in C.
  destruct (Ascii.eqb a "*" && Ascii.eqb b "*") eqn:E; [discriminate|].
  destruct (split_stars (String b g)) as [[base' f']|] eqn:E'; [discriminate|].
  destruct C as [[-> [f F]]|C].
  - inversion F; subst. discriminate.
  - now apply IH.
Qed.
Lemma first_stars_contains p b r : first_stars p b r -> contains "**" p.
Proof. intros [-> _]. now exists b, r. Qed.
Lemma append_length a b : String.length (a ++ b) = (String.length a + String.length b)%nat.
Proof. induction a as [|x a IH]; cbn; [reflexivity|]. now rewrite IH. Qed.

Lemma first_stars_unique p : forall b r b' r', first_stars p b r -> first_stars p b' r' -> b = b' /\ r = r'.
Proof.
  induction p as [|c p IH]; intros b r b' r' [E1 N1] [E2 N2].
  - destruct b; discriminate.
  - destruct b as [|x b], b' as [|x' b']; cbn [append] in *.
    + inversion E1; subst. inversion E2. auto.
    + exfalso. inversion E2; subst. inversion E1 as [[H1 H2]]. subst x'. apply N2.
      destruct b' as [|y b']; cbn in H2 |- *.
      * exists "", "". reflexivity.
      * inversion H2; subst. exists "", (b' ++ "*"). reflexivity.
    + exfalso. inversion E1; subst. inversion E2 as [[H1 H2]]. subst x. apply N1.
      destruct b as [|y b]; cbn in H2 |- *.
      * exists "", "". reflexivity.
      * inversion H2; subst. exists "", (b ++ "*"). reflexivity.
    + inversion E1 as [[H1 H2]]. inversion E2 as [[H3 H4]].
      destruct (IH b r b' r') as [-> ->]; [| |split; [congruence|reflexivity]].
      * split; [exact H2|]. intros C. apply N1. now apply stars_cons.
      * split; [exact H4|]. intros C. apply N2. now apply stars_cons.
Qed.

Lemma ends_with_slash_iff s : ends_with_slash s = true <-> exists b, s = b ++ "/".
Proof.
  induction s as [|c s IH].
  - split; [discriminate|]. intros (b & E). destruct b; discriminate.
  - destruct s as [|d s].
    + cbn. rewrite Ascii.eqb_eq. split.
      * intros ->. now exists "".
      * intros (b & E). destruct b as [|x [|y b]]; [now inversion E|discriminate..].
    + change (ends_with_slash (String c (String d s))) with (ends_with_slash (String d s)).
      rewrite IH. split; intros (b & E).
      * exists (String c b). cbn. now rewrite E.
      * destruct b as [|x b]; [discriminate|]. inversion E as [[H1 H2]]. exists b. exact H2.
Qed.
Lemma entry_path_iff base name path : in_directory base name path <-> path = entry_path base name.
Proof.
  unfold in_directory, entry_path.
  destruct (String.eqb_spec base "") as [->|N]; cbn [orb].
  - split; [intros [[_ H]|[H _]]; [exact H|congruence]|]. intros H. left. auto.
  - destruct (ends_with_slash base) eqn:E.
    + apply ends_with_slash_iff in E. split; [intros [[_ H]|(_ & H & _)]; [exact H|contradiction]|].
      intros H. left. auto.
    + assert (E' : ~ exists b, base = b ++ "/") by (rewrite <- ends_with_slash_iff; congruence).
      split; [intros [[[H|H] _]|(_ & _ & H)]; [contradiction..|exact H]|]. intros H. right. auto.
Qed.

Lemma FixupPath_ok dir p q : FixupPath dir p = Ok q <-> resolves dir p q.
Proof.
  unfold FixupPath, resolves. destruct (split_stars p) as [[base f]|] eqn:E.
  - apply split_stars_some in E. split.
    + intros H. right. exists base, f. split; [assumption|].
      destruct (dir base) as [[|n o]|] eqn:D; [| |discriminate].
      * left. split; [reflexivity|congruence].
      * right. exists n, o, (entry_path base n). split; [reflexivity|]. split; [now apply entry_path_iff|congruence].
    + intros [[N _]|(b & r & F & H)]; [now apply first_stars_contains in E|].
      destruct (first_stars_unique _ _ _ _ _ F E) as [-> ->].
      destruct H as [[D ->]|(n & o & d & D & I & ->)]; rewrite D; [reflexivity|].
      apply entry_path_iff in I. now rewrite I.
  - apply split_stars_none in E. split.
    + intros H. left. split; [assumption|congruence].
    + intros [[_ ->]|(b & r & F & _)]; [reflexivity|]. now apply first_stars_contains in F.
Qed.
Lemma resolves_unique dir p q q' : resolves dir p q -> resolves dir p q' -> q = q'.
Proof. rewrite <- !FixupPath_ok. congruence. Qed.
Lemma FixupPath_fails dir p : (exists q, resolves dir p q) \/
  FixupPath dir p = Throw "directory iterator cannot open directory".
Proof.
  unfold FixupPath. destruct (split_stars p) as [[base f]|] eqn:E.
  - destruct (dir base) as [[|n o]|] eqn:D; [left|left|right; reflexivity].
    + exists p. apply FixupPath_ok. unfold FixupPath. now rewrite E, D.
    + exists (entry_path base n ++ f). apply FixupPath_ok. unfold FixupPath. now rewrite E, D.
  - left. exists p. apply FixupPath_ok. unfold FixupPath. now rewrite E.
Qed.
Lemma resolves_plain dir p : ~ contains "**" p -> resolves dir p p.
Proof. intros H. left. auto. Qed.
