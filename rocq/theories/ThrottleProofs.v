(** * Warnings about tuning files are three seconds apart (C48). *)
From Coq Require Import ZArith Bool List Lia.
From Verif Require Import Base LogModel SpecLog LogProofs.
Import ListNotations.
Local Open Scope Z_scope.

Lemma apart pace ts : forall st before x y after,
  ((match st with Some t => [t] | None => [] end) ++ let_through ts (throttle_run pace st ts) = before ++ x :: y :: after)%list ->
  pace <= y - x.
Proof.
  induction ts as [|t r IH]; intros st before x y after H.
  - exfalso. destruct st as [u|]; cbn in H.
    + destruct before as [|? [|? ?]]; discriminate.
    + destruct before; discriminate.
  - unfold let_through in *. cbn [throttle_run] in H. destruct (allowThrottle pace st t) as [st' b] eqn:E.
    cbn [combine flat_map] in H. unfold allowThrottle in E. destruct st as [u|].
    + destruct (Z.ltb_spec (t - u) pace); injection E as <- <-; cbn [app] in H.
      * apply (IH (Some u) before x y after). exact H.
      * destruct before as [|w before]; cbn [app] in H.
        -- injection H as <- H1 _. lia.
        -- injection H as <- H. apply (IH (Some t) before x y after). exact H.
    + injection E as <- <-. cbn [app] in H. apply (IH (Some t) before x y after). exact H.
Qed.

Lemma C48_apart_lemma ts before x y after :
  let_through ts (throttle_run throttlePace None ts) = (before ++ x :: y :: after)%list -> 3000000000 <= y - x.
Proof. intros H. exact (apart throttlePace ts None before x y after H). Qed.

Lemma C48_pace_lemma ts t :
  let earlier := let_through ts (throttle_run throttlePace None ts) in
  let now := last (throttle_run throttlePace None (ts ++ [t])) false in
  now = true <-> earlier = [] \/ exists before x, earlier = (before ++ [x])%list /\ 3000000000 <= t - x.
Proof. exact (C48_lemma throttlePace ts t). Qed.
