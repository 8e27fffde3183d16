(** * Property C48, continued: the pace of the daemon.

    Vocabulary: SpecLog.v.  Proofs: ThrottleProofs.v. *)
From Coq Require Import ZArith Bool List.
From Verif Require Import Base LogModel SpecLog ThrottleProofs.
Import ListNotations.
Local Open Scope Z_scope.

(** [throttle_run throttlePace None ts]: which of the warnings due at the times [ts]
    (nanoseconds) are printed.  Two that follow each other are three seconds apart. *)
Theorem C48_warnings_three_seconds_apart : forall ts before x y after,
  let_through ts (throttle_run throttlePace None ts) = (before ++ x :: y :: after)%list -> 3000000000 <= y - x.
Proof. exact C48_apart_lemma. Qed.
Print Assumptions C48_warnings_three_seconds_apart.

(** A warning is printed if and only if none has been printed before, or the last one was
    printed at least three seconds ago. *)
Theorem C48_warning_iff_three_seconds : forall ts t,
  let earlier := let_through ts (throttle_run throttlePace None ts) in
  let now := last (throttle_run throttlePace None (ts ++ [t])) false in
  now = true <-> earlier = [] \/ exists before x, earlier = (before ++ [x])%list /\ 3000000000 <= t - x.
Proof. exact C48_pace_lemma. Qed.
Print Assumptions C48_warning_iff_three_seconds.

(** And no further: after exactly three seconds the next one is printed. *)
Example C48_pace_example :
  let ts := [5; 6; 3000000004; 3000000005; 3000000006; 9000000000] in
  let_through ts (throttle_run throttlePace None ts) = [5; 3000000005; 9000000000].
Proof. vm_compute. reflexivity. Qed.
