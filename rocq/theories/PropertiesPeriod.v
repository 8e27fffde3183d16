(** * C44: the timer period of every interval a zone can be given.

    Proofs: PeriodProofs.v. *)
From Coq Require Import ZArith List String Lia.
From Verif Require Import Base ConfigModel PeriodProofs.
Import ListNotations.
Local Open Scope Z_scope.

(** Intervals are 64 bit numbers.  Up to 9223372036854 ms (292 years) the period
    is the interval in nanoseconds.  The last 9223372036854 of the range give
    a negative period.  For all others the behaviour is undefined. *)
Theorem C44_period_of_every_interval : forall n, 1 <= n < 2 ^ 64 ->
  (n <= 9223372036854 -> timer_period_ns n = Ok (n * 1000000)) /\
  (9223372036854 < n < 2 ^ 64 - 9223372036854 -> exists e, timer_period_ns n = UB e) /\
  (2 ^ 64 - 9223372036854 <= n -> timer_period_ns n = Ok ((n - 2 ^ 64) * 1000000)).
Proof. exact C44_period_lemma. Qed.
Print Assumptions C44_period_of_every_interval.

(** One interval of each kind. *)
Example C44_period_example :
  1 <= 100 < 2 ^ 64 /\ 1 <= 10000000000000 < 2 ^ 64 /\ 1 <= 2 ^ 64 - 5 < 2 ^ 64 /\
  map timer_period_ns [100; 10000000000000; 2 ^ 64 - 5] =
  [Ok 100000000; UB "signed overflow"%string; Ok (-5000000)].
Proof. split; [lia|]. split; [lia|]. split; [lia|]. vm_compute. reflexivity. Qed.
