(** * The timer period of every interval (C44; proofs only). *)
From Coq Require Import ZArith Bool Lia.
From Verif Require Import Base Dbl ConfigModel.
Local Open Scope Z_scope.

Lemma C44_period_lemma n : 1 <= n < 2 ^ 64 ->
  (n <= 9223372036854 -> timer_period_ns n = Ok (n * 1000000)) /\
  (9223372036854 < n < 2 ^ 64 - 9223372036854 -> exists e, timer_period_ns n = UB e) /\
  (2 ^ 64 - 9223372036854 <= n -> timer_period_ns n = Ok ((n - 2 ^ 64) * 1000000)).
Proof.
  change (2 ^ 64) with 18446744073709551616. intros R.
  unfold timer_period_ns, to_signed64, int64_min, int64_max.
  change (2 ^ 63) with 9223372036854775808. change (2 ^ 64) with 18446744073709551616.
  split; [|split]; intros H; destruct (Z.ltb_spec n 9223372036854775808); try lia.
  - rewrite (proj2 (Z.leb_le _ _)), (proj2 (Z.leb_le _ _)) by lia. reflexivity.
  - rewrite (proj2 (Z.leb_gt (n * 1000000) _)) by lia. rewrite andb_false_r. eexists. reflexivity.
  - rewrite (proj2 (Z.leb_gt _ ((n - 18446744073709551616) * 1000000))) by lia. eexists. reflexivity.
  - rewrite (proj2 (Z.leb_le _ _)), (proj2 (Z.leb_le _ _)) by lia. reflexivity.
Qed.
