(** * Property C45, continued: how often stopping is tried.

    Vocabulary: SpecRetry.v, SpecMain.v.  Proofs: RetryProofs.v. *)
From Coq Require Import ZArith Bool List.
From Verif Require Import MainModel SpecMain PropertiesMain SpecRetry RetryProofs.
Import ListNotations.

(** Every attempt to stop the loops was asked for, or repeats one that failed: the stop
    failed, or the new configuration could not be built or started.  Holds for every
    schedule, overlapping attempts included. *)
Theorem C45_attempts_are_requests_or_retries : forall evs,
  count_of an_attempt (history (main_run evs main_init)) <=
  count_of a_request evs + count_of a_failed_stop (history (main_run evs main_init)) + count_of a_failed_build evs.
Proof. exact C45_attempts_lemma. Qed.
Print Assumptions C45_attempts_are_requests_or_retries.

(** In the schedule of C45_example: five attempts, three requests, two failed stops. *)
Example C45_attempts_example :
  let h := history (main_run ex_main main_init) in
  (count_of an_attempt h, count_of a_request ex_main, count_of a_failed_stop h, count_of a_failed_build ex_main) = (5, 3, 2, 0).
Proof. vm_compute. reflexivity. Qed.
