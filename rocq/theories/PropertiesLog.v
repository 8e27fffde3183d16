(** * Properties C38-C41, C48, C56, C57: logging.

    Vocabulary: SpecLog.v.  Proofs: LogProofs.v, CoreLogProofs.v. *)
From Coq Require Import ZArith Bool List String.
From Verif Require Import Base BaseFacts Dbl PidModel LogModel SpecLog LogProofs CoreLogProofs.
Import ListNotations.
Local Open Scope string_scope.
Local Open Scope Z_scope.

Definition bad (t : Z) (s : string) : fs_attempt := FsAttempt t true s "The sensor has failed".
Definition good (t : Z) (s : string) : fs_attempt := FsAttempt t false s "The sensor has recovered".

(** ** C38 *)
(** The limit holds when the milliseconds of the clock fit a [size_t]. *)
Theorem C38_at_most_max_lines_per_second : forall size max start h t0 t,
  0 <= max -> 0 <= t0 -> clock_from t0 (map fa_now h) -> Forall (fun a => fa_now a < size) h ->
  in_second t (print_times h (snd (fs_run (fslogger_new size max start) h))) <= max.
Proof. exact C38_lemma. Qed.
Print Assumptions C38_at_most_max_lines_per_second.

Definition burst : list fs_attempt :=
  [bad 1000 "a"; bad 1001 "b"; bad 1500 "c"; bad 1999 "d"; bad 2000 "e"; bad 2001 "f"].
Example C38_example :
  clock_from 0 (map fa_now burst) /\ Forall (fun a => fa_now a < size64) burst /\
  print_times burst (snd (fs_run (fslogger_new size64 2 false) burst)) = [1000; 1001; 2000; 2001] /\
  in_second 1000 (print_times burst (snd (fs_run (fslogger_new size64 2 false) burst))) = 2.
Proof.
  split; [cbn; repeat split; discriminate || reflexivity|].
  split; [repeat constructor|]. split; vm_compute; reflexivity.
Qed.

(** The clock is not required to be steady; when it steps back the unsigned
    difference empties the queue and the limit no longer holds. *)
Definition clock_back : list fs_attempt := [bad 1000 "a"; bad 1001 "b"; bad 999 "c"; bad 1002 "d"].
Theorem C38_clock_going_back_refuted :
  exists max h t, 0 <= max /\ Forall (fun a => 0 <= fa_now a < 2 ^ 64) h /\
    in_second t (print_times h (snd (fs_run (fslogger_new size64 max false) h))) > max.
Proof.
  exists 2, clock_back, 999. split; [discriminate|].
  split; [repeat constructor; cbn; discriminate || reflexivity|]. vm_compute. reflexivity.
Qed.
Print Assumptions C38_clock_going_back_refuted.

(** Where [size_t] has 32 bits - as on the 32-bit processors of many BMCs - and the clock
    counts from 1970, a stamp is the time without its upper half, looks older than a second
    and is dropped at the next attempt: there is no limit. *)
Theorem C38_no_limit_with_32_bits : forall max start h a,
  0 < max -> Forall (fun a => 2 ^ 32 + 1000 <= fa_now a < 2 ^ 64) (h ++ [a]) ->
  fa_failsafe a = true \/ state_after start h = true ->
  (forall b, In b h -> message b <> message a) ->
  prints size32 max start h a <> None.
Proof. exact C38_wide_lemma. Qed.
Print Assumptions C38_no_limit_with_32_bits.

(** Five lines in one millisecond of the year 2026 where two were allowed. *)
Definition burst_2026 : list fs_attempt :=
  map (bad 1790000000000) ["a"; "b"; "c"; "d"; "e"].
Theorem C38_32_bits_refuted :
  exists max h t, 0 < max /\ clock_from 0 (map fa_now h) /\
    Forall (fun a => 2 ^ 32 + 1000 <= fa_now a < 2 ^ 64) h /\
    in_second t (print_times h (snd (fs_run (fslogger_new size32 max false) h))) > max /\
    in_second t (print_times h (snd (fs_run (fslogger_new size64 max false) h))) = max.
Proof.
  exists 2, burst_2026, 1790000000000. split; [reflexivity|].
  split; [cbn; repeat split; discriminate || reflexivity|].
  split; [repeat constructor; cbn; discriminate || reflexivity|]. split; vm_compute; reflexivity.
Qed.
Print Assumptions C38_32_bits_refuted.

(** ** C39 *)
Theorem C39_silent_outside_failsafe : forall size max start h a,
  fa_failsafe a = false -> prints size max start h a <> None -> state_after start h = true.
Proof. exact C39_silence_lemma. Qed.
Print Assumptions C39_silent_outside_failsafe.

Theorem C39_line_tells_the_attempt : forall size max start h a x,
  prints size max start h a = Some x ->
  x = if fa_failsafe a then LIn (fa_location a) (fa_reason a) else LLeaves (fa_location a) (fa_reason a).
Proof. exact C39_leaving_lemma. Qed.
Print Assumptions C39_line_tells_the_attempt.

Theorem C39_once_between_state_changes : forall size max start h1 a h2 b,
  prints size max start h1 a <> None ->
  message b = message a ->
  prints size max start (h1 ++ a :: h2) b <> None ->
  exists c, In c (h2 ++ [b])%list /\ fa_failsafe c <> fa_failsafe a.
Proof. exact C39_once_lemma. Qed.
Print Assumptions C39_once_between_state_changes.

Theorem C39_nothing_else_is_dropped : forall size max start h a t0,
  0 < size -> 0 <= t0 -> clock_from t0 (map fa_now (h ++ [a])) ->
  fa_failsafe a = true \/ state_after start h = true ->
  prints size max start h a = None ->
  (exists h1 b h2, h = (h1 ++ b :: h2)%list /\ message b = message a /\
                   Forall (fun c => fa_failsafe c = fa_failsafe a) (b :: h2)) \/
  max <= in_second (fa_now a - 999) (map fa_now h).
Proof. exact C39_complete_lemma. Qed.
Print Assumptions C39_nothing_else_is_dropped.

Definition episode : list fs_attempt :=
  [bad 1000 "a"; bad 1100 "a"; bad 1200 "b"; good 1300 "a"; good 1400 "b"; bad 1500 "a"].
Example C39_example :
  clock_from 0 (map fa_now episode) /\
  snd (fs_run (fslogger_new size64 20 false) episode) =
    [Some (LIn "a" "The sensor has failed"); None; Some (LIn "b" "The sensor has failed");
     Some (LLeaves "a" "The sensor has recovered"); None; Some (LIn "a" "The sensor has failed")] /\
  prints size64 20 false [] (bad 1000 "a") <> None /\
  prints size64 20 false [bad 1000 "a"] (bad 1100 "a") = None /\
  prints size64 20 false (bad 1000 "a" :: [good 1300 "a"]) (bad 1500 "a") <> None /\
  state_after false [bad 1000 "a"] = true.
Proof.
  split; [cbn; repeat split; discriminate || reflexivity|]. split; [vm_compute; reflexivity|].
  split; [vm_compute; discriminate|]. split; [vm_compute; reflexivity|]. split; [vm_compute; discriminate|reflexivity].
Qed.

(** Attempts that print nothing (sensor fine, zone not in failsafe) still use up
    the budget of a second: an entry into failsafe can go unreported although
    nothing was printed before it. *)
Theorem C39_silent_attempts_use_the_budget_refuted : exists max h a,
  0 < max /\ clock_from 0 (map fa_now (h ++ [a])) /\ fa_failsafe a = true /\
  print_times h (snd (fs_run (fslogger_new size64 max false) h)) = [] /\
  (forall b, In b h -> message b <> message a) /\
  prints size64 max false h a = None.
Proof.
  exists 2, [good 1000 "a"; good 1001 "b"], (bad 1002 "c").
  split; [reflexivity|]. split; [cbn; repeat split; discriminate || reflexivity|]. split; [reflexivity|].
  split; [reflexivity|]. split; [|vm_compute; reflexivity].
  intros b [<-|[<-|[]]]; discriminate.
Qed.
Print Assumptions C39_silent_attempts_use_the_budget_refuted.

(** A "leaves" line refused for lack of budget is never printed later: the
    state has already changed. *)
Theorem C39_leaving_line_lost_refuted : exists max h a later,
  0 < max /\ clock_from 0 (map fa_now (h ++ a :: later)) /\ fa_failsafe a = false /\
  state_after false h = true /\ prints size64 max false h a = None /\
  Forall (fun b => fa_failsafe b = false /\ message b = message a /\ fa_now a + 1000 <= fa_now b) later /\
  later <> [] /\
  snd (fs_run (fst (fs_run (fslogger_new size64 max false) (h ++ [a]))) later) = map (fun _ => None) later.
Proof.
  exists 1, [bad 1000 "a"], (good 1001 "a"), [good 5000 "a"; good 9000 "a"].
  split; [reflexivity|]. split; [cbn; repeat split; discriminate || reflexivity|]. split; [reflexivity|].
  split; [reflexivity|]. split; [vm_compute; reflexivity|].
  split; [repeat constructor; cbn; discriminate|]. split; [discriminate|]. vm_compute. reflexivity.
Qed.
Print Assumptions C39_leaving_line_lost_refuted.

(** ** C40 *)
Theorem C40_line_iff_due : forall cc ops o,
  Forall (fun o => co_now o > 0) (ops ++ [o]) ->
  let before := core_run cc ops in
  let after := core_run cc (ops ++ [o]) in
  logged (co_name o) after ->
  (line_due cc ops o -> lines (co_name o) after = (co_now o, context_of o) :: lines (co_name o) before) /\
  (~ line_due cc ops o -> lines (co_name o) after = lines (co_name o) before).
Proof. exact C40_lemma. Qed.
Print Assumptions C40_line_iff_due.

Theorem C40_no_change_is_lost : forall cc ops name c,
  Forall (fun o => co_now o > 0) ops ->
  logged name (core_run cc ops) -> last_eval name ops = Some c ->
  exists t c' rest, lines name (core_run cc ops) = (t, c') :: rest /\ (c' = c \/ same_numbers c' c).
Proof. exact C40_nothing_lost_lemma. Qed.
Print Assumptions C40_no_change_is_lost.

Definition log_on : core_conf := CoreConf true "/tmp".
Definition log_pid (init : bool) : pid_info_t :=
  PidInfoT init d0 d0 d0
    (PidInfo false (D 1) (D 2) d0 d0 d0 d0 (Limits d0 d0) (Limits (D (-100)) (D 100)) d0 d0 d0 d0).
Definition log_eval (t : Z) (name : string) (init : bool) (x : dbl) : core_op :=
  CoreOp (fun _ => true) t t name (log_pid init) x (D 20).
Definition log_history : list core_op :=
  [log_eval 1000 "cpu 0" false (D 1); log_eval 2000 "cpu 0" true (D 1); log_eval 3000 "cpu 0" true (D 2);
   log_eval 62999 "cpu 0" true (D 2); log_eval 63000 "cpu 0" true (D 2)].
Example C40_example :
  Forall (fun o => co_now o > 0) log_history /\
  (match mget "cpu 0" (cw_logs (core_run log_on log_history)) with Some _ => true | None => false end) = true /\
  map fst (lines "cpu 0" (core_run log_on log_history)) = [63000; 3000; 1000].
Proof. split; [repeat (apply Forall_cons; [reflexivity|]); apply Forall_nil|]. split; vm_compute; reflexivity. Qed.

(** ** C41 *)
Theorem C41_a_file_has_one_writer : forall cc ops n1 n2 p x1 x2,
  In (n1, p, x1) (cw_acts (core_run cc ops)) -> In (n2, p, x2) (cw_acts (core_run cc ops)) ->
  is_write x1 -> is_write x2 -> n1 = n2.
Proof. exact C41_lemma. Qed.
Print Assumptions C41_a_file_has_one_writer.

Theorem C41_nothing_written_is_truncated : forall cc ops newer n p older,
  cw_acts (core_run cc ops) = (newer ++ (n, p, AOpen) :: older)%list ->
  forall n' x, In (n', p, x) older -> x = AOpen.
Proof. exact C41_truncate_lemma. Qed.
Print Assumptions C41_nothing_written_is_truncated.

Theorem C41_files_named_after_the_loop : forall cc ops n p x,
  In (n, p, x) (cw_acts (core_run cc ops)) ->
  exists base, reduced n base /\ base <> "" /\
    (p = (loggingPath cc ++ "/pidcore." ++ base)%string \/ p = (loggingPath cc ++ "/pidcoeffs." ++ base)%string).
Proof. exact C41_paths_lemma. Qed.
Print Assumptions C41_files_named_after_the_loop.

(** "cpu 0" and "cpu_0" clean to the same name: only the first one is logged. *)
Definition log_clash : list core_op :=
  [log_eval 1000 "cpu 0" false (D 1); log_eval 1000 "cpu_0" false (D 2); log_eval 1000 "../x" false (D 2)].
Example C41_example :
  rev (map fst (cw_acts (core_run log_on log_clash))) =
    [("cpu 0", "/tmp/pidcore.cpu0"); ("cpu 0", "/tmp/pidcoeffs.cpu0"); ("cpu 0", "/tmp/pidcore.cpu0");
     ("cpu 0", "/tmp/pidcoeffs.cpu0"); ("cpu 0", "/tmp/pidcoeffs.cpu0"); ("cpu 0", "/tmp/pidcore.cpu0");
     ("../x", "/tmp/pidcore.x"); ("../x", "/tmp/pidcoeffs.x"); ("../x", "/tmp/pidcore.x");
     ("../x", "/tmp/pidcoeffs.x"); ("../x", "/tmp/pidcoeffs.x"); ("../x", "/tmp/pidcore.x")].
Proof. vm_compute. reflexivity. Qed.

(** ** C48 *)
Theorem C48_warning_iff_pace_elapsed : forall pace ts t,
  let earlier := let_through ts (throttle_run pace None ts) in
  let now := last (throttle_run pace None (ts ++ [t])) false in
  now = true <-> earlier = [] \/ exists before x, earlier = (before ++ [x])%list /\ pace <= t - x.
Proof. exact C48_lemma. Qed.
Print Assumptions C48_warning_iff_pace_elapsed.

Example C48_example :
  throttle_run throttlePace None [7; 8; 7 + throttlePace - 1; 7 + throttlePace; 8 + throttlePace] =
    [true; false; false; true; false].
Proof. vm_compute. reflexivity. Qed.

(** ** C56 *)
Theorem C56_zone_log_sees_exactly_its_own : forall size zones max z ops,
  NoDup (map fz_id zones) -> In z zones ->
  let r := buildFailsafeLoggers size zones max in
  lines_of_zone (fz_id z) (snd (fs_exec r ops)) =
    printed (snd (fs_run (fslogger_new size max (fz_failsafe z)) (flat_map (concerns z) ops))).
Proof. exact C56_lemma. Qed.
Print Assumptions C56_zone_log_sees_exactly_its_own.

Theorem C56_no_other_zone_is_named : forall size zones max ops id x,
  NoDup (map fz_id zones) ->
  In (id, x) (snd (fs_exec (buildFailsafeLoggers size zones max) ops)) -> In id (map fz_id zones).
Proof. exact C56_only_known_lemma. Qed.
Print Assumptions C56_no_other_zone_is_named.

Definition two_zones : list fs_zone :=
  [FsZone 1 false ["cpu"; "dimm"; "cpu"]; FsZone 2 false ["cpu"; "nic"]].
Example C56_example :
  NoDup (map fz_id two_zones) /\
  snd (fs_exec (buildFailsafeLoggers size64 two_zones 20)
         [FsSensor "cpu" (bad 1 "cpu"); FsSensor "nic" (bad 2 "nic"); FsSensor "gpu" (bad 3 "gpu"); FsZoneOp 1 (bad 4 "z")]) =
    [(1, LIn "cpu" "The sensor has failed"); (2, LIn "cpu" "The sensor has failed");
     (2, LIn "nic" "The sensor has failed"); (1, LIn "z" "The sensor has failed")].
Proof.
  split; [|vm_compute; reflexivity].
  cbn. constructor; [intros [E|[]]; discriminate|]. constructor; [intros []|constructor].
Qed.

(** ** C57 *)
Theorem C57_logging_never_changes_the_loop : forall cc opens t0 t1 name info input setpoint w,
  let r := pid_logged cc opens t0 t1 name info input setpoint w in
  (snd (fst r), snd r) = pid info input setpoint.
Proof. exact C57_lemma. Qed.
Print Assumptions C57_logging_never_changes_the_loop.

Theorem C57_nothing_written_when_off : forall ld ops, cw_acts (core_run (CoreConf false ld) ops) = [].
Proof. exact C57_off_lemma. Qed.
Print Assumptions C57_nothing_written_when_off.

Example C57_example :
  List.length (cw_acts (core_run log_on log_history)) = 8%nat /\ cw_acts (core_run (CoreConf false "/tmp") log_history) = [].
Proof. split; vm_compute; reflexivity. Qed.
