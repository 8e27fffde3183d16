(** * Property C86: the requester when setpoints are accumulated.

    Vocabulary: SpecAccum.v, SpecZone.v ([leader], [requests], [running_sums],
    [capped_at], [has_profile]).  Proofs: AccumProofs.v. *)
From Coq Require Import ZArith Bool List String.
From Verif Require Import Base BaseFacts Dbl DblFacts PidModel ZoneModel LoopModel SpecZone SpecWrite SpecAccum ZoneProofs
  ReactionProofs AccumProofs PropertiesZone.
Import ListNotations.
Local Open Scope string_scope.

(** "Minimum" if the minimum decides, else the controllers whose names contain
    the winning profile (or, if a ceiling lowered the setpoint, the word
    Ceiling), in their order. *)
Theorem C86_accumulated_requester : forall f env te z z',
  thermal_cycle f env te z = Ok z' -> tuningEnabled f = false -> z_accumulateSetPoint z = true ->
  Forall (fun t => thermal_id t <> "") (z_thermals z) ->
  Forall notnan (ceilings (cycle_readings env z) z) -> notnan (z_minThermalOutputSetPt z) ->
  exists top capped profile,
    is_max_of top (d0 :: running_sums (requests (cycle_readings env z) z)) /\
    capped_at (ceilings (cycle_readings env z) z) top capped /\
    leader (profile_sums (requests (cycle_readings env z) z)) top profile /\
    ((dle capped (z_minThermalOutputSetPt z) /\ z_maximumSetPoint z' = z_minThermalOutputSetPt z /\
      z_maximumSetPointName z' = "Minimum") \/
     (dlt (z_minThermalOutputSetPt z) capped /\ z_maximumSetPoint z' = capped /\ dlt capped top /\
      all_named "Ceiling" z (z_maximumSetPointName z')) \/
     (dlt (z_minThermalOutputSetPt z) capped /\ z_maximumSetPoint z' = capped /\ capped = top /\
      all_named profile z (z_maximumSetPointName z'))).
Proof. exact C86_lemma. Qed.
Print Assumptions C86_accumulated_requester.

(** Every controller that contributed to the winning profile is among them. *)
Theorem C86_contributors_are_named : forall rd z n v profile l,
  In (n, v) (requests rd z) -> has_profile n profile ->
  picks (contains profile) (map thermal_id (z_thermals z)) l -> In n l.
Proof. exact C86_contributors_lemma. Qed.
Print Assumptions C86_contributors_are_named.

(** Stepwise controllers on t0, each asking for 50; ceilings at 80. *)
Definition acc_zone (ctls : list (string * bool)) : zone :=
  initializeCache
    (fold_left (fun z (e : string * bool) =>
       addPidControlProcess (fst e) "stepwise" d0
         (addThermalPID (TStep (fst e) [if snd e then "t1" else "t0"] (stepwise_ctrl_init (ex_steps (snd e)))) z))
       ctls
       (addThermalInput "t1" false (addThermalInput "t0" false (zone_new 1 (D 10) (D 75) 100 1000 true)))).
Definition acc_after (z : zone) : zone := get_ok z (thermal_cycle ex_flags (ex_poll 0) ex_tune z).
Definition acc_plain : zone := acc_zone [("PID_cpu", false); ("PID_mem", false); ("Step_cpu", false)].
Definition acc_cap : zone :=
  acc_zone [("PID_cpu", false); ("Step_cpu", false); ("cap", true)].
Definition acc_sub : zone := acc_zone [("PID_cpu", false); ("PID_cpu2", false); ("Step_cpu", false)].
Example C86_example :
  thermal_cycle ex_flags (ex_poll 0) ex_tune acc_plain = Ok (acc_after acc_plain) /\
  Forall (fun t => thermal_id t <> "") (z_thermals acc_plain) /\
  map fst (profile_sums (requests (cycle_readings (ex_poll 0) acc_plain) acc_plain)) = ["cpu"; "mem"; "cpu"] /\
  shows (map snd (profile_sums (requests (cycle_readings (ex_poll 0) acc_plain) acc_plain))) [50; 50; 100]%Z = true /\
  dsame (z_maximumSetPoint (acc_after acc_plain)) (D 100) = true /\
  z_maximumSetPointName (acc_after acc_plain) = "PID_cpu + Step_cpu".
Proof.
  split; [apply get_ok_eq; vm_compute; reflexivity|].
  split; [repeat constructor; discriminate|].
  repeat match goal with |- _ /\ _ => split end; vm_compute; reflexivity.
Qed.

(** A controller of another profile is named too if its name contains the
    winning one. *)
Theorem C86_only_contributors_are_named_refuted : exists f env te z z' top profile l n,
  thermal_cycle f env te z = Ok z' /\ tuningEnabled f = false /\ z_accumulateSetPoint z = true /\
  leader (profile_sums (requests (cycle_readings env z) z)) top profile /\ z_maximumSetPoint z' = top /\
  z_maximumSetPointName z' = String.concat " + " l /\ In n l /\ ~ has_profile n profile.
Proof.
  pose (sums := profile_sums (requests (cycle_readings (ex_poll 0) acc_sub) acc_sub)).
  exists ex_flags, (ex_poll 0), ex_tune, acc_sub, (acc_after acc_sub), (fst (fold_left lead sums (d0, ""))), "cpu",
    ["PID_cpu"; "PID_cpu2"; "Step_cpu"], "PID_cpu2".
  split; [apply get_ok_eq; vm_compute; reflexivity|]. split; [reflexivity|]. split; [reflexivity|].
  split; [|split; [apply dsame_eq; vm_compute; reflexivity|]; split; [vm_compute; reflexivity|];
           split; [right; left; reflexivity|]].
  - assert (N : snd (fold_left lead sums (d0, "")) = "cpu") by (vm_compute; reflexivity).
    rewrite <- N. apply lead_spec.
  - intros H. apply profile_iff in H. discriminate H.
Qed.
Print Assumptions C86_only_contributors_are_named_refuted.

(** When a ceiling decides, nobody may be named at all. *)
Theorem C86_ceiling_is_named_refuted : exists f env te z z' low,
  thermal_cycle f env te z = Ok z' /\ tuningEnabled f = false /\ z_accumulateSetPoint z = true /\
  In low (ceilings (cycle_readings env z) z) /\ dlt (z_minThermalOutputSetPt z) low /\
  z_maximumSetPoint z' = low /\ z_maximumSetPointName z' = "".
Proof.
  pose (low := hd d0 (ceilings (cycle_readings (ex_poll 0) acc_cap) acc_cap)).
  exists ex_flags, (ex_poll 0), ex_tune, acc_cap, (acc_after acc_cap), low.
  split; [apply get_ok_eq; vm_compute; reflexivity|]. split; [reflexivity|]. split; [reflexivity|].
  split; [left; reflexivity|]. split; [vm_compute; reflexivity|].
  split; [apply dsame_eq; vm_compute; reflexivity|vm_compute; reflexivity].
Qed.
Print Assumptions C86_ceiling_is_named_refuted.
