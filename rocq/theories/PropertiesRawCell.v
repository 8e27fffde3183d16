(** * Property C55, continued: the raw fan output in the log of a daemon.

    Vocabulary: SpecSystem.v, SpecZone.v.  Proofs: RawCellProofs.v. *)
From Coq Require Import ZArith Bool List String.
From Verif Require Import Base BaseFacts Dbl ZoneModel LoopModel SpecZone ZoneProofs ConfigModel SensorModel
  WriteModel SpecWrite SystemModel SpecSystem PropertiesZone PropertiesSystem RawCellProofs.
Import ListNotations.
Local Open Scope string_scope.

(** The row an automatic wake-up adds shows for each fan the last commanded
    fraction and beside it: NaN before the first command; then, for a fan on the
    bus, the raw value of that command, whether or not the call was suppressed
    or lost; for a fan in sysfs always -1, although a raw value was written. *)
Theorem C55_raw_output : forall f sf pow10 sb config failures first devices zs evs s i w s' l l',
  runs f sf pow10 sb config failures first devices zs evs s -> loggingEnabled f = true ->
  sys_step f sf pow10 s (STick i w) = Ok s' ->
  nth_error (sy_loops s) i = Some l -> nth_error (sy_loops s') i = Some l' ->
  z_manualMode (l_zone l) = false ->
  exists fan therm,
    rev (z_log (l_zone l')) = (rev (z_log (l_zone l)) ++
      csv_line (csv_row (l_zone l) (z_maximumSetPoint (l_zone l)) (z_maximumSetPointName (l_zone l))
                 fan therm (getFailSafeMode (l_zone l'))))%list /\
    forall name info, In name (z_fanInputs (l_zone l)) -> In (name, info) config -> sc_type info = "fan" ->
      let v := last_written name (z_trace (l_zone l)) in
      scaled (snd (fan name)) = v /\
      (~ (exists u b, In (EvWrite name u b) (z_trace (l_zone l))) -> unscaled (snd (fan name)) = dnan) /\
      ((exists u b, In (EvWrite name u b) (z_trace (l_zone l))) ->
       (bus_out (sc_writePath info) ->
          exists raw, raw_for info v = Some raw /\ unscaled (snd (fan name)) = D raw) /\
       (sysfs_out (sc_writePath info) -> unscaled (snd (fan name)) = D (-1))).
Proof. exact C55_raw_lemma. Qed.
Print Assumptions C55_raw_output.

(** fan0 (D-Bus) and fan1 (sysfs) are both given raw value 255 by the first
    wake-up; the second one logs 255 for fan0 and -1 for fan1. *)
Definition logs_number (x : Z) (n : nat) : bool :=
  match nth_error (sy_loops (sys_after (ticks_from 1 n))) 0 with
  | Some l => existsb (fun t => match t with LNum v => deqb v (D x) | _ => false end) (z_log (l_zone l))
  | None => false
  end.
Example C55_raw_example :
  runs ex_flags ex_sf ex_pow sys_bus sys_config [] None sys_devs sys_zones (ticks_from 1 1)
    (sys_after (ticks_from 1 1)) /\
  loggingEnabled ex_flags = true /\
  match nth_error (sy_loops (sys_after (ticks_from 1 1))) 0 with
  | Some l => z_manualMode (l_zone l) = false /\ z_fanInputs (l_zone l) = ["fan0"; "fan1"]
  | None => False
  end /\
  is_ok (sys_run ex_flags ex_sf ex_pow (ticks_from 1 2) sys_s0) = true /\
  bus_out (sc_writePath fan0_info) /\ sysfs_out (sc_writePath fan1_info) /\
  fan_devices (ticks_from 1 1) = (Some 255, Some 255)%Z /\
  (logs_number 255 1, logs_number (-1) 1, logs_number 255 2, logs_number (-1) 2) = (false, false, true, true).
Proof.
  split; [apply ex_runs; vm_compute; reflexivity|].
  split; [reflexivity|]. split; [vm_compute; split; reflexivity|]. split; [vm_compute; reflexivity|].
  split; [path_class|]. split; [path_class|]. split; vm_compute; reflexivity.
Qed.
