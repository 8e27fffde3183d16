(** * Proofs for C110: the whole daemon, moved in time. *)
From Coq Require Import ZArith Bool List String Lia.
From Verif Require Import Base BaseFacts Dbl PidModel ZoneModel LoopModel SpecZone ZoneProofs SensorModel WriteModel BuilderModel
  ConfigModel SystemModel SpecSystem SpecBuilder SystemProofs SpecApart ApartProofs SpecClock ClockProofs.
Import ListNotations.
Local Open Scope string_scope.
Local Open Scope Z_scope.
Local Open Scope outcome_scope.

Lemma foldM_map {A B A' B' : Type} (g : A -> A') (h : B -> B') (F1 : A -> B -> outcome A) (F2 : A' -> B' -> outcome A') :
  (forall a b, F2 (g a) (h b) = map_ok g (F1 a b)) ->
  forall l a, foldM F2 (map h l) (g a) = map_ok g (foldM F1 l a).
Proof.
  intros H. induction l as [|b l IH]; intros a; [reflexivity|]. cbn [foldM map]. rewrite H.
  destruct (F1 a b) as [x| |]; cbn [map_ok bind]; [apply IH|reflexivity|reflexivity].
Qed.
Lemma foldM_later {A A' B : Type} (g : A -> A') (F1 : A -> B -> outcome A) (F2 : A' -> B -> outcome A') :
  (forall a b, F2 (g a) b = map_ok g (F1 a b)) -> forall l a, foldM F2 l (g a) = map_ok g (foldM F1 l a).
Proof. intros H l a. rewrite <- (map_id l) at 1. apply (foldM_map g (fun b => b)), H. Qed.

Section Zone.
Variable k : Z.
Local Notation L := (later_zone k).
Definition both {C : Type} (p : C * zone) : C * zone := (fst p, L (snd p)).

Record env_later (e1 e2 : poll_env) : Prop := EnvLater {
  el_now : pe_now e2 = pe_now e1 + k;
  el_view : forall n, pe_sensor e2 n = option_map (later_view k) (pe_sensor e1 n)
}.

Lemma lz_log f ts z : log_tokens f ts (L z) = L (log_tokens f ts z).
Proof. unfold log_tokens. destruct (loggingEnabled f); reflexivity. Qed.
Lemma lz_missing n r z : markSensorMissing n r (L z) = L (markSensorMissing n r z).
Proof. unfold markSensorMissing. change (z_missingAcceptable (L z)) with (z_missingAcceptable z).
  destruct (smem n (z_missingAcceptable z)); reflexivity. Qed.
Lemma lz_add v n z : addSetPoint v n (L z) = map_ok L (addSetPoint v n z).
Proof.
  unfold addSetPoint. change (isPidProcessEnabled n (L z)) with (isPidProcessEnabled n z).
  destruct (isPidProcessEnabled n z) as [[|]| |]; cbn [bind map_ok negb]; try reflexivity.
  change (setpoint_of (L z)) with (setpoint_of z). change (z_accumulateSetPoint (L z)) with (z_accumulateSetPoint z).
  cbv zeta. set (new := if z_accumulateSetPoint z then _ else _). clearbody new.
  match goal with |- (if ?a then _ else _) = _ => destruct a eqn:E end.
  - change (z_maximumSetPoint (set_setPoints ?m (L z))) with (z_maximumSetPoint z) in E.
    change (z_maximumSetPoint (set_setPoints ?m z)) with (z_maximumSetPoint z). rewrite E. reflexivity.
  - change (z_maximumSetPoint (set_setPoints ?m (L z))) with (z_maximumSetPoint z) in E.
    change (z_maximumSetPoint (set_setPoints ?m z)) with (z_maximumSetPoint z). rewrite E. reflexivity.
Qed.

(** What happens after the value of a sensor has been stored, for a reading of age [d]. *)
Definition judged (f : flags) (r : sensor_view) (d : Z) (n : string) (z : zone) : zone :=
  if sv_failed r then markSensorMissing n (sv_reason r) z
  else if (negb (sv_timeout r =? 0) && (sv_timeout r <=? whole_seconds d))%bool
  then failsafe_log n "The sensor has timed out." (markSensorMissing n "Sensor timeout" z)
  else if mmem n (z_failSafeSensors z)
  then failsafe_log n "The sensor has recovered." (set_failSafeSensors (mdel n (z_failSafeSensors z)) z)
  else z.
Definition logged_poll (f : flags) (b : bool) (r : sensor_view) (n : string) (z : zone) : zone :=
  if b
  then log_tokens f [LComma; LNum (sv_value r); LComma; LNum (sv_unscaled r);
                     LComma; LNum (scaled (cached_or_default (z_cachedFanOutputs z) n));
                     LComma; LNum (unscaled (cached_or_default (z_cachedFanOutputs z) n))] z
  else z.
Definition stored (r : sensor_view) (n : string) (z : zone) : zone :=
  set_cachedValuesByName (mset n (Entry (sv_value r) (sv_unscaled r)) (z_cachedValuesByName z)) z.

Lemma poll_parts f b e z n : processSensorInput f b e z n =
  match pe_sensor e n with
  | None => Throw "out_of_range"
  | Some r => Ok (judged f r (pe_now e - sv_updated r) n (logged_poll f b r n (stored r n (emit (EvRead n (pe_now e) r) z))))
  end.
Proof.
  unfold processSensorInput. destruct (pe_sensor e n) as [r|]; [|reflexivity]. cbv zeta.
  change (set_cachedValuesByName (mset n (Entry (sv_value r) (sv_unscaled r)) (z_cachedValuesByName (emit (EvRead n (pe_now e) r) z)))
    (emit (EvRead n (pe_now e) r) z)) with (stored r n (emit (EvRead n (pe_now e) r) z)).
  generalize (stored r n (emit (EvRead n (pe_now e) r) z)). clear z. intros z. unfold judged.
  match goal with |- context [markSensorMissing n (sv_reason r) ?y] => change y with (logged_poll f b r n z) end.
  match goal with |- context [failsafe_log n "The sensor has timed out." (markSensorMissing n _ ?y)] => change y with (logged_poll f b r n z) end.
  match goal with |- context [mmem n (z_failSafeSensors ?y)] => change y with (logged_poll f b r n z) end.
  generalize (logged_poll f b r n z). clear z. intros z.
  destruct (sv_failed r); [reflexivity|]. destruct (_ && _)%bool; [reflexivity|]. destruct (mmem n (z_failSafeSensors z)); reflexivity.
Qed.

Lemma lz_poll f b e1 e2 z n : env_later e1 e2 ->
  processSensorInput f b e2 (L z) n = map_ok L (processSensorInput f b e1 z n).
Proof.
  intros [En Ev]. rewrite !poll_parts, Ev. destruct (pe_sensor e1 n) as [v|]; [|reflexivity].
  cbn [option_map map_ok bind]. f_equal. rewrite En. change (sv_updated (later_view k v)) with (sv_updated v + k).
  replace (pe_now e1 + k - (sv_updated v + k)) with (pe_now e1 - sv_updated v) by lia.
  generalize (pe_now e1 - sv_updated v). intros d.
  change (stored (later_view k v) n (emit (EvRead n (pe_now e1 + k) (later_view k v)) (L z)))
    with (L (stored v n (emit (EvRead n (pe_now e1) v) z))).
  generalize (stored v n (emit (EvRead n (pe_now e1) v) z)). clear z En Ev. intros z.
  assert (E : logged_poll f b (later_view k v) n (L z) = L (logged_poll f b v n z)).
  { unfold logged_poll. destruct b; [|reflexivity]. rewrite <- lz_log. reflexivity. }
  rewrite E. generalize (logged_poll f b v n z). clear z E. intros z. unfold judged.
  cbn [later_view sv_value sv_unscaled sv_updated sv_timeout sv_failed sv_reason].
  destruct (sv_failed v); [apply lz_missing|]. destruct (_ && _)%bool; [rewrite lz_missing; reflexivity|].
  change (z_failSafeSensors (L z)) with (z_failSafeSensors z). destruct (mmem n (z_failSafeSensors z)); reflexivity.
Qed.
Lemma lz_polls f b e1 e2 l z : env_later e1 e2 ->
  processSensorInputs f b e2 l (L z) = map_ok L (processSensorInputs f b e1 l z).
Proof. intros E. unfold processSensorInputs. apply foldM_later. intros a n. apply lz_poll, E. Qed.

Lemma lz_telemetry f e1 e2 z : env_later e1 e2 -> updateFanTelemetry f e2 (L z) = map_ok L (updateFanTelemetry f e1 z).
Proof.
  intros E. unfold updateFanTelemetry. cbv zeta.
  change (z_maximumSetPoint (L z)) with (z_maximumSetPoint z). change (z_maximumSetPointName (L z)) with (z_maximumSetPointName z).
  rewrite lz_log. generalize (log_tokens f [LStamp; LComma; LNum (z_maximumSetPoint z); LComma; LText (z_maximumSetPointName z)] z).
  clear z. intros z. change (z_fanInputs (L z)) with (z_fanInputs z). rewrite (lz_polls _ _ _ _ _ _ E).
  destruct (processSensorInputs f true e1 (z_fanInputs z) z) as [y| |]; cbn [bind map_ok]; try reflexivity.
  change (z_cachedValuesByName (L y)) with (z_cachedValuesByName y). change (z_thermalInputs (L y)) with (z_thermalInputs y).
  rewrite lz_log. reflexivity.
Qed.

Lemma lz_power id leader i o z :
  updateThermalPowerDebugInterface id leader i o (L z) = map_ok L (updateThermalPowerDebugInterface id leader i o z).
Proof.
  unfold updateThermalPowerDebugInterface. change (z_pidsControlProcess (L z)) with (z_pidsControlProcess z).
  destruct (mget id (z_pidsControlProcess z)); reflexivity.
Qed.

Lemma lz_input1 id type v a z i :
  thermal_input1 id type (v, a, L z) i = map_ok (fun p => (fst p, L (snd p))) (thermal_input1 id type (v, a, z) i).
Proof.
  unfold thermal_input1. change (getCachedValue (si_name i) (L z)) with (getCachedValue (si_name i) z).
  destruct (getCachedValue (si_name i) z) as [c| |]; cbn [bind map_ok]; try reflexivity.
  destruct (negb (disfinite c)); [reflexivity|].
  match goal with |- bind ?o _ = _ => destruct o as [c'| |] end; cbn [bind map_ok]; try reflexivity.
  cbv zeta. set (v' := match type with margin => _ | _ => _ end). clearbody v'.
  destruct (dneb v v'); [|reflexivity]. rewrite lz_power.
  destruct (updateThermalPowerDebugInterface id (si_name i) v' d0 z); reflexivity.
Qed.

Lemma lz_thermal t z : thermal_process t (L z) = map_ok both (thermal_process t z).
Proof.
  destruct t as [id inputs type setpoint p|id inputs c]; cbn [thermal_process].
  - unfold thermal_inputProc.
    assert (E := foldM_later (fun q : dbl * bool * zone => (fst q, L (snd q))) (thermal_input1 id type) (thermal_input1 id type)
      (fun q i => match q with ((v, a), y) => lz_input1 id type v a y i end) inputs (thermal_start type, false, z)).
    cbn [fst snd] in E. rewrite E. clear E.
    destruct (foldM (thermal_input1 id type) inputs (thermal_start type, false, z)) as [[[v a] y]| |]; cbn [bind map_ok fst snd];
      try reflexivity.
    destruct (pid_process p setpoint (if a then v else setpoint)) as [p' o]. unfold thermal_outputProc. rewrite lz_add.
    destruct (addSetPoint o id y) as [x| |]; cbn [bind map_ok]; try reflexivity. rewrite lz_power.
    destruct (updateThermalPowerDebugInterface id "" d0 o x); reflexivity.
  - change (stepwise_inputProc inputs (L z)) with (stepwise_inputProc inputs z).
    destruct (stepwise_inputProc inputs z) as [v| |]; cbn [bind map_ok]; try reflexivity.
    destruct (stepwise_process c v) as [c' o]. unfold stepwise_outputProc. destruct (sw_isCeiling (sc_info c')); [reflexivity|].
    rewrite lz_add. destruct (addSetPoint o id z); reflexivity.
Qed.

Lemma lz_run_all {C : Type} (step : C -> zone -> outcome (C * zone)) :
  (forall c z, step c (L z) = map_ok both (step c z)) ->
  forall l z, run_all step l (L z) = map_ok both (run_all step l z).
Proof.
  intros H. induction l as [|c l IH]; intros z; [reflexivity|]. cbn [run_all]. rewrite H.
  destruct (step c z) as [[c' y]| |]; cbn [bind map_ok both fst snd]; try reflexivity. rewrite IH.
  destruct (run_all step l y) as [[r x]| |]; reflexivity.
Qed.

Lemma lz_thermals z : processThermals (L z) = map_ok L (processThermals z).
Proof.
  unfold processThermals. change (z_thermals (L z)) with (z_thermals z). rewrite (lz_run_all _ lz_thermal).
  destruct (run_all thermal_process (z_thermals z) z) as [[ts y]| |]; reflexivity.
Qed.

Lemma lz_write w p init z n : write_fan w p init (L z) n = map_ok L (write_fan w p init z n).
Proof.
  unfold write_fan. destruct (w n) as [wr|]; [|reflexivity]. cbv zeta. change (z_redundantWrite (L z)) with (z_redundantWrite z).
  destruct (wr p (z_redundantWrite z)) as [[?|]| |]; cbn [bind map_ok]; try reflexivity. destruct init; reflexivity.
Qed.

Lemma lz_out f w c v z : fan_outputProc f w c v (L z) = map_ok both (fan_outputProc f w c v z).
Proof.
  unfold fan_outputProc. cbv zeta. change (getFailSafeMode (L z)) with (getFailSafeMode z).
  change (fan_percent f (L z) v) with (fan_percent f z v). set (c' := MkFan _ _ _ _ _ _ _). clearbody c'.
  match goal with |- context [if ?b then emit ?e (L z) else L z] =>
    change (emit e (L z)) with (L (emit e z));
    replace (if b then L (emit e z) else L z) with (L (if b then emit e z else z)) by (destruct b; reflexivity);
    change (if b then emit e z else z) with
      (if b then emit (EvFanMode (z_zoneId z) (getFailSafeMode z) (fan_percent f z v)
                        (map (fun s => (fst s, fst (snd s))) (z_failSafeSensors z))) z else z);
    generalize (if b then emit (EvFanMode (z_zoneId z) (getFailSafeMode z) (fan_percent f z v)
                        (map (fun s => (fst s, fst (snd s))) (z_failSafeSensors z))) z else z) end.
  generalize (ddiv (fan_percent f z v) (D 100)). clear z. intros q z.
  rewrite (foldM_later L _ _ (fun a b => lz_write w q (Some (-1)) a b)).
  destruct (foldM (write_fan w q (Some (-1))) (fan_inputs c') z); reflexivity.
Qed.

Lemma lz_fan f w c z : opt_fan_process f w c (L z) = map_ok both (opt_fan_process f w c z).
Proof.
  destruct c as [c|]; [|reflexivity]. cbn [opt_fan_process]. unfold fan_process.
  change (fan_setptProc c (L z)) with (fan_setptProc c z). destruct (fan_setptProc c z) as [c1 setpt].
  assert (E : fan_inputProc c1 (L z) = fan_inputProc c1 z).
  { unfold fan_inputProc. assert (F : fan_values (fan_inputs c1) (L z) = fan_values (fan_inputs c1) z).
    { induction (fan_inputs c1) as [|n l IH]; [reflexivity|]. cbn [fan_values]. rewrite IH. reflexivity. }
    rewrite F. reflexivity. }
  rewrite E. destruct (fan_inputProc c1 z) as [i| |]; cbn [bind map_ok]; try reflexivity.
  destruct (pid_process (fan_pid c1) setpt i) as [p o]. rewrite lz_out.
  match goal with |- bind (map_ok _ ?q) _ = _ => destruct q as [[c2 y]| |] end; reflexivity.
Qed.

Lemma lz_fans f w z : processFans f w (L z) = map_ok L (processFans f w z).
Proof.
  unfold processFans. change (z_fans (L z)) with (z_fans z). rewrite (lz_run_all _ (lz_fan f w)).
  destruct (run_all (opt_fan_process f w) (z_fans z) z) as [[fs y]| |]; cbn [bind map_ok both fst snd]; try reflexivity.
  cbv zeta. change (z_redundantWrite (set_fans fs (L y))) with (z_redundantWrite y).
  change (z_redundantWrite (set_fans fs y)) with (z_redundantWrite y). destruct (z_redundantWrite y); reflexivity.
Qed.

Lemma lz_rpm g c z : fileParseRpm g c (L z) = map_ok L (fileParseRpm g c z).
Proof. destruct c as [|v|]; cbn [fileParseRpm]; try reflexivity. destruct (v <=? 0); [reflexivity|]. destruct (v <=? 100); reflexivity. Qed.

Lemma lz_ceilings z : apply_ceilings (L z) = L (apply_ceilings z).
Proof.
  unfold apply_ceilings. change (z_rpmCeilings (L z)) with (z_rpmCeilings z). destruct (z_rpmCeilings z) as [|c r]; [reflexivity|].
  cbv zeta. change (z_maximumSetPoint (L z)) with (z_maximumSetPoint z). destruct (dltb (min_element c r) (z_maximumSetPoint z)); reflexivity.
Qed.

Lemma lz_determine f te z : determineMaxSetPointRequest f te (L z) = map_ok L (determineMaxSetPointRequest f te z).
Proof.
  unfold determineMaxSetPointRequest. cbv zeta. change (z_minThermalOutputSetPt (L z)) with (z_minThermalOutputSetPt z).
  generalize (z_minThermalOutputSetPt z). intros q. rewrite lz_ceilings. generalize (apply_ceilings z). clear z. intros z.
  change (z_accumulateSetPoint (L z)) with (z_accumulateSetPoint z).
  match goal with |- context [if z_accumulateSetPoint z then ?a else L z] =>
    replace (if z_accumulateSetPoint z then a else L z) with
      (L (if z_accumulateSetPoint z then set_maximumSetPointName (join_leaders (z_maximumSetPointName z) (z_thermals z)) z else z))
      by (destruct (z_accumulateSetPoint z); reflexivity) end.
  generalize (if z_accumulateSetPoint z then set_maximumSetPointName (join_leaders (z_maximumSetPointName z) (z_thermals z)) z else z).
  clear z. intros z.
  change (z_maximumSetPoint (L z)) with (z_maximumSetPoint z). change (z_maximumSetPointName (L z)) with (z_maximumSetPointName z).
  change (z_maximumSetPointNamePrev (L z)) with (z_maximumSetPointNamePrev z).
  destruct (dgeb q (z_maximumSetPoint z)).
  2: destruct (negb (String.eqb (z_maximumSetPointName z) (z_maximumSetPointNamePrev z))).
  all: match goal with |- context [map_ok L (if _ then do y <- fileParseRpm true _ ?y0; _ else _)] =>
    match goal with |- (if _ then do y <- fileParseRpm true _ ?y1; _ else _) = _ => change y1 with (L y0) end; generalize y0 end;
    clear z; intros z; (destruct (tuningEnabled f); [|reflexivity]); rewrite lz_rpm;
    destruct (fileParseRpm true (te_global te) z); cbn [bind map_ok]; [apply lz_rpm|reflexivity|reflexivity].
Qed.

Lemma lz_cycle f e1 e2 te z : env_later e1 e2 -> thermal_cycle f e2 te (L z) = map_ok L (thermal_cycle f e1 te z).
Proof.
  intros E. unfold thermal_cycle, updateSensors. cbv zeta. change (emit EvThermalCycle (L z)) with (L (emit EvThermalCycle z)).
  generalize (emit EvThermalCycle z). clear z. intros z. change (z_thermalInputs (L z)) with (z_thermalInputs z).
  rewrite (lz_polls _ _ _ _ _ _ E). destruct (processSensorInputs f false e1 (z_thermalInputs z) z) as [y| |]; cbn [bind map_ok]; try reflexivity.
  change (clearRPMCeilings (clearSetPoints (L y))) with (L (clearRPMCeilings (clearSetPoints y))). rewrite lz_thermals.
  destruct (processThermals (clearRPMCeilings (clearSetPoints y))) as [x| |]; cbn [bind map_ok]; [apply lz_determine|reflexivity|reflexivity].
Qed.

Lemma lz_tick f e1 e2 l : env_later (tk_fan e1) (tk_fan e2) -> env_later (tk_therm e1) (tk_therm e2) ->
  tk_write e2 = tk_write e1 -> tk_tune e2 = tk_tune e1 ->
  loop_tick f e2 (later_loop k l) = map_ok (later_loop k) (loop_tick f e1 l).
Proof.
  intros E1 E2 E3 E4. unfold loop_tick. rewrite E3, E4. cbv zeta. cbn [l_zone l_cycleCnt later_loop].
  change (z_manualMode (L (l_zone l))) with (z_manualMode (l_zone l)).
  destruct (z_manualMode (l_zone l)).
  { cbn [map_ok bind]. f_equal. unfold rearm, later_loop. cbn [l_zone l_cycleCnt l_expiry].
    change (z_cycleIntervalTimeMS (L (l_zone l))) with (z_cycleIntervalTimeMS (l_zone l)). f_equal. lia. }
  rewrite (lz_telemetry _ _ _ _ E1). destruct (updateFanTelemetry f (tk_fan e1) (l_zone l)) as [z| |]; cbn [bind map_ok]; try reflexivity.
  change (z_updateThermalsTimeMS (L z)) with (z_updateThermalsTimeMS z).
  change (z_cycleIntervalTimeMS (L (l_zone l))) with (z_cycleIntervalTimeMS (l_zone l)).
  set (ms := z_cycleIntervalTimeMS (l_zone l)). clearbody ms.
  assert (G : forall y cnt,
    (do z <- processFans f (tk_write e1) (L y);
     Ok (rearm (log_tokens f [LComma; LBool (getFailSafeMode z); LEndl] z) ((cnt + ms) mod uint64_mod) (later_loop k l))) =
    map_ok (later_loop k) (do z <- processFans f (tk_write e1) y;
     Ok (rearm (log_tokens f [LComma; LBool (getFailSafeMode z); LEndl] z) ((cnt + ms) mod uint64_mod) l))).
  { intros y cnt. rewrite lz_fans. destruct (processFans f (tk_write e1) y) as [x| |]; cbn [bind map_ok]; try reflexivity.
    change (getFailSafeMode (L x)) with (getFailSafeMode x). rewrite lz_log.
    generalize (log_tokens f [LComma; LBool (getFailSafeMode x); LEndl] x), ((cnt + ms) mod uint64_mod). intros x' c.
    f_equal. unfold rearm, later_loop. cbn [l_zone l_cycleCnt l_expiry].
    change (z_cycleIntervalTimeMS (L x')) with (z_cycleIntervalTimeMS x'). f_equal. lia. }
  destruct (z_updateThermalsTimeMS z <=? l_cycleCnt l); [|cbn [bind]; apply G].
  rewrite (lz_cycle _ _ _ _ _ E2). destruct (thermal_cycle f (tk_therm e1) (tk_tune e1) z) as [y| |]; cbn [bind map_ok]; [apply G|reflexivity|reflexivity].
Qed.

Lemma lz_cache z : initializeCache (L z) = L (initializeCache z).
Proof.
  unfold initializeCache. cbv zeta. change (z_fanInputs (L z)) with (z_fanInputs z).
  assert (G : forall (F : zone -> string -> zone), (forall y n, F (L y) n = L (F y n)) ->
    forall l y, fold_left F l (L y) = L (fold_left F l y)).
  { intros F H. induction l as [|n l IH]; intros y; [reflexivity|]. cbn [fold_left]. rewrite H. apply IH. }
  rewrite (G initializeCache_fan).
  - generalize (fold_left initializeCache_fan (z_fanInputs z) z). clear z. intros z. change (z_thermalInputs (L z)) with (z_thermalInputs z).
    apply G. intros y n. unfold initializeCache_thermal. cbv zeta.
    change (set_cachedValuesByName ?m (L y)) with (L (set_cachedValuesByName m y)). apply lz_missing.
  - intros y n. unfold initializeCache_fan. cbv zeta.
    match goal with |- markSensorMissing n "" (set_cachedFanOutputs _ _) = L (markSensorMissing n "" ?u) =>
      match goal with |- markSensorMissing n "" ?x = _ => change x with (L u) end end. apply lz_missing.
Qed.

Lemma lz_start f e1 e2 te now z : env_later e1 e2 ->
  loop_start f e2 te (now + k) (L z) = map_ok (later_loop k) (loop_start f e1 te now z).
Proof.
  intros E. unfold loop_start. cbv zeta.
  assert (I : initializeLog f (L z) = L (initializeLog f z)) by (unfold initializeLog; rewrite <- lz_log; reflexivity).
  rewrite I, lz_cache, (lz_cycle _ _ _ _ _ E). generalize (initializeCache (initializeLog f z)). clear z I. intros z.
  destruct (thermal_cycle f e1 te z) as [y| |]; cbn [bind map_ok]; try reflexivity.
  f_equal. unfold later_loop. cbn [l_zone l_cycleCnt l_expiry].
  change (z_cycleIntervalTimeMS (L y)) with (z_cycleIntervalTimeMS y). f_equal. lia.
Qed.
End Zone.

(** ** The daemon *)
Lemma ls_view k s files now : env_later k (view_env s files now) (view_env (later_system k s) files (now + k)).
Proof.
  constructor; [reflexivity|]. intros n. cbn [view_env pe_sensor later_system sy_sensors sy_failures sy_power].
  fold (later_all k (sy_sensors s)). rewrite later_mget. destruct (mget n (sy_sensors s)) as [x|]; [|reflexivity]. cbn [option_map].
  rewrite later_poll. destruct (sensor_poll (sy_failures s) (sy_power s) files now x); reflexivity.
Qed.

Lemma ls_check k s files now names : poll_check (later_system k s) files (now + k) names = poll_check s files now names.
Proof.
  unfold poll_check. generalize tt. induction names as [|n l IH]; intros u; [reflexivity|]. cbn [foldM later_system sy_sensors sy_failures sy_power].
  fold (later_all k (sy_sensors s)). rewrite later_mget. destruct (mget n (sy_sensors s)) as [x|]; [|reflexivity]. cbn [option_map].
  rewrite later_poll. destruct (sensor_poll (sy_failures s) (sy_power s) files now x); cbn [map_ok bind]; [apply IH|reflexivity|reflexivity].
Qed.

Lemma ls_write_env k m n : sensors_write_env (later_all k m) n = sensors_write_env m n.
Proof.
  unfold sensors_write_env. rewrite later_mget. destruct (mget n m) as [[t r w i|t i h]|]; reflexivity.
Qed.

Lemma tick_write f e1 e2 l : tk_fan e2 = tk_fan e1 -> tk_therm e2 = tk_therm e1 -> tk_tune e2 = tk_tune e1 ->
  (forall n, tk_write e2 n = tk_write e1 n) -> loop_tick f e2 l = loop_tick f e1 l.
Proof.
  intros E1 E2 E3 W. unfold loop_tick. rewrite E1, E2, E3.
  assert (G : forall z, processFans f (tk_write e2) z = processFans f (tk_write e1) z).
  { intros z. unfold processFans.
    assert (R : forall fs y, run_all (opt_fan_process f (tk_write e2)) fs y = run_all (opt_fan_process f (tk_write e1)) fs y).
    { induction fs as [|c fs IH]; intros y; [reflexivity|]. cbn [run_all].
      assert (F : opt_fan_process f (tk_write e2) c y = opt_fan_process f (tk_write e1) c y).
      { destruct c as [c|]; [|reflexivity]. cbn [opt_fan_process]. unfold fan_process. destruct (fan_setptProc c y) as [c1 sp].
        destruct (fan_inputProc c1 y) as [i| |]; cbn [bind]; try reflexivity. destruct (pid_process (fan_pid c1) sp i) as [p o].
        unfold fan_outputProc. cbv zeta. match goal with |- context [foldM (write_fan (tk_write e2) ?q ?j) ?l ?y0] =>
          assert (M : forall l' y', foldM (write_fan (tk_write e2) q j) l' y' = foldM (write_fan (tk_write e1) q j) l' y');
          [|rewrite M; reflexivity]; generalize q j end.
        intros q j. induction l' as [|n l' IHl]; intros y'; [reflexivity|]. cbn [foldM]. unfold write_fan at 1 3. rewrite W.
        match goal with |- bind ?o _ = bind ?o _ => destruct o; cbn [bind]; [apply IHl|reflexivity|reflexivity] end. }
      rewrite F. destruct (opt_fan_process f (tk_write e1) c y) as [[c' x]| |]; cbn [bind]; try reflexivity. rewrite IH. reflexivity. }
    rewrite R. reflexivity. }
  destruct (z_manualMode (l_zone l)); [reflexivity|]. cbv zeta.
  destruct (updateFanTelemetry f (tk_fan e1) (l_zone l)) as [z| |]; cbn [bind]; try reflexivity.
  match goal with |- bind ?o _ = bind ?o _ => destruct o as [[y c]| |]; cbn [bind]; [rewrite G; reflexivity|reflexivity|reflexivity] end.
Qed.

Lemma update_later {A : Type} (h : A -> A) (g1 g2 : A -> outcome A) (H : forall x, g2 (h x) = map_ok h (g1 x)) :
  forall l i, update_nth i g2 (map h l) = map_ok (map h) (update_nth i g1 l).
Proof.
  induction l as [|x l IH]; intros [|i]; try reflexivity; cbn [update_nth map].
  - rewrite H. destruct (g1 x); reflexivity.
  - rewrite IH. destruct (update_nth i g1 l); reflexivity.
Qed.

Lemma new_writes_later k z z' : new_writes (later_zone k z) (later_zone k z') = new_writes z z'.
Proof.
  unfold new_writes. cbn [later_zone z_trace set_trace]. rewrite !map_length.
  generalize (List.length (z_trace z') - List.length (z_trace z))%nat. intros m. rewrite firstn_map, <- map_rev.
  generalize (rev (firstn m (z_trace z'))). intros l.
  induction l as [|e l IH]; [reflexivity|]. cbn [map flat_map]. rewrite IH. destruct e; reflexivity.
Qed.

Lemma ls_apply k ok j s w :
  apply_write ok (j, later_system k s) w = map_ok (fun q => (fst q, later_system k (snd q))) (apply_write ok (j, s) w).
Proof.
  destruct w as [[n v] b]. unfold apply_write. cbn [later_system sy_sensors sy_devices].
  fold (later_all k (sy_sensors s)). rewrite later_mget.
  destruct (mget n (sy_sensors s)) as [[t r [path w|path percent min max|] i|t i h]|]; cbn [option_map later_sensor]; try reflexivity.
  - destruct (dbus_write v b (ok j) w) as [rw| |]; cbn [bind map_ok fst snd]; try reflexivity.
    cbv zeta. f_equal. f_equal. destruct (sent w (fst rw)) as [x|]; unfold later_system, set_devices, set_sensors;
      cbn [sy_sensors sy_failures sy_power sy_loops sy_devices]; f_equal; symmetry; apply (later_mset k).
  - destruct (sysfs_write percent min max v (ok j) (mget path (sy_devices s))) as [[x|]| |]; reflexivity.
Qed.

Lemma ls_tick k f i w s : sys_tick f i (later_wake k w) (later_system k s) = map_ok (later_system k) (sys_tick f i w s).
Proof.
  unfold sys_tick. change (sy_loops (later_system k s)) with (map (later_loop k) (sy_loops s)). rewrite nth_error_map.
  destruct (nth_error (sy_loops s) i) as [l|]; cbn [option_map]; [|reflexivity]. cbv zeta.
  change (z_manualMode (l_zone (later_loop k l))) with (z_manualMode (l_zone l)).
  change (z_fanInputs (l_zone (later_loop k l))) with (z_fanInputs (l_zone l)).
  change (z_thermalInputs (l_zone (later_loop k l))) with (z_thermalInputs (l_zone l)).
  change (z_updateThermalsTimeMS (l_zone (later_loop k l))) with (z_updateThermalsTimeMS (l_zone l)).
  change (l_cycleCnt (later_loop k l)) with (l_cycleCnt l).
  cbn [later_wake wk_fan_now wk_fan_files wk_therm_now wk_therm_files wk_write_ok]. rewrite !ls_check.
  match goal with |- bind ?o _ = _ => destruct o as [u| |]; cbn [bind map_ok]; try reflexivity end.
  rewrite (update_later (later_loop k) (fun l => loop_step f l (LTick (tick_of s w)))
    (fun l => loop_step f l (LTick (tick_of (later_system k s) (later_wake k w))))).
  2: { intros x. cbn [loop_step]. rewrite <- (lz_tick k f (tick_of s w)
      (TickEnv (tk_fan (tick_of (later_system k s) (later_wake k w))) (tk_therm (tick_of (later_system k s) (later_wake k w)))
        (tk_write (tick_of s w)) (tk_tune (tick_of s w))) x).
    - apply tick_write; try reflexivity. intros n. apply ls_write_env.
    - apply ls_view.
    - apply ls_view.
    - reflexivity.
    - reflexivity. }
  destruct (update_nth i (fun l => loop_step f l (LTick (tick_of s w))) (sy_loops s)) as [ls| |]; cbn [bind map_ok]; try reflexivity.
  rewrite nth_error_map. change (set_loops (map (later_loop k) ls) (later_system k s)) with (later_system k (set_loops ls s)).
  destruct (nth_error ls i) as [l'|]; cbn [option_map]; [|reflexivity].
  change (l_zone (later_loop k l)) with (later_zone k (l_zone l)). change (l_zone (later_loop k l')) with (later_zone k (l_zone l')).
  rewrite new_writes_later. generalize (new_writes (l_zone l) (l_zone l')). intros ws.
  assert (E := foldM_later (fun q : nat * system => (fst q, later_system k (snd q))) (apply_write (wk_write_ok w))
    (apply_write (wk_write_ok w)) (fun q e => match q with (j, y) => ls_apply k (wk_write_ok w) j y e end) ws (O, set_loops ls s)).
  cbn [fst snd] in E. rewrite E. destruct (foldM (apply_write (wk_write_ok w)) ws (O, set_loops ls s)) as [q| |]; reflexivity.
Qed.

Lemma ls_signal k sf pow10 path m l :
  signal_all sf pow10 path (later_msg k m) (later_all k l) = map_ok (later_all k) (signal_all sf pow10 path m l).
Proof.
  induction l as [|[n x] l IH]; [reflexivity|]. cbn [signal_all later_all map fst snd].
  assert (E := later_core_after k sf pow10 n x (SSignal path m)). cbn [core_after later_event] in E. rewrite E.
  destruct (sensor_signal sf pow10 path m x) as [y| |]; cbn [bind map_ok]; try reflexivity.
  fold (later_all k l). rewrite IH. destruct (signal_all sf pow10 path m l); reflexivity.
Qed.

Lemma ls_step k f sf pow10 s e :
  sys_step f sf pow10 (later_system k s) (later_event k e) = map_ok (later_system k) (sys_step f sf pow10 s e).
Proof.
  destruct e as [path m|n v t|m|c|j w|j b|j p b]; cbn [sys_step later_event].
  - change (sy_sensors (later_system k s)) with (later_all k (sy_sensors s)). rewrite ls_signal.
    destruct (signal_all sf pow10 path m (sy_sensors s)); reflexivity.
  - cbn [map_ok bind]. f_equal. change (sy_sensors (later_system k s)) with (later_all k (sy_sensors s)).
    assert (E : host_write n (v, t + k) (later_all k (sy_sensors s)) = later_all k (host_write n (v, t) (sy_sensors s))).
    { unfold host_write. rewrite later_mget. destruct (mget n (sy_sensors s)) as [[ty r w i|ty i h]|]; cbn [option_map later_sensor];
        try reflexivity. rewrite later_mset. reflexivity. }
    rewrite E. reflexivity.
  - change (sy_failures (later_system k s)) with (sy_failures s). destruct (handleRedundancy (sy_failures s) m); reflexivity.
  - reflexivity.
  - apply ls_tick.
  - change (sy_loops (later_system k s)) with (map (later_loop k) (sy_loops s)).
    rewrite (update_later (later_loop k) (fun l => loop_step f l (LManual b)) (fun l => loop_step f l (LManual b))).
    + destruct (update_nth j (fun l => loop_step f l (LManual b)) (sy_loops s)); reflexivity.
    + intros l. cbn [loop_step map_ok bind]. f_equal. unfold with_zone, later_loop. cbn [l_zone l_cycleCnt l_expiry]. f_equal.
      unfold setManualMode. destruct b; reflexivity.
  - change (sy_loops (later_system k s)) with (map (later_loop k) (sy_loops s)).
    rewrite (update_later (later_loop k) (fun l => loop_step f l (LEnable p b)) (fun l => loop_step f l (LEnable p b))).
    + destruct (update_nth j (fun l => loop_step f l (LEnable p b)) (sy_loops s)); reflexivity.
    + intros l. cbn [loop_step map_ok bind]. f_equal. unfold with_zone, later_loop. cbn [l_zone l_cycleCnt l_expiry]. f_equal.
      unfold setProcessEnabled. change (z_pidsControlProcess (later_zone k (l_zone l))) with (z_pidsControlProcess (l_zone l)).
      destruct (mget p (z_pidsControlProcess (l_zone l))); reflexivity.
Qed.

Lemma later_end_map k o : later_end k o = map_ok (later_system k) o.
Proof. destruct o; reflexivity. Qed.

Lemma C110_end_lemma f sf pow10 k evs s :
  sys_run f sf pow10 (map (later_event k) evs) (later_system k s) = later_end k (sys_run f sf pow10 evs s).
Proof. rewrite later_end_map. unfold sys_run. apply foldM_map. intros a e. apply ls_step. Qed.

Lemma ls_start k f zs : Forall (fun e => z_trace (snd e) = []) zs -> forall s,
  foldM (start_zone f) (map (later_start k) zs) (later_system k s) = map_ok (later_system k) (foldM (start_zone f) zs s).
Proof.
  induction 1 as [|[i z] zs T _ IH]; intros s; [reflexivity|]. cbn [map foldM snd] in *.
  assert (E : start_zone f (later_system k s) (later_start k (i, z)) = map_ok (later_system k) (start_zone f s (i, z))).
  { unfold start_zone. cbn [later_start fst snd st_now st_files st_tune st_timer]. rewrite ls_check.
    destruct (poll_check s (st_files i) (st_now i) (z_thermalInputs z)) as [u| |]; cbn [bind map_ok]; try reflexivity.
    assert (Z : z = later_zone k z) by (unfold later_zone; rewrite T; destruct z; cbn in T |- *; rewrite T; reflexivity).
    rewrite Z at 1. rewrite (lz_start k f _ _ _ _ _ (ls_view k s (st_files i) (st_now i))).
    destruct (loop_start f (view_env s (st_files i) (st_now i)) (st_tune i) (st_timer i) z) as [l| |]; cbn [bind map_ok]; try reflexivity.
    f_equal. unfold later_system, set_loops. cbn [sy_sensors sy_failures sy_power sy_loops sy_devices]. f_equal.
    rewrite map_app. reflexivity. }
  rewrite E. destruct (start_zone f s (i, z)); cbn [bind map_ok]; [apply IH|reflexivity|reflexivity].
Qed.

Lemma C110_life_lemma f sf pow10 sb config failures first devices zs evs k s :
  runs f sf pow10 sb config failures first devices zs evs s ->
  runs f sf pow10 (later_bus k sb) config failures first devices (map (later_start k) zs) (map (later_event k) evs)
    (later_system k s).
Proof.
  intros [Nc Fr (m & a0 & Bm & A0 & A)]. constructor; [exact Nc| |].
  - rewrite Forall_map. exact Fr.
  - exists (later_all k m), (later_system k a0). split; [apply later_builds, Bm|]. split.
    + unfold sys_start in *. change (Sys (later_all k m) failures (host_initial first) [] devices)
        with (later_system k (Sys m failures (host_initial first) [] devices)).
      rewrite ls_start, A0; [reflexivity|]. eapply Forall_impl; [|exact Fr]. intros e H. apply H.
    + rewrite C110_end_lemma, A. reflexivity.
Qed.
