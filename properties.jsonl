{"id": "C01", "title": "PID output stays inside the configured output limits", "statement": "Take a PID loop whose configuration has outLim.min <= outLim.max, slewNeg <= 0 <= slewPos and samplePeriod >= 0. After any sequence of evaluations with arbitrary inputs and setpoints (including infinities and NaN), every output the loop returns is either NaN or lies between outLim.min and outLim.max, also while slew limiting is active.", "quantifier": "for every configuration with sane limits, every finite history of (input, setpoint) pairs of doubles", "why_tests_cant": "The output depends on the whole history (integral, last error, last output) and on IEEE rounding/overflow; a test visits finitely many histories.", "anchors": ["pid/ec/pid.cpp: pid, clamp", "pid/ec/pid.hpp: pid_info_t"]}
{"id": "C02", "title": "Integral accumulator stays inside the integral limits", "statement": "After any evaluation in any history, the loop's stored integral term is NaN or lies between integralLimit.min and integralLimit.max, including after the slew limiter back-calculates it.", "quantifier": "for every configuration with integralLimit.min <= integralLimit.max and every history of inputs and setpoints", "why_tests_cant": "Wind-up is a property of unbounded histories; the back-calculation path only triggers for particular state/input combinations.", "anchors": ["pid/ec/pid.cpp: pid, clamp"]}
{"id": "C03", "title": "Slew rate bound between consecutive outputs", "statement": "From the second evaluation on, if slewPos is non-zero the output is at most lastOutput + slewPos*samplePeriod, and if slewNeg is non-zero it is at least lastOutput + slewNeg*samplePeriod (as computed in double arithmetic), unless NaN is involved.", "quantifier": "for every state reached by any history, every input and setpoint, with slewNeg <= 0 <= slewPos and samplePeriod >= 0", "why_tests_cant": "The bound relates consecutive elements of arbitrarily long histories and has to hold for both limits at once under rounding.", "anchors": ["pid/ec/pid.cpp: pid, clamp"]}
{"id": "C04", "title": "The output before slew limiting is the documented PID formula", "statement": "Every evaluation computes P = Kp*error, I = clamp(integral + error*Ki*ts) (0 when Ki is 0), D = Kd*((error-lastError)/ts), FF = (setpoint+offset)*gain with error = setpoint - input; the first evaluation returns exactly clamp(P+I+D+FF) and no slew limit is applied to it; later ones apply only the slew limits on top.", "quantifier": "for every configuration, state, input and setpoint", "why_tests_cant": "Exact double-precision equality for all operands, including the rule that the first call is not slew limited.", "anchors": ["pid/ec/pid.cpp: pid, clamp", "pid/util.cpp: initializePIDStruct"]}
{"id": "C05", "title": "Hotter input never asks for less cooling", "statement": "With non-positive P, I and D coefficients and equal loop state and setpoint, a larger input never gives a smaller output (NaN aside): the loop's response to temperature is monotone through clamping and slew limiting.", "quantifier": "for every pair of inputs, every configuration with coefficients <= 0 and positive samplePeriod, every common state", "why_tests_cant": "A relational (two-run) property over all doubles; rounding, clamping and slew limiting each could break monotonicity.", "anchors": ["pid/ec/pid.cpp: pid, clamp"]}
{"id": "C06", "title": "Sane configurations and readings never produce NaN", "statement": "If the configuration values, setpoints and readings are finite with magnitude at most 2^200 and samplePeriod >= 2^-100, then after any history the output, integral and stored error are finite: NaN can neither appear nor persist.", "quantifier": "for every such configuration and every finite history of such readings", "why_tests_cant": "Needs an inductive bound on the loop state over unbounded histories.", "anchors": ["pid/ec/pid.cpp: pid, clamp"]}
{"id": "C07", "title": "Input hysteresis band", "statement": "With non-zero hysteresis and checkHysteresisWithSetpoint off, the process value handed to the PID computation changes only when the reading moves by more than positiveHysteresis above or negativeHysteresis below the value in use, in which case it becomes the reading; so the value in use never differs from the current finite reading by more than the configured band.", "quantifier": "for every controller state and every sequence of finite readings", "why_tests_cant": "A history property: value in use is the result of all earlier readings.", "anchors": ["pid/pidcontroller.cpp: PIDController::calPIDOutput"]}
{"id": "C08", "title": "Setpoint hysteresis mode", "statement": "With checkHysteresisWithSetpoint on, an input above setpoint+positiveHysteresis runs the PID, an input below setpoint-negativeHysteresis gives output 0 and clears the integral, and an input in between repeats the previous output unchanged.", "quantifier": "for every controller state, input and setpoint", "why_tests_cant": "Three-way case split over all doubles including NaN/equality boundaries and its effect on later outputs.", "anchors": ["pid/pidcontroller.cpp: PIDController::calPIDOutput, PIDController::process"]}
{"id": "C09", "title": "Stepwise table lookup", "statement": "A stepwise controller's table lookup returns the output of the highest point whose reading does not exceed the input when the readings are increasing, and output[0] if every point after the first is above the input; points after the first NaN reading are never used. With increasing outputs a higher input never yields a lower output.", "quantifier": "for every table of 20 points and every input double", "why_tests_cant": "Quantifies over all tables and inputs.", "anchors": ["pid/ec/stepwise.cpp: stepwise", "pid/ec/stepwise.hpp: StepwiseInfo"]}
{"id": "C10", "title": "Stepwise hysteresis", "statement": "Between recomputations a stepwise controller repeats its last output while the input stays within the configured band around the input of the last recomputation; otherwise it outputs the table value for the current input. Every value it ever outputs is an entry of its table.", "quantifier": "for every table, band and input history", "why_tests_cant": "A history property of a stateful controller.", "anchors": ["pid/stepwisecontroller.cpp: StepwiseController::process, inputProc, outputProc"]}
{"id": "C11", "title": "Thermal controller input aggregation", "statement": "A margin controller uses the smallest, a temp/power controller the largest and a powersum controller the sum of its inputs' current finite readings (margin readings converted by TempToMargin where configured); unreadable inputs are skipped; if none is readable the setpoint is used so the error is zero.", "quantifier": "for every list of inputs and every assignment of cached readings, including NaN and infinities", "why_tests_cant": "All subsets of readable sensors and all orderings of values.", "anchors": ["pid/thermalcontroller.cpp: ThermalController::inputProc, getThermalType"]}
{"id": "C12", "title": "Fan controller input aggregation", "statement": "A fan controller's input is the lowest positive finite RPM among its fans, and 0 exactly when no fan reports a positive finite RPM.", "quantifier": "for every list of fans and every assignment of tachometer readings", "why_tests_cant": "All subsets of stopped/unreadable fans.", "anchors": ["pid/fancontroller.cpp: FanController::inputProc"]}
{"id": "C13", "title": "Zone setpoint selection", "statement": "After a thermal cycle without tuning mode and without setpoint accumulation, the zone's requested setpoint equals max(minThermalOutput, min(lowest ceiling, max(0, all setpoints requested by enabled controllers in this cycle))); in particular nothing from earlier cycles contributes.", "quantifier": "for every set of controllers, outputs, ceilings and zone configuration free of NaN, after any history", "why_tests_cant": "All numbers and orders of controllers, and independence from history.", "anchors": ["pid/zone.cpp: addSetPoint, addRPMCeiling, clearSetPoints, determineMaxSetPointRequest", "pid/pidloop.cpp: processThermals"]}
{"id": "C14", "title": "Setpoint accumulation by profile", "statement": "With accumulateSetPoint on, the setpoints of enabled controllers whose names agree after the first underscore are added up, and the zone requests the largest running sum reached by any profile (subject to ceilings and minimum).", "quantifier": "for every list of (name, setpoint) requests", "why_tests_cant": "All groupings and orders of controllers.", "anchors": ["pid/zone.cpp: addSetPoint, determineMaxSetPointRequest"]}
{"id": "C15", "title": "Disabled controllers contribute nothing", "statement": "A thermal controller that asks for setpoints (not one configured as a ceiling) whose Enable property is false leaves the zone's requested setpoint and requester unchanged, and re-enabling it makes it contribute again from the next thermal cycle.", "quantifier": "for every zone state and every sequence of Enable changes and requests", "why_tests_cant": "Interleavings of property changes with control cycles.", "anchors": ["pid/zone.cpp: addSetPoint, isPidProcessEnabled, addPidControlProcess"]}
{"id": "C16", "title": "The requested setpoint never drops below the zone minimum and is never NaN", "statement": "Whatever the controllers output (including NaN and negative values), after every thermal cycle the zone's requested setpoint is not NaN and is at least minThermalOutput (tuning off).", "quantifier": "for every history of thermal cycles and controller outputs, for every non-NaN minThermalOutput", "why_tests_cant": "Adversarial controller outputs including NaN, over all histories.", "anchors": ["pid/zone.cpp: addSetPoint, determineMaxSetPointRequest"]}
{"id": "C17", "title": "Failsafe membership is exactly the failing sensors", "statement": "At any time after start-up, a sensor puts its zone into failsafe if and only if it is an input of the zone, is not configured as missing-acceptable, and its most recent poll by the zone found it failed or timed out (or it has not been polled yet). The zone's FailSafe property is true iff there is such a sensor.", "quantifier": "for every sequence of polls of fan and thermal inputs with arbitrary sensor status", "why_tests_cant": "History property over all interleavings of failures and recoveries.", "anchors": ["pid/zone.hpp: processSensorInputs", "pid/zone.cpp: initializeCache, markSensorMissing, getFailSafeMode"]}
{"id": "C18", "title": "Start-up is in failsafe", "statement": "When a zone starts, every input that is not missing-acceptable is in failsafe before any sensor is read, and stays so until its own first good poll.", "quantifier": "for every zone configuration and every order of first polls", "why_tests_cant": "All configurations and poll orders.", "anchors": ["pid/zone.cpp: initializeCache", "pid/pidloop.cpp: pidControlLoop"]}
{"id": "C19", "title": "Failsafe percent is the maximum over failing sensors", "statement": "While in failsafe the percent reported by the zone is the largest of the failing sensors' percents, where a sensor without its own (zero) setting uses the zone's setting; with no failing sensor it is the zone's setting.", "quantifier": "for every set of failing sensors and every assignment of non-NaN, non-negative percents", "why_tests_cant": "All subsets of failing sensors and map orders.", "anchors": ["pid/zone.cpp: getFailSafePercent, markSensorMissing, addPidFailSafePercent"]}
{"id": "C20", "title": "Failsafe floor on every fan command", "statement": "While the zone is in failsafe and tuning is off, every fan write carries a percentage not below the zone's failsafe percent (default build; computed output not NaN).", "quantifier": "for every controller state and zone state", "why_tests_cant": "Every computed output, every failing-sensor set.", "anchors": ["pid/fancontroller.cpp: FanController::outputProc"]}
{"id": "C21", "title": "Strict failsafe is exact", "statement": "In a build with strict failsafe, while the zone is in failsafe and tuning is off every fan write carries exactly the failsafe percent regardless of the computed output (even NaN).", "quantifier": "for every controller state and zone state", "why_tests_cant": "Every computed output.", "anchors": ["pid/fancontroller.cpp: FanController::outputProc"]}
{"id": "C22", "title": "Outside failsafe, and in tuning mode, the computed output is written unchanged", "statement": "If the zone is not in failsafe, or tuning mode is on, the value written to each fan is the PID output divided by 100, to every fan of the controller, in order, once each.", "quantifier": "for every controller, output and zone state", "why_tests_cant": "Every number of fans and every output.", "anchors": ["pid/fancontroller.cpp: FanController::outputProc"]}
{"id": "C23", "title": "Missing-acceptable sensors never cause failsafe", "statement": "A sensor listed as missing-acceptable is never among the failsafe sensors, whatever it reports and whenever it is polled.", "quantifier": "for every history of polls", "why_tests_cant": "History property over all sensor behaviours.", "anchors": ["pid/zone.cpp: markSensorMissing, addThermalInput, addFanInput"]}
{"id": "C24", "title": "Stale sensors are detected", "statement": "If a sensor with a non-zero timeout has not been updated for at least that many whole seconds when the zone polls it, the zone is in failsafe after that poll (unless missing-acceptable), with reason 'Sensor timeout' when the sensor is not otherwise failed; a sensor with timeout 0 never times out.", "quantifier": "for every timeout, update time and poll time", "why_tests_cant": "Boundary over all clock values.", "anchors": ["pid/zone.hpp: processSensorInputs"]}
{"id": "C25", "title": "Manual mode never writes fans", "statement": "While a zone is in manual mode its control cycles write no fan, poll no sensor and change no controller state, for any number of cycles; the cycle phase is also frozen.", "quantifier": "for every sequence of cycles and other events during manual mode", "why_tests_cant": "All schedules of cycles and mode changes.", "anchors": ["pid/pidloop.cpp: pidControlLoop", "pid/zone.cpp: setManualMode"]}
{"id": "C26", "title": "Leaving manual mode forces exactly one full rewrite", "statement": "The first control cycle after manual mode is switched off writes every fan with the force flag set, even if the value is unchanged; subsequent cycles do not force until the next such switch.", "quantifier": "for every sequence of mode changes and cycles", "why_tests_cant": "All schedules of mode changes relative to cycles.", "anchors": ["pid/zone.cpp: setManualMode, processFans", "pid/fancontroller.cpp: outputProc"]}
{"id": "C27", "title": "Fan and thermal cycle ratio", "statement": "With fan interval F and thermal interval T (1 <= F <= T), after n automatic cycles the number of thermal cycles run by the loop is exactly floor((n-1)*F/T): the ratio never drifts and no thermal cycle is skipped or doubled.", "quantifier": "for every F, T and every number of cycles, with manual periods interleaved", "why_tests_cant": "Needs an invariant over unboundedly many cycles.", "anchors": ["pid/pidloop.cpp: pidControlLoop"]}
{"id": "C28", "title": "Control cycles are scheduled without drift", "statement": "The k-th wake-up of a zone is scheduled at start + k*F exactly, independently of how long processing takes or how late the handlers run.", "quantifier": "for every sequence of handler delays and processing times", "why_tests_cant": "All timings.", "anchors": ["pid/pidloop.cpp: pidControlLoop"]}
{"id": "C29", "title": "D-Bus sensor failure status", "statement": "After any sequence of property-change signals, a D-Bus sensor reports failed exactly when: its path is in the failed redundancy set; or its object is missing; or it is not exempt as unavailable (only non-fan sensors with unavailableAsFailed off are exempt) and its last reading was non-finite, or its last accepted margin reading was <= 0, or the last threshold message asserted an alarm, or it is unavailable, or not functional. The reason text it gives and the line it passes to the failsafe log name the first of these causes in that order. A message about availability beats the property read at start.", "quantifier": "for every signal history and configuration", "why_tests_cant": "History property over all message sequences.", "anchors": ["dbus/dbuspassive.cpp: getFailed, updateValue, handleSensorValue, initFromSettings"]}
{"id": "C30", "title": "Bad readings never replace the last good value", "statement": "A non-finite reading arriving by signal leaves the stored value and its timestamp unchanged and marks the sensor bad until the next finite reading; only the sensor becoming unavailable clears the stored value.", "quantifier": "for every signal history", "why_tests_cant": "History property over all message sequences.", "anchors": ["dbus/dbuspassive.cpp: updateValue, handleSensorValue"]}
{"id": "C31", "title": "Critical alarm handling", "statement": "A critical-threshold message marks the sensor failed iff one of the alarm properties it carries is true, and a message carrying neither property changes nothing.", "quantifier": "for every message content", "why_tests_cant": "All combinations of present/absent properties and values.", "anchors": ["dbus/dbuspassive.cpp: handleSensorValue"]}
{"id": "C32", "title": "Raw PWM written stays between configured min and max", "statement": "For a percentage between 0 and 1 and configured min <= max (|min|,|max| <= 2^53, range <= 2^53), the raw integer written to the fan lies in [min, max] and is min at 0 and max at 1; it is monotone in the percentage.", "quantifier": "for every percentage double in [0,1] and every such min/max", "why_tests_cant": "Double rounding over all operands.", "anchors": ["dbus/dbuswrite.cpp: DbusWritePercent::write", "sysfs/sysfswrite.cpp: SysFsWritePercent::write"]}
{"id": "C33", "title": "Redundant writes are suppressed, changed values are not", "statement": "A D-Bus fan writer sends a bus message iff the raw integer differs from the last one it handled or the write is forced; if all bus calls succeed, after every write the value held by the fan equals the last commanded raw value.", "quantifier": "for every sequence of writes", "why_tests_cant": "History property over all write sequences.", "anchors": ["dbus/dbuswrite.cpp: DbusWritePercent::write, DbusWrite::write"]}
{"id": "C34", "title": "A lost bus write is repaired by the next forced or changed write", "statement": "If a bus call fails, the fan keeps its old value; the next write that is forced or has a different raw value is sent. (An unforced repeat of the same value is suppressed, so the fan may stay stale: see refutation.)", "quantifier": "for every sequence of writes and call failures", "why_tests_cant": "All failure points in all write sequences.", "anchors": ["dbus/dbuswrite.cpp: DbusWritePercent::write, DbusWrite::write"]}
{"id": "C35", "title": "Sensor readings are normalised into [0,1]", "statement": "With 0 < max, min < max finite (and max - min not overflowing) and a reading between min and max, the normalised value lies in [0,1], is 0 at min and 1 at max and is monotone; with max <= 0 or max <= min the reading is passed unchanged.", "quantifier": "for every min, max, reading double", "why_tests_cant": "Double rounding over all operands.", "anchors": ["dbus/dbusutil.cpp: scaleSensorReading"]}
{"id": "C36", "title": "Zone numbers are unique and stable", "statement": "Assigning zone numbers by name never gives two names the same number, never changes a number already assigned, returns the requested number if it is free and otherwise the next free one, and looking a name up again returns the same number.", "quantifier": "for every sequence of assignments and lookups (below 2^63)", "why_tests_cant": "All sequences of names and requested numbers.", "anchors": ["dbus/dbusutil.cpp: setZoneIndex, getZoneIndex"]}
{"id": "C37", "title": "Input splicing keeps names and flags", "statement": "Combining input names with TempToMargin values and missing-acceptable names keeps exactly the names in order, attaches the i-th conversion value to the i-th input only, and flags exactly the inputs whose name is listed; splitting returns the original names.", "quantifier": "for all lists of names and values, of any lengths", "why_tests_cant": "All list lengths and duplicates.", "anchors": ["util.cpp: spliceInputs, splitNames"]}
{"id": "C38", "title": "Failsafe log rate limit", "statement": "With a non-decreasing clock whose milliseconds fit a size_t, at most logMaxCountPerSecond messages are emitted by a zone's failsafe logger in any window shorter than one second. With a 32-bit size_t and a clock counting from 1970 no message is ever refused for lack of budget.", "quantifier": "for every width of size_t and every sequence of log attempts and timestamps", "why_tests_cant": "History property over all timings.", "anchors": ["failsafeloggers/failsafe_logger.cpp: FailsafeLogger::outputFailsafeLog"]}
{"id": "C39", "title": "Failsafe log deduplication", "statement": "Between two failsafe state changes the same location and reason is reported at most once, and nothing is printed while the zone stays out of failsafe.", "quantifier": "for every sequence of log attempts", "why_tests_cant": "History property.", "anchors": ["failsafeloggers/failsafe_logger.cpp: FailsafeLogger::outputFailsafeLog"]}
{"id": "C40", "title": "Core log throttle", "statement": "A PID core log line is written for the first evaluation, whenever any recorded value changes, and otherwise at most once per 60 s; no change is ever lost.", "quantifier": "for every sequence of evaluations and timestamps", "why_tests_cant": "History property.", "anchors": ["pid/ec/logging.cpp: LogContext, LogInit"]}
{"id": "C41", "title": "Core log files are never shared", "statement": "Two PID loops with different names never write to the same core log file, whatever their names. Every file lies in the log directory and is named after the loop with everything but letters and digits left out.", "quantifier": "for every sequence of loop names", "why_tests_cant": "All name sets, including names colliding after cleaning.", "anchors": ["pid/ec/logging.cpp: LogInit, StrClean"]}
{"id": "C42", "title": "IPMI manual-mode command decoding", "statement": "The OEM command reads only bytes inside the request, changes a zone's mode only for the set subcommand with at least three bytes, sets it to (value != 0), answers get subcommands with one byte 0/1, and rejects everything else. Over D-Bus, for zone bytes below 128, the reply is that of the zone object with that number; from 128 on the command ends in an exception and reports no mode. A call goes out exactly for paths that are object paths of the D-Bus specification.", "quantifier": "for every request byte string and backend behaviour", "why_tests_cant": "All byte strings.", "anchors": ["ipmi/manualcmds.cpp: manualModeControl, setManualModeState, getManualModeState, getFailsafeModeState", "ipmi/dbus_mode.cpp: getControlPath, getFanCtrlProperty, setFanCtrlProperty"]}
{"id": "C43", "title": "Interface selection by path", "statement": "Which kind of reader and writer a sensor gets is determined by its paths: empty or 'None' gives none; external-sensor paths are host sensors; other OpenBMC paths are D-Bus; /sys/ paths are sysfs; precedence as documented.", "quantifier": "for every path string", "why_tests_cant": "All strings, including those matching several patterns.", "anchors": ["sensors/build_utils.cpp: getReadInterfaceType, getWriteInterfaceType"]}
{"id": "C44", "title": "Cycle times are always positive", "statement": "Whatever value a D-Bus configuration gives, and whatever non-negative number a JSON configuration gives, for the cycle times, the intervals used by a zone are at least 1 ms (default 100 ms / 1000 ms when absent or too small), and an interval gives a positive timer period exactly up to 9223372036854 ms; longer ones overflow or give a negative period.", "quantifier": "for every D-Bus value of any type and every non-negative JSON integer", "why_tests_cant": "All inputs, from both configuration sources.", "anchors": ["pid/buildjson.cpp: getCycleTimeSetting", "dbus/dbusconfiguration.cpp: getCycleTimeSetting", "conf.hpp: CycleTime"]}
{"id": "C45", "title": "Stopping control loops is safe", "statement": "After a successful stop no control loop of the old zones runs another cycle or writes a fan, and after a restart each zone has exactly one live loop. Every attempt to stop was asked for or repeats one that failed.", "quantifier": "for every interleaving of timer expiries, cancellations, restarts and terminations executed in event-loop order in which stop attempts do not overlap, or with a single zone", "why_tests_cant": "All schedules.", "anchors": ["main.cpp: stopControlLoops, restartControlLoops, tryRestartControlLoops, tryTerminateControlLoops", "pid/pidloop.cpp: pidControlLoop"]}
{"id": "C46", "title": "Host-off exemption", "statement": "A sensor flagged ignoreFailIfHostOff is not reported failed while the host is off, and is reported exactly like an unflagged one while the host is on; a host-provided sensor fails iff its last value is non-finite (and not exempt).", "quantifier": "for every sequence of host-state and value changes", "why_tests_cant": "All interleavings.", "anchors": ["sensors/pluggable.cpp: getFailed", "sensors/host.cpp: getFailed", "hoststatemonitor.hpp: HostStateMonitor"]}
{"id": "C47", "title": "Redundancy failures", "statement": "A fan path is in the failed redundancy set iff the most recent status message whose collection contains it said Failed (or it was failed initially and no later message covers it). Queries that fail at start leave fans out of the set and do not end the daemon.", "quantifier": "for every sequence of redundancy messages", "why_tests_cant": "History property.", "anchors": ["dbus/dbuspassiveredundancy.cpp: DbusPassiveRedundancy"]}
{"id": "C48", "title": "Warning throttle", "statement": "The tuning-file warning is emitted the first time and then only if at least the pace has elapsed since the last emitted one. In the daemon the pace is three seconds: any two successive emitted warnings are at least three seconds apart.", "quantifier": "for every sequence of times", "why_tests_cant": "History property.", "anchors": ["pid/zone.cpp: allowThrottle, fileParseRpm"]}
{"id": "C49", "title": "Built zones contain exactly the configured controllers and are safe to run", "statement": "If zone construction succeeds, each zone has one controller per configured fan/thermal/stepwise PID and one D-Bus object per thermal controller with its configured setpoint and class, every thermal input is polled exactly once per cycle, and a thermal cycle never dereferences an unregistered PID object.", "quantifier": "for every configuration", "why_tests_cant": "All configurations.", "anchors": ["pid/builder.cpp: buildZones", "pid/zone.cpp: addThermalInput, isPidProcessEnabled"]}
{"id": "C50", "title": "Offline failsafe", "statement": "In an offline-failsafe build, destroying a zone's fan controllers writes every fan with the zone's current failsafe percent; in a default build destruction writes nothing.", "quantifier": "for every zone state", "why_tests_cant": "All states.", "anchors": ["pid/fancontroller.cpp: FanController::~FanController"]}
{"id": "C51", "title": "End-to-end reaction to a failing thermal sensor", "statement": "From any reachable automatic-mode state, if an input sensor that is not missing-acceptable shows failure at every poll while the zone makes at least ceil(T/F) wake-ups (with any writes of the Enabled properties in between, and no switch to manual), then every fan write of the next wake-up carries at least that sensor's failsafe percent (default build, tuning off, PID output not NaN).", "quantifier": "for every reachable state and every behaviour of other sensors", "why_tests_cant": "A liveness/bounded-response property over all states and environments.", "anchors": ["pid/pidloop.cpp: pidControlLoop", "pid/zone.hpp: processSensorInputs", "pid/fancontroller.cpp: outputProc"]}
{"id": "C52", "title": "Zones are independent", "statement": "A control cycle of one zone does not change any other zone's requested setpoint, failsafe set, mode, or controller state.", "quantifier": "for every interleaving of cycles of several zones", "why_tests_cant": "All interleavings.", "anchors": ["pid/zone.cpp", "pid/pidloop.cpp: pidControlLoop"]}
{"id": "C53", "title": "Every automatic cycle polls every fan", "statement": "Each automatic control cycle reads every fan of the zone once, in configuration order, and, when it runs a thermal cycle, then every thermal input once, in order; nothing else is read.", "quantifier": "for every zone state and every sensor behaviour", "why_tests_cant": "Tests look at single cycles with two or three sensors.", "anchors": ["pid/pidloop.cpp: pidControlLoop", "pid/zone.cpp: updateFanTelemetry, updateSensors"]}
{"id": "C54", "title": "The reported requester is the one that decided", "statement": "After a thermal cycle (no accumulation, tuning off) the requester name shown by the zone is 'Minimum' exactly when the minimum decides, 'Ceiling' when a ceiling lowered the setpoint, and otherwise the first enabled controller that asked for the zone's setpoint.", "quantifier": "for every set of controllers, outputs and ceilings without NaN", "why_tests_cant": "The name depends on the order and on ties of arbitrary requests.", "anchors": ["pid/zone.cpp: addSetPoint, determineMaxSetPointRequest"]}
{"id": "C55", "title": "The CSV log has one well-formed row per automatic cycle", "statement": "With logging on, a zone's log file is the header line followed by one line per automatic cycle; each line has as many cells as the header, under the right headings: setpoint and requester in force, reading and last output of every fan, last reading of every thermal input, failsafe state. The raw output shown for a fan is NaN before the first command; after that it is the raw value of the last command for a fan on the bus, and always -1 for a fan in sysfs.", "quantifier": "for every configuration and every history of cycles and manual periods", "why_tests_cant": "The row is written piecewise by four functions; only whole histories show whether pieces line up.", "anchors": ["pid/zone.cpp: initializeLog, writeLog, updateFanTelemetry", "pid/pidloop.cpp: pidControlLoop", "pid/zone.hpp: processSensorInputs", "pid/fancontroller.cpp: FanController::outputProc", "interfaces.hpp: WriteInterface::write"]}
{"id": "C56", "title": "Sensor failsafe messages reach exactly the zones that use the sensor", "statement": "The failsafe lines a zone prints are those its own logger prints for the attempts of the sensors it lists and for its own attempts, in order, each attempt counted once even if the sensor is listed twice; sensors and zones it does not know have no influence, and no unknown zone is ever named.", "quantifier": "for every set of zones with distinct ids and every sequence of sensor and zone log calls", "why_tests_cant": "A routing property over all zone layouts and all interleavings of calls; the dedup and rate state of every zone must be independent of the others.", "anchors": ["failsafeloggers/builder.cpp: buildFailsafeLoggers", "failsafeloggers/failsafe_logger_utility.hpp: outputFailsafeLogWithSensor, outputFailsafeLogWithZone"]}
{"id": "C57", "title": "Core logging never changes control", "statement": "A PID evaluation returns the same output and leaves the same loop state whether core logging is on or off, whether files can be opened or not; with logging off no file is created or written.", "quantifier": "for every loop state, input, setpoint, log state and clock", "why_tests_cant": "All states of the logger, including failing opens and name clashes.", "anchors": ["pid/ec/pid.cpp: pid", "pid/ec/logging.cpp: LogInit, LogContext, LogPeek"]}
{"id": "C58", "title": "A failed sensor drives the fans to the largest percentage its PIDs ask for", "statement": "After zone construction, the failsafe percentage used for a sensor is the largest FailSafePercent among the PIDs of the zone that list it; if none is configured or the largest is 0, the zone's FailSafePercent is used.", "quantifier": "for every configuration whose percentages are not NaN, every zone and every sensor", "why_tests_cant": "A sensor may be listed by any number of PIDs, in any order; tests register one or two.", "anchors": ["pid/builder.cpp: buildZones", "pid/zone.cpp: addPidFailSafePercent, getFailSafePercent"]}
{"id": "C59", "title": "A missing sensor is tolerated exactly when some PID of the zone tolerates it", "statement": "After zone construction, absence of a sensor is tolerated in a zone if and only if at least one fan or thermal PID of that zone lists it with MissingIsAcceptable.", "quantifier": "for every configuration, zone and sensor", "why_tests_cant": "The flag is accumulated over all PIDs of a zone; tests cover single inputs.", "anchors": ["pid/builder.cpp: buildZones", "pid/zone.cpp: addFanInput, addThermalInput"]}
{"id": "C60", "title": "Every sensor is built as configured", "statement": "Sensor construction succeeds exactly when every D-Bus object it has to read can be set up, every sysfs path resolves, every D-Bus fan has a writable object, and every external sensor gets an object path of its own that is free on the bus. A D-Bus sensor can be set up exactly when its type is one of the five known ones and its object either is missing where that is tolerated, or answers with a text as unit, an integer as scale, numbers as limits and value, and flags as alarms up to the first alarm that is raised. Afterwards the sensors are exactly the configured ones of a known type; each reads from the source its read path names (D-Bus object, external value, sysfs file), only fans are writable, through the path and limits configured, and each has its own timeout and options.", "quantifier": "for every sensor configuration with distinct names and every bus", "why_tests_cant": "Combinations of type, read path, write path, limits and options are unbounded; tests build single readers and writers.", "anchors": ["sensors/builder.cpp: buildSensors", "sensors/build_utils.cpp: getReadInterfaceType, getWriteInterfaceType"]}
{"id": "C61", "title": "What a poll sees is what the bus last said", "statement": "At any time, a poll of a D-Bus sensor shows the last accepted reading with the time it was received, and shows failure exactly when the messages received since construction, the fan redundancy state and the host state say so; an external sensor shows the last value written to it and fails exactly when that is not finite; a sysfs sensor shows its file. The reason given for a D-Bus sensor names the first cause that applies; all other sensors give the text Unimplemented. A wake-up polls the fans at the time and with the files of its fan poll and the thermal inputs at the time and with the files of its thermal poll. A poll of a sysfs sensor whose file is gone has undefined behaviour. A fan whose read path names no source is built all the same, and an automatic wake-up of its zone ends with an exception.", "quantifier": "for every configuration, every sequence of bus signals, external writes, redundancy changes, host state changes, zone wake-ups and mode changes", "why_tests_cant": "Arbitrary interleavings of messages for all sensors with control activity.", "anchors": ["sensors/pluggable.cpp", "sensors/host.cpp", "dbus/dbuspassive.cpp: handleSensorValue, getFailed", "sysfs/sysfsread.cpp", "sensors/manager.hpp"]}
{"id": "C62", "title": "From sensor failure on the bus to raised fan devices", "statement": "If a sensor of an automatic zone is failed or stale at every poll during enough wake-ups to cover one thermal interval, then after the next wake-up every fan device of the zone (Target property or sysfs file) holds at least the raw value of that sensor's failsafe percentage, taken from the configuration (largest percentage of its PIDs, or the zone's).", "quantifier": "for every configuration, every earlier history and every other event in between", "why_tests_cant": "Composition of sensors, zone, loop and writers over unbounded histories.", "anchors": ["main.cpp", "pid/pidloop.cpp", "pid/zone.hpp", "sensors/builder.cpp", "dbus/dbuswrite.cpp", "sysfs/sysfswrite.cpp"]}
{"id": "C63", "title": "A well-configured daemon keeps running", "statement": "If every input of every PID is a configured, readable sensor and every fan PID names configured fans, then starting the loops returns, and no sequence of well-typed bus messages, external writes, redundancy changes, host state changes, wake-ups and mode changes ends the daemon by an exception or undefined behaviour, with one exception: a fan command that cannot be converted to the integer type.", "quantifier": "for every such configuration and every history", "why_tests_cant": "Absence of exceptions over all interleavings and configurations cannot be established by examples.", "anchors": ["main.cpp", "pid/pidloop.cpp", "sensors/builder.cpp", "pid/builder.cpp"]}
{"id": "C64", "title": "Fan devices hold the last command", "statement": "After each wake-up of a zone every fan device holds the raw value of the last command given to that fan in the wake-up, or is unchanged if none was given, also when the write was suppressed as a repeat; no other event changes a fan device. A device changes only when a command for it was delivered, and then to the raw value of that command.", "quantifier": "for every configuration in which the fan has a device of its own, and every history in which writes reach the device", "why_tests_cant": "Suppression of repeats depends on the whole history of the writer.", "anchors": ["dbus/dbuswrite.cpp: DbusWritePercent::write, DbusWrite::write", "sysfs/sysfswrite.cpp", "pid/fancontroller.cpp: outputProc"]}
{"id": "C65", "title": "A JSON configuration is loaded as written", "statement": "A JSON document that describes a configuration (sensors, zones, PIDs, stepwise tables) loads as exactly that configuration: every sensor, zone and PID under its own name or number, every setting with the value written, every absent optional key with its default, whatever the order of the keys and whatever other keys are present.", "quantifier": "for every configuration and every JSON document that describes it", "why_tests_cant": "The documents describing a configuration are unbounded in number: any key order, any additional keys, any subset of the optional keys, integer or real number forms.", "anchors": ["pid/buildjson.cpp: from_json, buildPIDsFromJson", "sensors/buildjson.cpp: from_json, buildSensorsFromJson", "buildjson/buildjson.cpp: validateJson", "main.cpp: main"]}
{"id": "C66", "title": "Exactly the well-formed JSON configurations load", "statement": "A JSON document loads if and only if all required keys are present and all values read have the required type and range: at least one sensor, at least one PID in each zone, and the keys and types of sensors, zones, PIDs, PID settings and stepwise settings.", "quantifier": "for every JSON document", "why_tests_cant": "Both directions quantify over all JSON values; tests try single documents.", "anchors": ["buildjson/buildjson.cpp: validateJson", "pid/buildjson.cpp", "sensors/buildjson.cpp"]}
{"id": "C67", "title": "A bad JSON configuration is refused, not undefined", "statement": "Every JSON document in which sensors, PIDs and zones carry a name or number, zones carry their two limits, and numbers are within range is either loaded or refused by an exception; there is no undefined behaviour.", "quantifier": "for every JSON document, well-formed or not", "why_tests_cant": "Absence of undefined behaviour over all malformed inputs.", "anchors": ["buildjson/buildjson.cpp", "pid/buildjson.cpp", "sensors/buildjson.cpp"]}
{"id": "C68", "title": "From a JSON document to a running daemon", "statement": "If the PIDs of a JSON document only name sensors of the document (fan PIDs only fans) and the bus has the objects these need and room for those of external sensors, then the document loads, all sensors and zones are built as written, the loops start, and the daemon keeps running whatever happens (as in C63).", "quantifier": "for every such document, every bus and every history", "why_tests_cant": "Composition of parsing, construction and all executions.", "anchors": ["main.cpp", "buildjson/buildjson.cpp", "pid/buildjson.cpp", "sensors/buildjson.cpp", "sensors/builder.cpp", "pid/builder.cpp", "pid/pidloop.cpp"]}
{"id": "C69", "title": "A configuration on D-Bus is loaded as the objects say", "statement": "Whenever the configuration is read from D-Bus, what is loaded is what the objects say. Every sensor entry comes from a controller that names it, with its path, class and options. Every zone has the settings of its last object. Every controller with at least one sensor is loaded, in the zones it lists, with the settings, inputs, zeros and marks of the last object of its name, its own setpoint or the setpoint with the named threshold added. Inputs are sensors. Zones have different numbers, and numbers asked for are granted if they do not clash. Objects whose profiles are not selected are left out. Success is reported exactly if there are controllers and zones.", "quantifier": "for every set of objects, every order of visiting them, every answer of the bus and every regular-expression engine", "why_tests_cant": "The objects, their properties and the order in which hash maps are visited are unbounded; tests of this file do not exist because it needs a bus.", "anchors": ["dbus/dbusconfiguration.cpp: init, populatePidInfo, getPIDAttribute, getSelectedProfiles", "dbus/dbusutil.cpp: setZoneIndex, getZoneIndex, findSensors", "dbus/dbusconfiguration.cpp: getSensorNameFromPath, sensorNameToDbusName"]}
{"id": "C70", "title": "Every complete configuration on D-Bus loads", "statement": "If the mapper answers, all services answer, and every zone, PID and stepwise object that is read has its required properties with values of the right type, loading succeeds, in whatever order sensors are searched and objects are visited.", "quantifier": "for every bus whose objects are complete", "why_tests_cant": "All objects and all orders of hash maps.", "anchors": ["dbus/dbusconfiguration.cpp: init, populatePidInfo", "dbus/dbusutil.cpp: findSensors"]}
{"id": "C71", "title": "A bad configuration on D-Bus is refused, not undefined", "statement": "Whatever the objects say (missing properties, wrong types, unknown classes), reading them has no undefined behaviour, provided that percentages, cycle times and zone numbers are in the range of the integers they are converted to.", "quantifier": "for every bus, well-formed or not", "why_tests_cant": "Absence of undefined behaviour over all malformed inputs.", "anchors": ["dbus/dbusconfiguration.cpp: init, populatePidInfo, getCycleTimeSetting", "dbus/dbusutil.cpp: setZoneIndex"]}
{"id": "C72", "title": "From objects on D-Bus to a running daemon", "statement": "If a configuration on D-Bus is complete, every zone with a controller has an object, classes are known, fans and thermal sensors do not share a name, and the sensors answer, then it loads, all sensors and zones are built, the loops start, and the daemon keeps running whatever happens (as in C63).", "quantifier": "for every such bus, every order of visiting objects and every history", "why_tests_cant": "Composition of reading, construction and all executions.", "anchors": ["main.cpp: restartControlLoops", "dbus/dbusconfiguration.cpp: init", "sensors/builder.cpp: buildSensors", "pid/builder.cpp: buildZones", "pid/pidloop.cpp: pidControlLoop"]}
{"id": "C73", "title": "Every zone and controller has its own D-Bus path", "statement": "No two objects of one configuration share a D-Bus path. Construction depends on the bus only through the paths of the configured zones and thermal controllers, and fails if any of them cannot be claimed.", "quantifier": "for every configuration and every bus", "why_tests_cant": "All names and zone numbers; a clash shows up only with particular pairs of names.", "anchors": ["pid/builder.cpp: getControlPath, buildZones", "pid/zone.cpp: addPidControlProcess"]}
{"id": "C74", "title": "The debug object of a PID shows what decided the cycle", "statement": "After a thermal cycle the D-Bus object of every thermal PID shows the output of this cycle, and as input and leader the reading that decided it: the first lowest margin, the first highest temperature, or the last summand that changed the sum. Enable flag, setpoint and class stay. Without a usable reading, input and leader stay. Objects of stepwise controllers never change.", "quantifier": "for every zone, controller, cycle and set of readings", "why_tests_cant": "All readings, including NaN, ties and infinite values, and all histories.", "anchors": ["pid/thermalcontroller.cpp: inputProc, outputProc", "pid/zone.cpp: updateThermalPowerDebugInterface"]}
{"id": "C75", "title": "Mode changes are printed once, with the values applied", "statement": "At the first automatic wake-up, and at every one that changes the failsafe state, one line per fan controller is printed. It names the state, the percent just written to the fans of that controller, and the failing sensors with their reasons. No other wake-up prints one, nor does any with tuning or debugging on.", "quantifier": "for every zone, history of sensors, and interleaving with manual mode", "why_tests_cant": "All histories: a test sees one transition.", "anchors": ["pid/fancontroller.cpp: outputProc", "pid/zone.cpp: getFailSafeMode, getFailSafeSensors"]}
{"id": "C76", "title": "A new requester is printed", "statement": "A thermal cycle that ends above the zone minimum with a requester other than the one named last prints one line naming the zone, the setpoint, the requester, and the failing sensors that are not fans. No other cycle prints one.", "quantifier": "for every zone and history", "why_tests_cant": "All histories.", "anchors": ["pid/zone.cpp: determineMaxSetPointRequest"]}
{"id": "C77", "title": "Tuning files set the setpoint and nothing else", "statement": "With tuning on, a cycle does what it does without tuning, except that the setpoint is that of the zone's file, or of the global file, if it holds a number above 100, and that other numbers are complained about. A file holding a number, or an absent file, never stops a cycle.", "quantifier": "for every zone, state, readings and file contents", "why_tests_cant": "All states and contents; without the rest of the cycle as reference a test cannot see a side effect.", "anchors": ["pid/zone.cpp: determineMaxSetPointRequest", "pid/tuning.hpp: tuningEnabled"]}
{"id": "C78", "title": "The zone reports every failure and recovery to the failsafe log", "statement": "Everything the zone hands to the failsafe log is determined by its polls: each input at start-up, each failed poll, each timeout, and the first good poll after a failure, in order, with the text that applies and with the failsafe state at that moment, which is the one the FailSafe property shows.", "quantifier": "for every zone and history of polls", "why_tests_cant": "All histories of all sensors.", "anchors": ["pid/zone.hpp: processSensorInputs, markSensorMissing", "pid/zone.cpp: getFailSafeMode", "failsafeloggers/failsafe_logger_utility.hpp: outputFailsafeLogWithZone"]}
{"id": "C79", "title": "Fan commands stay between 0 and 1", "statement": "With percentages as fan output limits and failsafe percents, ordered limits, and no astronomically large parameter or speed, every command a zone gives to a fan is a number between 0 and 1: in normal operation, in failsafe mode, in the fallback, and when the controller is destroyed.", "quantifier": "for every configuration within these limits, every history of readings, mode changes and write failures", "why_tests_cant": "All histories of the floating-point computation, including NaN and infinite temperatures.", "anchors": ["pid/fancontroller.cpp: outputProc, ~FanController", "pid/ec/pid.cpp: pid", "pid/zone.cpp: getFailSafePercent, addSetPoint"]}
{"id": "C80", "title": "With a sensible configuration the daemon never stops", "statement": "If the configuration is within the limits of C79 and every fan has a range of non-negative values, no history of sensor values, mode changes and failures that can be served ends the daemon or drives it into undefined behaviour, and it never writes a device outside the range of the fan it belongs to.", "quantifier": "for every such configuration, read from a JSON document or from D-Bus, every history of bus signals, device values and host writes within range", "why_tests_cant": "All histories, including NaN and infinite temperatures, of the whole chain from signal to device.", "anchors": ["main.cpp: restartControlLoops, tryRestartControlLoops", "pid/fancontroller.cpp: outputProc", "pid/pidloop.cpp: pidControlLoop", "sysfs/sysfswrite.cpp: SysFsWritePercent::write", "dbus/dbuswrite.cpp: DbusWritePercent::write"]}
{"id": "C81", "title": "Configuration changes on the bus are reloaded", "statement": "When the thermal mode, a controller or a zone on the bus changes, or a sensor comes or goes (not only its associations), the configuration is read again: once nothing is pending, it has been read after the last such signal and all running control loops were started after it. There is no reload without such a signal at least two seconds before, and a burst of signals makes one reload.", "quantifier": "for every order of signals, timers, handlers and outcomes of building the zones", "why_tests_cant": "Depends on the interleaving of signals, two timers, the queue of handlers and failing restarts.", "anchors": ["dbus/dbusconfiguration.cpp: eventHandler, createMatches", "main.cpp: tryRestartControlLoops, restartControlLoops, stopControlLoops"]}
{"id": "C82", "title": "SIGHUP and SIGTERM are not lost", "statement": "After SIGHUP the configuration is read again, and after SIGTERM the daemon ends, however these meet other reloads, retries and running loops.", "quantifier": "for every order of signals, timers, handlers and outcomes of building the zones", "why_tests_cant": "Depends on the interleaving of signals, timers and failing attempts to stop.", "anchors": ["main.cpp: signalHandler, tryRestartControlLoops, tryTerminateControlLoops, stopControlLoops"]}
{"id": "C83", "title": "The current thermal mode selects the profiles", "statement": "Of the configuration on the bus those interfaces are used that list no profiles or list one that some object with a thermal mode currently has; without such objects all are used. If a mode cannot be read the configuration is not used. The order of the objects does not matter.", "quantifier": "for every set of objects with a thermal mode, every answer of their owners and every configuration", "why_tests_cant": "The mapper answers in any order, with any number of objects and owners.", "anchors": ["dbus/dbusconfiguration.cpp: getSelectedProfiles, init"]}
{"id": "C84", "title": "Rounding does not lead the control law astray", "statement": "The outputs a PID loop computes in double precision are finite and follow the control law over the real numbers: after n evaluations the difference is at most n * 2^(a+k+t-47), where readings, set points, limits, offsets and slew rates are at most 2^a, coefficients at most 2^k and the sampling time is between 2^-t and 2^t. Without integral term and slew rates the difference does not grow with n. With values up to 16384, coefficients up to 1 and a period of 1 s, a whole year stays within 1/256.", "quantifier": "for every configuration with ordered limits and sane slew rates, every history of readings and set points within the scales", "why_tests_cant": "Rounding errors accumulate over arbitrarily long histories and cannot be seen by comparing with an expected value computed in the same arithmetic.", "anchors": ["pid/ec/pid.cpp: pid", "pid/pidcontroller.cpp: PIDController::process"]}
{"id": "C85", "title": "A wildcard in a sysfs path means one file", "statement": "A sysfs path containing ** means the first entry, as the system lists it when the sensors are built, of the directory in front of the stars. A path means at most one file. If the directory cannot be opened no sensor is built. From then on the sensor depends on this one file and a fan writes to this one file, whatever later happens to the directory; over a whole run no file or property is written that no configured fan resolves to.", "quantifier": "for every directory content, configuration, and history of events of any length", "why_tests_cant": "Directory listings differ from boot to boot and machine to machine; a test fixes one of them, and no test can show that no other file is ever touched.", "anchors": ["sysfs/util.cpp: FixupPath", "sysfs/sysfsread.hpp: SysFsRead", "sysfs/sysfswrite.hpp: SysFsWritePercent", "sensors/builder.cpp: buildSensors"]}
{"id": "C86", "title": "With accumulation all contributors are named as requester", "statement": "After a thermal cycle with accumulated setpoints (tuning off) the requester is 'Minimum' if the minimum decides; otherwise it lists, in their order and joined by ' + ', the controllers whose names contain the profile that first reached the largest sum. Every controller that contributed to this sum is in the list.", "quantifier": "for every set of controllers with non-empty names, outputs and ceilings without NaN", "why_tests_cant": "The list depends on arbitrary names, on which names contain which, and on ties between sums.", "anchors": ["pid/zone.cpp: determineMaxSetPointRequest, addSetPoint"]}
{"id": "C87", "title": "Which configuration the daemon uses", "statement": "The configuration comes from the file named with -c, or without -c from the first config.json that is there in the working directory, /var/lib/swampd and /usr/share/swampd. Then nothing else counts: no other file and nothing on the bus. A file that cannot be read, is not JSON or is not a good configuration ends the daemon. Only if none of the files is there, the configuration on the bus is used: if it has no PID or no zone the daemon waits, if it cannot be read the daemon tries again later. In each case with a complete configuration the daemon comes up with its zones and keeps running, and the start changes neither the state of the host nor what the devices hold.", "quantifier": "for every file system, document, bus and order of starting the zones", "why_tests_cant": "Needs all combinations of files, contents and bus configurations, and reaches through every stage of start-up.", "anchors": ["main.cpp: searchConfigurationPath, restartControlLoops", "buildjson/buildjson.cpp: parseValidateJson", "dbus/dbusconfiguration.cpp: init"]}
{"id": "C88", "title": "Failed starts are tried again", "statement": "However many attempts to start fail with an exception, the next one is made when the retry timer expires. The attempt that works leaves one running loop per zone of the configuration and no pending retry. If the first cycle of a zone fails, the loops started before it keep running and the next attempt is pending. A bad file or no zones end the daemon, a bus without configuration leaves it waiting.", "quantifier": "for every number of failed attempts and everything the last attempt finds", "why_tests_cant": "Any number of failures in any stage, with the state of timers and loops left by each.", "anchors": ["main.cpp: restartControlLoops, tryRestartControlLoops"]}
{"id": "C89", "title": "Options of the command line and flag files", "statement": "Tuning, debugging and core logging are on if given on the command line or if their flag file is there; logging is on if a folder is given or the flag file can be read. Logs go to the folder named by the flag file if it is there, else to the one of the command line, else to the folder for temporary files. The command line is refused exactly if the configuration is not a file or the folder is not a directory.", "quantifier": "for every command line and every file system", "why_tests_cant": "All combinations of options, flag files and their contents.", "anchors": ["main.cpp: main", "pid/tuning.hpp", "pid/zone.hpp: DbusPidZone"]}
{"id": "C90", "title": "The running system is that of the last start", "statement": "Whatever sequence of reloads, signals, retries and messages there has been: as long as the daemon lives, every live control loop drives a zone of the system. Either there is no zone, or zones, sensors and loops are those of the configuration read at the last start, started in some order, and the system is exactly what these zones make of what has reached it since then. The devices, the state of the host and what is known about fan redundancy carry over from before. Whether the host counts as on is decided by what it told last, or at the very first start, whatever reloads there were.", "quantifier": "for every sequence of events in which restart attempts do not overlap or there is one zone, every configuration found at each start", "why_tests_cant": "The history of a daemon is unbounded: any number of reloads with different configurations, between any number of cycles and messages.", "anchors": ["main.cpp: main, restartControlLoops, tryRestartControlLoops, stopControlLoops, tryTerminateControlLoops", "pid/pidloop.cpp: pidControlLoop"]}
{"id": "C91", "title": "Only control cycles write to fans", "statement": "Reloads, failing starts, signals, messages and the orderly end of the daemon leave every fan device as it is: over any stretch of the daemon's life in which no control loop runs a cycle, no device changes. (When not compiled with OFFLINE_FAILSAFE_PWM.)", "quantifier": "for every state and every sequence of events without a cycle", "why_tests_cant": "Any interleaving of reloads, signals and failures.", "anchors": ["main.cpp: restartControlLoops, stopControlLoops, tryTerminateControlLoops", "pid/fancontroller.cpp: ~FanController"]}
{"id": "C92", "title": "No accidents in the daemon's life", "statement": "If every message is well-formed, the sysfs files hold numbers, and every configuration found at any start names sensors that are there, then over its whole life with any number of reloads the daemon has no undefined behaviour, apart from converting an absurd fan command to an integer; and nothing ends it but SIGTERM, a bad configuration file, or a configuration without zones. (When compiled with OFFLINE_FAILSAFE_PWM: if every fan is driven over D-Bus.)", "quantifier": "for every sequence of events in which restart attempts do not overlap or there is one zone, every configuration found at each start", "why_tests_cant": "All histories of reloads, failures and messages.", "anchors": ["main.cpp: main, restartControlLoops, tryRestartControlLoops, signalHandler", "pid/pidloop.cpp: pidControlLoop", "sensors/builder.cpp: buildSensors", "pid/builder.cpp: buildZones"]}
{"id": "C93", "title": "Fans stay in range over the daemon's life", "statement": "If moreover every configuration found is sensible and sensors report numbers of moderate size, every event is dealt with, and no fan device ever holds anything but what it held when the daemon was started, or a value in the range of a fan that drives it in a configuration the daemon has read. (When compiled with OFFLINE_FAILSAFE_PWM: if every fan is driven over D-Bus.)", "quantifier": "for every sequence of events in which restart attempts do not overlap or there is one zone, every sensible configuration found at each start", "why_tests_cant": "All histories, with floating point arithmetic in every cycle.", "anchors": ["main.cpp: main, restartControlLoops", "pid/pidloop.cpp: pidControlLoop", "pid/fancontroller.cpp: FanController::outputProc", "sysfs/sysfswrite.cpp: write", "dbus/dbuswrite.cpp: write"]}
{"id": "C94", "title": "Reloads take effect, except with external sensors", "statement": "When a restart is due and the configuration found is usable, the daemon goes on, and either handlers of the old loops are still outstanding and another attempt is pending, or there is exactly one running loop for each zone of the new configuration. This needs that no external sensor of the configuration was in a configuration read before: while the configuration found has an external sensor that was published before, no attempt starts a loop, and zones that were stopped stay stopped for good. (When compiled with OFFLINE_FAILSAFE_PWM: if every fan is driven over D-Bus and everything is as in C93.)", "quantifier": "for every reachable state in which a restart is due and every usable configuration; the second part for every state and every sequence of events", "why_tests_cant": "All histories before the reload; the second part says that no number of retries helps.", "anchors": ["main.cpp: restartControlLoops, tryRestartControlLoops", "sensors/builder.cpp: buildSensors", "sensors/host.cpp: HostSensor::createTemp"]}
{"id": "C95", "title": "A daemon that goes leaves its fans at the failsafe percentage", "statement": "When compiled with OFFLINE_FAILSAFE_PWM: when the daemon reloads or ends after any history, and its writes reach the devices, each fan of each zone that goes away is left at the failsafe percentage in force in its zone at that moment, scaled to the configured range of the fan. Reloading is undefined behaviour if a fan is written through sysfs (refuted by a sensible configuration).", "quantifier": "for every sequence of events in which restart attempts do not overlap or there is one zone, every configuration found at each start, every way of stopping", "why_tests_cant": "The failsafe percentage in force depends on the whole history of sensor failures, and which zones are destroyed when depends on the interleaving of handlers.", "anchors": ["pid/fancontroller.cpp: ~FanController", "pid/zone.cpp: getFailSafePercent", "main.cpp: restartControlLoops, tryTerminateControlLoops, stopControlLoops", "sysfs/sysfswrite.cpp: write", "dbus/dbuswrite.cpp: write"]}
{"id": "C96", "title": "SIGTERM ends the daemon after at most two attempts", "statement": "Whatever has happened before: after SIGTERM, once the handlers queued then and one more have run and, later, the 50 ms timer has expired and the handlers queued at that moment and one more have run, the daemon has ended - unless a reload started loops meanwhile. With no reload pending or asked for, it has ended.", "quantifier": "for every execution of the daemon, every state in which SIGTERM comes, every interleaving of handlers, timers and messages, any number of zones and overlapping attempts", "why_tests_cant": "How often stopping has to be tried depends on the interleaving of cancelled handlers, other attempts and reloads; tests cannot enumerate the schedules or show that no schedule loops for ever.", "anchors": ["main.cpp: tryTerminateControlLoops, stopControlLoops, signalHandler", "pid/pidloop.cpp: pidControlLoop"]}
{"id": "C97", "title": "A reload that is queued is carried out after at most two attempts", "statement": "Whatever has happened before: if a reload is queued, once the handlers queued then have run and, later, the 10 s timer has expired and the handlers queued at that moment and one more have run, the control loops have been stopped and the configuration has been read again, or the daemon has ended.", "quantifier": "for every execution of the daemon, every state with a queued reload, every interleaving of handlers, timers and messages, any number of zones and overlapping attempts", "why_tests_cant": "A reload that is never served shows only in the schedules where handlers of the loops are still queued at each attempt; tests cannot enumerate them.", "anchors": ["main.cpp: tryRestartControlLoops, restartControlLoops, stopControlLoops", "pid/pidloop.cpp: pidControlLoop"]}
{"id": "C98", "title": "Hotter histories ask for at least as much cooling", "statement": "Take a temperature, power or margin loop whose proportional and integral coefficients point the right way and that has no derivative term, no rate limit and no hysteresis. If every input of one history is at least as hot as the corresponding input of another, with the same setpoints, every output is at least as high. While the input stays on the hot side of the setpoint and does not get cooler, the output never drops.", "quantifier": "for every configuration of moderate magnitude, every pair of histories of any length, in double arithmetic with rounding and limits", "why_tests_cant": "The integral carries every earlier sample along; tests compare single outputs and cannot cover pairs of histories or all roundings and clamps on the way.", "anchors": ["pid/ec/pid.cpp: pid", "pid/pidcontroller.cpp: PIDController::process, calPIDOutput"]}
{"id": "C99", "title": "A hotter zone never gets a lower setpoint", "statement": "Take a zone whose loops all ask for more cooling when it is hotter (C98; stepwise tables with rising outputs and no hysteresis; ceilings that rise too) and two lives of it with the same schedule of wake-ups and of Manual and Enable writes. If every reading in the second is at least as hot as in the first - smaller, for sensors that show margins - its setpoint is at least as high at every moment.", "quantifier": "for every such zone with any number of loops, sensors, profiles and ceilings, with setpoints accumulated or not, every pair of schedules of any length", "why_tests_cant": "The setpoint depends on all loops and all earlier readings through maxima, sums, ceilings and the minimum; tests cannot cover pairs of executions.", "anchors": ["pid/zone.cpp: DbusPidZone::processThermals, determineMaxSetPointRequest, addSetPoint", "pid/thermalcontroller.cpp: ThermalController::inputProc", "pid/stepwisecontroller.cpp: StepwiseController::process", "pid/pidloop.cpp: pidControlLoop"]}
{"id": "C100", "title": "Manual mode lasts until it is switched off or the loops are restarted, and keeps the fans untouched", "statement": "As long as the daemon goes on, its loops are not stopped and nobody sets the zone's Manual property to false, a zone in manual mode stays in it, and a device that only fans of this zone command keeps what it holds, whatever other zones, sensors, signals and failing reload attempts do. The mode of every zone is what was last written to Manual since the loops were last started: each restart of the loops puts every zone into automatic mode.", "quantifier": "for every execution of the daemon, any number of zones, reloads, messages and wake-ups in any order", "why_tests_cant": "Tests switch one zone object to manual mode and run one cycle; that no interleaving of other zones, timers, signals and reload attempts touches the fans or the mode is a claim about all histories.", "anchors": ["pid/pidloop.cpp: pidControlLoop", "pid/zone.cpp: DbusPidZone::manual, DbusPidZone::setManualMode", "main.cpp: restartControlLoops, tryRestartControlLoops"]}
{"id": "C101", "title": "A failing sensor raises the fans within one thermal interval, over the whole life of the daemon", "statement": "After any history of starts, reloads, signals and failed attempts, in which the daemon has read a configuration, started loops for it and not stopped them since: if a sensor of a zone in automatic mode is failed by what was received since that start whenever the loop of the zone runs, then as soon as the zone has covered its thermal interval the device of every fan of the zone holds at least the largest failsafe percentage of the controllers that list the sensor, as that configuration says (or that of the zone if theirs is zero).", "quantifier": "for every execution of the daemon up to then, every configuration read at the last start, every zone, sensor, fan and sequence of messages and wake-ups in any order", "why_tests_cant": "Unit tests build one zone by hand from fixed objects; that the bound holds for whatever the configuration of the latest reload says, with nothing left over from earlier builds, is a claim about all histories and all configurations.", "anchors": ["main.cpp: restartControlLoops, tryRestartControlLoops", "pid/pidloop.cpp: pidControlLoop", "pid/zone.cpp: DbusPidZone::updateSensors, DbusPidZone::processFans, DbusPidZone::getFailSafePercent", "pid/fancontroller.cpp: FanController::outputProc"]}
{"id": "C102", "title": "IPMI requests and the running daemon agree on modes", "statement": "For a zone that runs and has a number below 128, asking over IPMI for manual mode answers what was last written to its Manual property since the loops were last started, and asking for failsafe answers whether a sensor of the zone counts as failing now - in particular 1 for a sensor that is failed by what was received, once the loop has polled it over the thermal interval. Asking about a zone that does not exist, or after the daemon has ended, is refused. A set request sends exactly one message with the mode for that zone; other requests change nothing. Once the message has arrived, and until the loops are stopped or another one comes, the query answers what was set, and in manual mode the zone's fans are left alone. If only the IPMI handler writes to Manual, a zone is in manual mode only if a request with its number and a value other than 0 was made.", "quantifier": "for every execution of the daemon with any number of reloads, every request, every interleaving of requests, arriving messages, wake-ups and signals", "why_tests_cant": "Unit tests of the IPMI handler use a mock of the bus, and those of the zone know no IPMI; what a request says about and does to the running daemon is a claim about both and all interleavings.", "anchors": ["ipmi/manualcmds.cpp: manualModeControl, ZoneControlIpmiHandler", "ipmi/dbus_mode.cpp: DbusZoneControl::getFanCtrlProperty, setFanCtrlProperty", "pid/zone.cpp: DbusPidZone::manual, DbusPidZone::failSafe", "pid/builder.cpp: getControlPath", "pid/pidloop.cpp: pidControlLoop"]}
{"id": "C103", "title": "Once its sensors are well again, a zone leaves failsafe", "statement": "After any number of starts and reloads: if every fan and thermal sensor that a running zone in automatic mode lists - apart from those whose absence is acceptable - is, by what was received since the loops were started, working and not out of date at each run of the zone's loop, and the loop has run for the thermal update interval, then the zone is out of failsafe and the IPMI query says so. Earlier failures of any kind, in the same run or before a reload, leave no trace.", "quantifier": "for every execution of the daemon with any number of reloads, every configuration, every history of messages, every running zone and any sensors", "why_tests_cant": "A test shows one sensor recovering in one zone object; that no history of failures and reloads can keep a zone in failsafe is a statement about all of them.", "anchors": ["pid/zone.cpp: DbusPidZone::updateFanTelemetry, updateSensors, getFailSafeMode", "pid/zone.hpp: processSensorInputs", "pid/pidloop.cpp: pidControlLoop", "main.cpp: restartControlLoops", "dbus/dbuspassive.cpp: DbusPassive::getFailed, handleSensorValue", "ipmi/manualcmds.cpp: getFailsafeModeState"]}
{"id": "C104", "title": "Changes on the bus are noticed exactly when there is no configuration file", "statement": "As long as a configuration file is found whenever the daemon looks for one, signals on the bus have no effect on anything the daemon does. Once it has found none and has read its configuration from the bus, every later signal about the configuration leads to reading it again: when nothing is pending any more it has been read since, and it is read at the latest after two quiet seconds, the handlers queued by then, and one 10 s retry - whatever else happens meanwhile - unless the daemon ends.", "quantifier": "for every execution of the daemon with any number of reloads, every interleaving of signals, timers, wake-ups and messages", "why_tests_cant": "A test would have to try every moment a signal can come, and every interleaving of three timers and all queued handlers.", "anchors": ["main.cpp: restartControlLoops, tryRestartControlLoops", "dbus/dbusconfiguration.cpp: eventHandler, createMatches, init"]}
{"id": "C105", "title": "A hotter or less healthy zone never gets lower fan commands", "statement": "Compare two lives of the same zone with the same schedule of wake-ups, manual-mode switches and controller switches. If in every poll the readings of the second life are at least as hot, and every sensor that is failed or timed out in the first is so in the second, then every fan command of the second life is at least as high as the corresponding command of the first: same fan, same position, same force flag. This holds for sensible configurations whose temperature loops have neither derivative terms, rate limits nor hysteresis and whose fan loops feed the setpoint forward. In a strict-failsafe build it needs the same sensors to be bad: there a failing sensor can lower the fans.", "quantifier": "for every such configuration, every pair of executions of any length, all readings, fan speeds, write results and times", "why_tests_cant": "a test compares two runs; the claim is about all pairs of histories, including the integral the loops carry over and rounding in every operation", "anchors": ["pid/zone.cpp: processFans, processThermals, determineMaxSetPointRequest, getFailSafePercent", "pid/fancontroller.cpp: FanController::outputProc", "pid/pidloop.cpp: pidControlLoop", "pid/ec/pid.cpp: pid", "pid/thermalcontroller.cpp: inputProc"]}
{"id": "C106", "title": "A loop whose input stays the same comes to rest", "statement": "If after any history a PID controller is given the same input and setpoint again and again, its output moves in one direction from the second evaluation on and stops moving after finitely many evaluations, whatever its coefficients, rate limits and hysteresis are. A loop without integral ends exactly where it would be without its rate limits, and each evaluation that is not there yet has moved by the full rate; a loop with integral and without rate limits ends with the integral at its limit. The last two need rates and gains that are not lost in rounding. A rate limit that is never reached should not matter; with an integral and feed-forward it does.", "quantifier": "for every sensible configuration, every history of samples and every number of repetitions", "why_tests_cant": "a test runs finitely many evaluations and cannot see that the output never moves again, nor that no configuration makes it oscillate", "anchors": ["pid/ec/pid.cpp: pid", "pid/pidcontroller.cpp: PIDController::calPIDOutput, PIDController::process"]}
{"id": "C107", "title": "A zone whose readings stay the same comes to rest", "statement": "If after any life of a zone everything its sensors show stays the same - readings, fan speeds and which sensors are bad - then after finitely many wake-ups every further wake-up sends the same commands to the same fans, for ever. This holds whatever the schedule of thermal cycles, the coefficients, rate limits, hysteresis and tables of all loops, the accumulated setpoints, the ceilings and the failing sensors are: fans do not hunt. In manual mode the commands are none.", "quantifier": "for every zone built from a sensible configuration, every history of wake-ups, Manual and Enable writes, and every number of further wake-ups", "why_tests_cant": "a test runs finitely many wake-ups and cannot see that commands never change again, nor that no combination of loops, limits and health makes the fans hunt", "anchors": ["pid/pidloop.cpp: pidControlLoop, processThermals", "pid/zone.cpp: DbusPidZone", "pid/fancontroller.cpp: FanController", "pid/thermalcontroller.cpp: ThermalController", "pid/stepwisecontroller.cpp: StepwiseController::process", "pid/ec/pid.cpp: pid"]}
{"id": "C108", "title": "A fan's commands do not depend on the speeds of other fans", "statement": "Take a group of fans that contains all or none of the fans of each fan controller. Two lives of the same zone with the same schedule, mode switches and tuning files, the same thermal readings, the same speeds in the group and the same sensors bad (sensors that may be missing aside) send exactly the same commands to the fans of the group, bit by bit and in the same order, whatever the other fans show and however writes are answered.", "quantifier": "for every zone built from any configuration, every group, every two such lives of any length", "why_tests_cant": "a test can vary the speed of a neighbouring fan in a few runs, not show that no history of any two lives lets one fan loop leak into another", "anchors": ["pid/fancontroller.cpp: FanController::inputProc, setptProc, outputProc", "pid/zone.cpp: DbusPidZone::updateFanTelemetry, processFans, getFailSafePercent", "pid/zone.hpp: DbusPidZone::processSensorInputs", "pid/pidloop.cpp: pidControlLoop"]}
{"id": "C109", "title": "A zone is controlled by its own sensors only", "statement": "Take two lives of a daemon with the same configured sensors, in which a zone is started in the same surroundings and the events that concern it are the same and in the same order: signals from the objects of its fans and thermal inputs, values the host sets in them, host power and redundancy news, its own wake-ups (with the same clocks, tuning files and contents of its own sensors' files) and its own mode and enable requests. Then the zone gives exactly the same fan commands in both, bit by bit and in the same order, whatever happens to the other zones, sensors, files and fan devices, and whichever writes fail.", "quantifier": "for every sensor configuration, every zone built from any configuration, every two sets of other zones, every two histories of any length", "why_tests_cant": "interference between zones or sensors shows only in particular interleavings; tests run a few histories, mostly of one zone", "anchors": ["main.cpp: main, restartControlLoops", "pid/pidloop.cpp: pidControlLoop", "pid/zone.hpp: DbusPidZone::processSensorInputs", "sensors/manager.hpp: SensorManager::getSensor", "dbus/dbuspassive.cpp: handleSensorValue", "sensors/pluggable.cpp: PluggableSensor::read"]}
{"id": "C110", "title": "Only differences of times matter", "statement": "Start the daemon any time k later, with the same answers from the bus and the same files, and let everything happen k later: signals, values set by the host, wake-ups. Then every zone gives exactly the same fan commands in the same order, and the time it waits for next is k later. The whole daemon is the same except that its time stamps are k later: sensors, failsafe sets, logs, controllers, fan devices; and a history that ends it by an exception or undefined behaviour ends it in the same way. So the daemon behaves the same after any uptime.", "quantifier": "for every sensor configuration, every zone built from any configuration, every history of any length and every k, positive or negative", "why_tests_cant": "faults that depend on the absolute clock (a time stamp left at its default, a sensor counted as timed out or as fresh because the clock is small) do not show at the clock values a test runs at", "anchors": ["dbus/dbuspassive.cpp: DbusPassive::setValue, updateValue, initFromSettings, handleSensorValue", "sensors/host.cpp: HostSensor::createTemp, setValue", "pid/zone.hpp: DbusPidZone::processSensorInputs", "pid/pidloop.cpp: pidControlLoop"]}
{"id": "C111", "title": "A daemon whose sensors stay the same comes to rest", "statement": "A daemon has run for any time with any history. From some moment on the sensors of one of its zones show the same in every wake-up of that zone, and nobody writes to the zone's D-Bus objects; other zones run, messages arrive and the host may change its state meanwhile. Then the daemon goes on, after finitely many wake-ups of the zone every further one gives the same fan commands, and from then on no further Set call is made for a fan on the bus that belongs to this zone only, whether earlier calls succeeded or failed.", "quantifier": "for every sensible configuration that can be served (any number of zones, controllers and sensors), every history, every interleaving with other zones and messages, and every infinite future in which the zone's sensors stay the same", "why_tests_cant": "coming to rest is a statement about infinite executions; a limit cycle, or a call repeated for ever, can take longer to show than any test runs and needs particular coefficients", "anchors": ["pid/pidloop.cpp: pidControlLoop", "pid/zone.cpp: DbusPidZone::processFans, processThermals", "pid/ec/pid.cpp: pid", "pid/fancontroller.cpp: FanController::outputProc", "dbus/dbuswrite.cpp: DbusWritePercent::write, DbusWrite::write"]}
