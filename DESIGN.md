# Formal model of phosphor-pid-control (swampd): design

Everything below is about the C++ source in `/repo`, read as text. Nothing was
built or run. The model and the proofs are in `rocq/theories`, for Coq 8.16.1.

## 1. Approach

* Every C++ function that matters is written as a total, computable Gallina
  function, with a comment citing the file and lines it follows. Stateful
  classes become records; methods become functions from state to state.
* `double` is IEEE-754 binary64: Flocq's `binary_float 53 1024`
  (`BinarySingleNaN`), round to nearest even. NaN, infinities, signed zero,
  overflow and rounding are therefore the real ones. NaN payloads and NaN signs
  are not modelled (no code here observes them).
* `int64_t`/`uint64_t` are `Z` with explicit wrap (`uint64_t`) or with the
  undefined-behaviour outcome on overflow where the code can overflow.
* A C++ operation may end in three ways, made explicit by
  `outcome A := Ok a | Throw msg | UB msg`. `UB` is undefined behaviour: null
  dereference, reading an uninitialised variable, out-of-range double to
  integer conversion. It is never merged with a defined result.
* The world outside (sensor readings, D-Bus replies, file contents, clock
  values, the order of events) enters as function arguments or as event lists.
  Theorems quantify over all of them.
* `Spec*.v` files hold the small independent vocabulary used in theorem
  statements. `Properties*.v` files hold only theorems, each closed by `exact`
  of a lemma, with `Print Assumptions` beneath, and concrete instances
  (`Example`, `ex_*`) showing that the hypotheses can be met.
* Where a natural statement is false of the code, the counterexample is a
  theorem `..._refuted`, and the property is stated with the condition that
  excludes it (section 6).

## 2. Files

| file | contents |
|---|---|
| `Base.v`, `BaseFacts.v` | outcomes, loops that may throw, ordered string maps (`std::map`), substring search |
| `Dbl.v`, `DblFacts.v`, `DblOrder.v`, `DblBound.v` | binary64 operations, comparisons, `std::min`/`max`, casts; order, monotonicity and magnitude lemmas |
| `PidModel.v` | `pid/ec/pid.cpp`, `pid/ec/stepwise.cpp`, `pid/util.cpp`, `pid/pidcontroller.cpp`, hysteresis of `pid/stepwisecontroller.cpp` |
| `ZoneModel.v` | `pid/zone.{hpp,cpp}`, `pid/fancontroller.cpp`, `pid/thermalcontroller.cpp`, `pid/stepwisecontroller.cpp` |
| `LoopModel.v` | `pid/pidloop.cpp`, several zones on one event loop |
| `SensorModel.v` | `dbus/dbuspassive.cpp`, `dbus/dbushelper.cpp`, `dbus/dbuspassiveredundancy.cpp`, `hoststatemonitor.hpp`, `sensors/sensor.hpp`, `sensors/host.cpp`, `sensors/pluggable.cpp` |
| `WriteModel.v` | `dbus/dbuswrite.cpp`, `sysfs/sysfswrite.cpp`, `sysfs/sysfsread.cpp`, `sysfs/util.cpp` |
| `LogModel.v` | `failsafeloggers/*`, `pid/ec/logging.cpp`, `allowThrottle` of `pid/zone.cpp` |
| `ConfigModel.v` | `dbus/dbusutil.cpp` (zone numbers), `util.cpp` (inputs), `sensors/build_utils.cpp`, cycle times of both configuration sources |
| `IpmiModel.v` | `ipmi/manualcmds.cpp`, `ipmi/dbus_mode.cpp` |
| `MainModel.v` | `main.cpp`: stopping and restarting, on a queue of boost::asio handlers |
| `BuilderModel.v` | `pid/builder.cpp` |
| `SystemModel.v` | `sensors/builder.cpp`, `sensors/manager.hpp`, `sensors/pluggable.hpp`; sensors, zones, bus and fan devices together |
| `JsonModel.v` | `buildjson/buildjson.cpp`, `pid/buildjson.cpp`, `sensors/buildjson.cpp`; the parts of nlohmann::json they use |
| `DbusConfigModel.v` | `init` of `dbus/dbusconfiguration.cpp`, `findSensors` of `dbus/dbusutil.cpp` |
| `ExamplesDbus.v` | a bus for the examples of C69-C72 |
| `ReloadModel.v` | `createMatches`, `eventHandler`, `getSelectedProfiles` of `dbus/dbusconfiguration.cpp`, `signalHandler` of `main.cpp` |
| `StartModel.v` | `main`, `searchConfigurationPath`, `restartControlLoops` of `main.cpp`, `parseValidateJson` of `buildjson/buildjson.cpp` |
| `DaemonModel.v` | `main` of `main.cpp`: events, handlers, sensors, zones and devices together over any number of reloads |
| `RemoteModel.v` | the IPMI handler and the running daemon side by side: zone objects as seen by `ipmi/dbus_mode.cpp`, messages on their way |
| `Spec*.v` | vocabulary of the theorem statements |
| `*Proofs*.v`, `Zone{Frame,Thermal,Fan}.v`, `BuilderRun.v` | lemmas |
| `Properties*.v` | the theorems |

## 3. Properties: what is modelled and how it is proved

Theorem names are `Cnn_...` in the files named in the second column; the full list is in `MANIFEST.json`.

| id | file | what is modelled, how it is proved |
|---|---|---|
| C01 PID output stays inside the configured output limits | `PropertiesPid.v` | `pid` as a step function on loop states; invariant "last output within limits" by induction over the list of (input, setpoint); clamp lemmas for doubles incl. NaN and infinities. |
| C02 Integral accumulator stays inside the integral limits | `PropertiesPid.v` | Same induction, invariant on the integral, through the slew back-calculation. |
| C03 Slew rate bound between consecutive outputs | `PropertiesPid.v` | Case analysis of the slew limiter; rounding kept as in the code (the bound is the double the code computes). |
| C04 The output before slew limiting is the documented PID formula | `PropertiesPid.v` | Equation between `pid` and a formula written out in `SpecPid.v`. |
| C05 Hotter input never asks for less cooling | `PropertiesPid.v` | Two-run argument: every IEEE operation used is monotone in the wanted direction (from Flocq rounding lemmas), composed through clamps and slew. |
| C06 Sane configurations and readings never produce NaN | `PropertiesPid.v` | Inductive magnitude bound (2^200 based) over histories with Flocq no-overflow lemmas. |
| C07 Input hysteresis band | `PropertiesPid.v` | Controller step; case analysis and induction over readings. |
| C08 Setpoint hysteresis mode | `PropertiesPid.v` | Case analysis of the three branches. |
| C09 Stepwise table lookup | `PropertiesPid.v` | `stepwise` against a list-based specification ("prefix before the first NaN or larger reading"). |
| C10 Stepwise hysteresis | `PropertiesPid.v` | Controller state machine; induction over readings. |
| C11 Thermal controller input aggregation | `PropertiesZone.v` | `inputProc` fold against "member and bound" / sum specifications. |
| C12 Fan controller input aggregation | `PropertiesZone.v` | Fold against "lowest positive finite, else 0". |
| C13 Zone setpoint selection | `PropertiesZone.v` | A whole thermal cycle (clear, all controllers, ceilings, minimum) refined to a max/min formula over what the enabled controllers asked for. |
| C14 Setpoint accumulation by profile | `PropertiesZone.v` | Same refinement with running sums per profile name. |
| C15 Disabled controllers contribute nothing | `PropertiesZone.v` | Two zones that differ only in disabled controllers give the same setpoint: relational induction over the controller list; Enable as last write of the event history. |
| C16 The requested setpoint never drops below the zone minimum and is never NaN | `PropertiesZone.v` | Invariant over loop events. |
| C17 Failsafe membership is exactly the failing sensors | `PropertiesZone.v` | Failsafe set as a function of the poll history; induction over loop events from construction and start-up. |
| C18 Start-up is in failsafe | `PropertiesZone.v` | `initializeCache` computed, then C17. |
| C19 Failsafe percent is the maximum over failing sensors | `PropertiesZone.v` | `max_element` fold against "member and bound". |
| C20 Failsafe floor on every fan command | `PropertiesZone.v` | Trace of writes of a whole automatic wake-up. |
| C21 Strict failsafe is exact | `PropertiesZone.v` | Same, strict build. |
| C22 Outside failsafe, and in tuning mode, the computed output is written unchanged | `PropertiesZone.v` | Same; also order and multiplicity of writes. |
| C23 Missing-acceptable sensors never cause failsafe | `PropertiesZone.v` | Invariant over loop events. |
| C24 Stale sensors are detected | `PropertiesZone.v` | `processSensorInput` and C17. |
| C25 Manual mode never writes fans | `PropertiesZone.v` | Trace and state equality over event lists without leaving manual mode. |
| C26 Leaving manual mode forces exactly one full rewrite | `PropertiesZone.v` | Force flag of every write over event lists. |
| C27 Fan and thermal cycle ratio | `PropertiesZone.v` | Counter invariant `phase + T*thermal = F*ticks` by induction. |
| C28 Control cycles are scheduled without drift | `PropertiesZone.v` | Expiry invariant by induction over wake-ups with arbitrary delays. |
| C29 D-Bus sensor failure status | `PropertiesInitial.v`, `PropertiesNames.v`, `PropertiesSensor.v` | DbusPassive state machine; specification reads the signal history directly. |
| C30 Bad readings never replace the last good value | `PropertiesSensor.v` | Same machine, value part. |
| C31 Critical alarm handling | `PropertiesSensor.v` | Message handler, case analysis. |
| C32 Raw PWM written stays between configured min and max | `PropertiesWrite.v` | Writer functions; Flocq exactness and rounding lemmas for offset and truncation. |
| C33 Redundant writes are suppressed, changed values are not | `PropertiesWrite.v` | Writer state machine; induction over writes, bus as a list of sent values. |
| C34 A lost bus write is repaired by the next forced or changed write | `PropertiesWrite.v` | Same with failing calls. |
| C35 Sensor readings are normalised into [0,1] | `PropertiesSensor.v` | `scaleSensorReading`; rounding lemmas. |
| C36 Zone numbers are unique and stable | `PropertiesConfig.v` | Map invariant over assign/lookup sequences; termination by pigeonhole. |
| C37 Input splicing keeps names and flags | `PropertiesConfig.v` | List induction. |
| C38 Failsafe log rate limit | `PropertiesLog.v` | Logger state machine with the width of size_t as a parameter; window-count invariant. |
| C39 Failsafe log deduplication | `PropertiesLog.v` | Logger state machine; invariant on the set of reported texts. |
| C40 Core log throttle | `PropertiesLog.v` | Core log state machine; refinement to "due" predicate over the history. |
| C41 Core log files are never shared | `PropertiesLog.v` | Injectivity of file names over all sequences of initialisations. |
| C42 IPMI manual-mode command decoding | `PropertiesConfig.v`, `PropertiesObjectPath.v` | Decoder over byte lists with reads checked against the length; the backend may throw, and the D-Bus one does for an invalid object path. |
| C43 Interface selection by path | `PropertiesConfig.v` | Substring semantics of `std::string::find`. |
| C44 Cycle times are always positive | `PropertiesConfig.v`, `PropertiesPeriod.v` | Both `getCycleTimeSetting` functions and the timer arithmetic. |
| C45 Stopping control loops is safe | `PropertiesMain.v`, `PropertiesRetry.v` | Queue of handlers; invariants over all interleavings. |
| C46 Host-off exemption | `PropertiesSensor.v` | Host state machine and sensor status. |
| C47 Redundancy failures | `PropertiesInitial.v`, `PropertiesSensor.v` | Set of failed paths over message histories. |
| C48 Warning throttle | `PropertiesLog.v`, `PropertiesThrottle.v` | Throttle state machine. |
| C49 Built zones contain exactly the configured controllers and are safe to run | `PropertiesBuilder.v` | `buildZones` fold; invariants connecting configuration and zone, preserved by the loop. |
| C50 Offline failsafe | `PropertiesZone.v` | Destructor writes as a trace. |
| C51 End-to-end reaction to a failing thermal sensor | `PropertiesZone.v` | Composition of C17, C19, C20, C27: bounded response from every reachable state. |
| C52 Zones are independent | `PropertiesZone.v` | Product of per-zone steps; projection lemma. |
| C53 Every automatic cycle polls every fan | `PropertiesZone.v` | Trace of reads of a wake-up. |
| C54 The reported requester is the one that decided | `PropertiesZone.v` | Requester name carried through the refinement of C13. |
| C55 The CSV log has one well-formed row per automatic cycle | `PropertiesRawCell.v`, `PropertiesZone.v` | Token stream split into lines; invariant over events. For the raw output, an invariant of the remembered outputs over all events of the daemon, relative to what the writer of each fan answers, which never changes its kind. |
| C56 Sensor failsafe messages reach exactly the zones that use the sensor | `PropertiesLog.v` | Logger registry built from the zones; simulation between the registry and one zone-local logger. |
| C57 Core logging never changes control | `PropertiesLog.v` | Equality of loop results with and without the log state. |
| C58 A failed sensor drives the fans to the largest percentage its PIDs ask for | `PropertiesBuilder.v` | Fold of `addPidFailSafePercent` over the configuration against "largest". |
| C59 A missing sensor is tolerated exactly when some PID of the zone tolerates it | `PropertiesBuilder.v` | Fold of the input lists against "exists". |
| C60 Every sensor is built as configured | `PropertiesSetup.v`, `PropertiesSystem.v` | `buildSensors` fold against a description of each sensor by its paths; when a D-Bus object can be set up is said by its type and the kinds of its properties (SpecSetup.v). |
| C61 What a poll sees is what the bus last said | `PropertiesPoll.v`, `PropertiesReason.v`, `PropertiesSystem.v` | Whole-daemon model; projection of the history to one sensor, then C29-C31, C46, C47. |
| C62 From sensor failure on the bus to raised fan devices | `PropertiesSystem.v` | Composition of C61, C51, C58, C59 and C64 on the whole-daemon model. |
| C63 A well-configured daemon keeps running | `PropertiesSystem.v` | Invariants of C49 and C61 lifted to the whole daemon; induction over the history. |
| C64 Fan devices hold the last command | `PropertiesSystem.v` | Invariant between writer cache and device, over all histories. |
| C65 A JSON configuration is loaded as written | `PropertiesJson.v` | Relation between JSON values and configurations; each reader of `JsonModel.v` shown to return the related value. |
| C66 Exactly the well-formed JSON configurations load | `PropertiesJson.v` | Equivalence reader by reader; both directions. |
| C67 A bad JSON configuration is refused, not undefined | `PropertiesJson.v` | The same readers, cases of the outcome; induction over the arrays. |
| C68 From a JSON document to a running daemon | `PropertiesJson.v` | Composition of C65, C60, C49 and C63. |
| C69 A configuration on D-Bus is loaded as the objects say | `PropertiesDbus.v`, `PropertiesNames.v` | Objects flattened to a list of parts; relation between parts read so far and maps, by induction over the parts; invariant of C36 for zone numbers. |
| C70 Every complete configuration on D-Bus loads | `PropertiesDbus.v` | Every step of the same induction succeeds on complete parts. |
| C71 A bad configuration on D-Bus is refused, not undefined | `PropertiesDbus.v` | Cases of the outcome of every reader; induction over objects. |
| C72 From objects on D-Bus to a running daemon | `PropertiesDbus.v` | Composition of C69, C70, C60, C49 and C63. |
| C73 Every zone and controller has its own D-Bus path | `PropertiesObserve.v` | Decimal numbers and prefixes are injective; induction over the configuration, with the bus as a parameter. |
| C74 The debug object of a PID shows what decided the cycle | `PropertiesObserve.v` | Invariant of the fold over the inputs; frame of the other controllers over the cycle. |
| C75 Mode changes are printed once, with the values applied | `PropertiesObserve.v` | Invariant of reachable loops (transition mark, previous state, failsafe maps); cases of a wake-up. |
| C76 A new requester is printed | `PropertiesObserve.v` | Invariant: previous name is the last one printed; split of the setpoint selection. |
| C77 Tuning files set the setpoint and nothing else | `PropertiesObserve.v` | The cycle split at the selection of the setpoint; cases of the two files. |
| C78 The zone reports every failure and recovery to the failsafe log | `PropertiesObserve.v` | Invariant of reachable loops relating the trace to expected_attempts, by induction over polls. |
| C79 Fan commands stay between 0 and 1 | `PropertiesRange.v` | Invariant over wake-ups: bounds on every state variable of every PID, on requests and on cached speeds; rounding is monotone. |
| C80 With a sensible configuration the daemon never stops | `PropertiesRange.v` | The bounds of C79 as an invariant of the whole system; by C63 only a device write can stop it, and commands between 0 and 1 convert safely. |
| C81 Configuration changes on the bus are reloaded | `PropertiesReload.v` | Invariants over events: a reload owed is pending somewhere (timer, queue, retry) until the configuration is read; timers count the signals. |
| C82 SIGHUP and SIGTERM are not lost | `PropertiesReload.v` | As C81: an owed restart or end is pending somewhere until it is done. |
| C83 The current thermal mode selects the profiles | `PropertiesReload.v` | Induction over the replies; selection depends on the set of modes only. |
| C84 Rounding does not lead the control law astray | `PropertiesExact.v` | The law is written over the reals; per-operation rounding bounds, limits and rates are 1-Lipschitz, induction over the history. |
| C85 A wildcard in a sysfs path means one file | `PropertiesPath.v` | FixupPath equals a relational description; invariant over all events for the files read and written. |
| C86 With accumulation all contributors are named as requester | `PropertiesAccum.v` | The accumulating scan is the plain scan over the partial sums; induction over the controllers for the joined name. |
| C87 Which configuration the daemon uses | `PropertiesStart.v` | The search is characterised by the first place that is there; composition of C65-C68 and C69-C72 with the start of all zones in any order. |
| C88 Failed starts are tried again | `PropertiesStart.v` | Induction over the failed attempts; the zones of a configuration have different numbers. |
| C89 Options of the command line and flag files | `PropertiesStart.v` | Cases over what the files say. |
| C90 The running system is that of the last start | `PropertiesDaemon.v` | Invariant of executions: live loops, zone objects and loops of the system agree (with C45), and the system is a run of SystemModel.v since the last start. |
| C91 Only control cycles write to fans | `PropertiesDaemon.v` | Cases over one event, then induction. |
| C92 No accidents in the daemon's life | `PropertiesDaemon.v` | By C90 the system is a run of SystemModel.v, so C63 applies to every event; the restart is composed from C60, C49 and C87. |
| C93 Fans stay in range over the daemon's life | `PropertiesDaemon.v` | As C92 with C80 in place of C63; the devices carry over from one start to the next. |
| C94 Reloads take effect, except with external sensors | `PropertiesDaemon.v` | Every object on the bus comes from a configuration read before; composition of C60, C49, C88 and C90. The blocked reload: invariant over any further events. |
| C95 A daemon that goes leaves its fans at the failsafe percentage | `PropertiesOffline.v` | By C90 the zones that go away are those of the last start with a history each; the writes of the destructors are followed one by one to the devices, with C50 and C62. |
| C96 SIGTERM ends the daemon after at most two attempts | `PropertiesStop.v` | Invariant of every state (no regime of attempts needed): a loop of a zone in force waits only on a timer that stopping cancels. After the first attempt no such loop waits; the second is queued behind all its handlers, and its place in the queue counts down. |
| C97 A reload that is queued is carried out after at most two attempts | `PropertiesStop.v` | The same invariants and counting as C96, for the other attempt; if no reload got through, no loop was started either. |
| C98 Hotter histories ask for at least as much cooling | `PropertiesHeat.v` | Induction over both histories at once: the remembered integrals are ordered, so every term of the formula (C04) and their rounded, limited sum is; no NaN by C06. |
| C99 A hotter zone never gets a lower setpoint | `PropertiesHeat.v` | Relation between the two runs of the zone, kept by every event: corresponding controllers have ordered histories (C98), so requests and ceilings are ordered one by one, hence sums, maxima and the capped result. |
| C100 Manual mode lasts until it is switched off or the loops are restarted, and keeps the fans untouched | `PropertiesLife.v` | Invariant of every step of the daemon that does not stop the loops: the mode and the device stay, writes come from fans of the loop that wakes up; the mode by C90 and the mode of a zone in a history of the system. |
| C101 A failing sensor raises the fans within one thermal interval, over the whole life of the daemon | `PropertiesLife.v` | C90 turns the history since the last start into a history of the system started from the configuration read then; the runs of the loop in the life are counted as its wake-ups there; then C62. |
| C102 IPMI requests and the running daemon agree on modes | `PropertiesRemote.v` | The handler model runs against the bus that the state of the daemon shows. Object paths of zone numbers are injective; the arrival of a message is a Manual write of C100, which gives the lasting effect; the failing sensor goes through C90 and the first half of C62; an invariant over all events says that messages in flight and zones in manual mode go back to requests. |
| C103 Once its sensors are well again, a zone leaves failsafe | `PropertiesRemote.v` | The last start makes the state a history of the system it started (as for C101). A run of the loop that polls a well sensor erases its failsafe entry, no later run enters it again; by induction over the runs the failsafe map ends empty. |
| C104 Changes on the bus are noticed exactly when there is no configuration file | `PropertiesWatch.v` | Every event moves the timers by at most one event of ReloadModel.v. With a file the match rules never exist, so signals are no-ops (induction). Without, they exist from then on; C81 gives that nothing is lost, and the reload is followed from the timer to the completed waits to the queue of handlers, where the two attempts of C97 finish it. |
| C105 A hotter or less healthy zone never gets lower fan commands | `PropertiesCool.v` | A relation between the two lives, kept by every event: that of C99 for the setpoints, failing sensors of the first among those of the second (through every poll), the same fan loops, and commands recorded so far in order. The feed-forward output is monotone in the setpoint because the other terms are zeros (C79 excludes NaN), the failsafe percentage in the set of failing sensors. |
| C106 A loop whose input stays the same comes to rest | `PropertiesRest.v` | Without rate limits the integral, with rate limits the output, is the orbit of a monotone function on doubles: rounding, clamping and rate limiting are monotone. Such an orbit is monotone, and as doubles are multiples of 2^-1074 between bounds it becomes constant. Fixed points of the rate limiter and of the clamped integral are computed. Visibility of a rate follows from the spacing of doubles. |
| C107 A zone whose readings stay the same comes to rest | `PropertiesSettle.v` | The orbits of all thermal controllers come to rest by C106 and by idempotence of stepwise controllers; the setpoint is a function of their outputs, and results are carried over up to the sign of zero by a congruence. Cycles are counted: their number grows without bound or stops growing. Failing sensors are given by an idempotent operation of each poll. Then each fan loop is fed the same setpoint and speed, and C106 applies to it. The commands are compared through the failsafe percentage. |
| C108 A fan's commands do not depend on the speeds of other fans | `PropertiesLocal.v` | A relation between two states: equal thermal controllers, setpoint, modes, failsafe percentages, caches of the group and of thermal sensors, and fan loops of the group. Each poll, thermal cycle, fan round and bus write keeps it, so every step sends the same commands to the group. |
| C109 A zone is controlled by its own sensors only | `PropertiesApart.v` | The two histories are aligned; an event that does not concern the zone leaves the reading side of its sensors and its loop alone, one that does keeps both sides equal. So the two sequences of steps of the zone meet the hypotheses of C108 with all its fans as the group. |
| C110 Only differences of times matter | `PropertiesClock.v` | Sensors built and updated k later hold the same values with time stamps k later; a poll k later finds the same values and the same sensors bad. So the steps of a zone meet the hypotheses of C108, and its timer those of C28. For the whole daemon: every function of the zone, the loop and the daemon commutes with moving the time stamps; induction over the events. |
| C111 A daemon whose sensors stay the same comes to rest | `PropertiesQuiet.v` | The wake-ups of the zone form a life of its loop as in C107, whose hypotheses follow from the invariant of C80; so its commands become constant. From the next wake-up on the flag that forces writes is clear and the writer remembers the raw value of the constant command, so no call is made (C33). |

## 4. Trusted base

* Coq 8.16.1: the kernel and the virtual machine (`vm_compute`, used in
  examples and in `_refuted` theorems).
* The axioms listed in section 7; all are from the standard library.
  `coqchk -o`, run on PollProofs, RawCellProofs, QuietProofs, ThrottleProofs and
  all they depend on, reports no others; the remaining files were not put
  through it.
* The hand translation from C++ to Gallina (the `*Model.v` files) and the
  reading of the C++ standard in them: what is undefined, how `std::map`,
  `std::max_element`, `std::chrono` and `std::variant` behave.
* Floating point: binary64 with round to nearest even, no extended precision
  and no contraction into fused multiply-add. GCC contracts by default on
  targets that have the instruction (`-ffp-contract=fast`); a build for such a
  target without `-ffp-contract=off` is outside the model.
* `std::pow(10.0, scale)` is not computed: it is a parameter of the sensor
  model and theorems hold for every value it may return.
* boost::asio: one handler at a time, in the order in which handlers became
  ready; cancelling a timer completes its waiting handler with
  `operation_aborted` and does not affect a handler that is ready already.
* sdbusplus, nlohmann::json, the object mapper and the kernel (sysfs): what
  they answer is an argument of the model.

### Modelled

All of the code listed in section 2, up to the simplifications named in the
comments of the definitions ("Simplified: ...").

### Not modelled

* Text written only for humans under the debug flag, and the wording of
  messages on standard error other than the failsafe log, the requester line
  and the fan-mode line.
* `dbus/dbusconfiguration.cpp`: `debugPrint`.
* The bus daemon: which signals a match rule lets through is taken from the
  D-Bus specification.
* `std::regex`: the function from patterns to matchers is an argument.
* A failing `sdbusplus::bus::new_default()` inside the D-Bus writers
  (`dbus/dbuswrite.cpp`).
* JSON text (the model starts from the parsed document).
* CLI11: the model starts from the values of the options.
* sdbusplus: that a second object with the path of an existing one throws is
  taken from its source.
* `setsensor.cpp`, `experiments/`, `tools/`, `ipmi/main_ipmi.cpp` (the
  registration of the IPMI handler), command-line parsing, bus names and
  signal-handler registration in `main.cpp`.
* The D-Bus transport: matching of signals, serialisation, the properties that
  sdbusplus serves (only the values behind them are modelled).
* Threads: the daemon has one thread, so the mutexes of sensors are left out.
* Memory exhaustion.

## 5. Findings in the code

Facts about the code met while modelling. Those with a theorem are proved in
the model; the others were read off the source and are not machine-checked.

Control law and zones:

* A sample period of 0 gives a NaN output (`C06_zero_period_refuted`); a NaN
  integral then stays NaN for the life of the loop.
* A positive `slewNeg` makes outputs leave `outLim`
  (`C01_positive_slewNeg_refuted`). With `checkHysteresisWithSetpoint` the low
  branch outputs 0 whatever `outLim.min` says (`C01_setpoint_hysteresis_refuted`).
* The integral that the slew limiter back-calculates leaves out the derivative
  and feed-forward terms. So a rate limit that is never reached makes a loop with
  integral and feed-forward climb at its setpoint
  (`C106_unused_rate_limit_refuted`).
* A rate limit below half the spacing of doubles at the output keeps the output
  for ever (`C106_tiny_rate_refuted`).
* A NaN fan output passes the failsafe floor and is written
  (`C20_nan_output_refuted`); converting it for a D-Bus writer is undefined
  (`C32_nan_refuted`).
* A NaN first in the list of ceilings masks the others (`C13_nan_ceiling_refuted`).
* With accumulation the zone keeps the largest intermediate sum, so a later
  negative request of the same profile does not lower it
  (`C14_negative_request_refuted`). Leaders are found by substring match.
* A disabled ceiling controller still caps the zone (`C15_disabled_ceiling_refuted`).
* The zone minimum is applied after the ceilings and overrides them; the tuning
  file overrides both (`C16_tuning_refuted`).
* A sensor's failsafe percent below the zone's own setting lowers the floor
  (`C19_zone_setting_is_not_a_floor_refuted`).
* A stepwise controller with a NaN input selects the last table entry.
* One PID marking an input as missing-acceptable makes it acceptable for every
  PID of the zone (C59).
* An empty tuning file (`C77_empty_file_refuted`), or a sysfs file that cannot be
  opened, makes the code read an uninitialised variable.
* In an offline-failsafe build the destructor reads an uninitialised raw value
  for writers that report none (`C50_uninitialised_raw_refuted`).
* The previous requester name is not updated when "Minimum" decides, so the
  requester line is not printed again when the same controller takes over
  (`C76_every_takeover_is_printed_refuted`).
* The debug object of a PID keeps an old input and leader while no reading is
  usable (`C74_input_is_current_refuted`), objects of stepwise controllers are
  never updated, and a disabled controller still shows an output.
* `cycleCnt` grows without bound when the fan interval exceeds the thermal one.

Sensors and writers:

* A redundancy failure is reported with the reason "Unknown"
  (`C29_redundancy_reason_refuted`).
* With `unc-failsafe`, a warning message that carries no asserted alarm clears
  a critical failure (`C29_warning_hides_critical_refuted`).
* An object without a `Value` property reads as 0, not as missing
  (`C30_missing_value_reads_zero_refuted`).
* A sensor built as "object missing" stays missing until the next rebuild.
* A forced NaN clears the margin-hot flag; the bad-reading flag persists until
  the next finite reading.
* A property of an unexpected D-Bus type throws out of the signal handler.
* An unforced repeat of a lost bus write is never sent
  (`C34_unforced_repeat_refuted`); the initial cache value of -1 suppresses a
  first command of -1.
* Bounds near 2^63 make the conversion of the raw value undefined
  (`C32_huge_bounds_refuted`); a range `max - min` that overflows breaks the
  normalisation (`C35_range_overflow_refuted`).
* Sysfs writers ignore the force flag and report no raw value.
* Host sensors never get `ignoreFailIfHostOff`
  (`C60_external_host_off_option_refuted`), and start at value 0.
* A fan with an external read path gets a null reader, dereferenced by its first
  poll (`C60_external_fan_refuted`).
* The default timeout is 0 for fans and 2 s for other sensors
  (`sensors/sensor.hpp:26-29`); the documentation has it the other way round.
* The redundancy object in `buildSensors` is `static`: it survives rebuilds and
  is not populated again.

Logs:

* The failsafe log limit fails when the clock goes back
  (`C38_clock_going_back_refuted`). The times are kept in a
  `std::deque<size_t>` (`failsafe_logger.hpp:51`): where `size_t` has 32 bits and
  the clock counts from 1970, the upper half of a time is lost, every kept time
  looks old and there is no limit at all (`C38_no_limit_with_32_bits`,
  `C38_32_bits_refuted`). Attempts that print nothing use up the
  budget (`C39_silent_attempts_use_the_budget_refuted`), so a "leaves failsafe"
  line can be lost (`C39_leaving_line_lost_refuted`).
* Healthy sensors report "recovered" with state "not failsafe" to the zone's
  failsafe log whenever they are asked (`dbus/dbuspassive.cpp`,
  `getFailed`), so the log can say that a zone leaves failsafe mode while it is
  in it (`C78_log_follows_the_zone_refuted`).
* The throttle of the tuning-file warning is shared by all zones and files.
* Core log: contexts with NaN always differ and are always logged; a clock
  reading of 0 is taken for "never logged".

Configuration and life cycle:

* A negative JSON cycle time passes the check (`C44_json_negative_refuted`);
  intervals above 9223372036854 ms overflow or give a negative period
  (`C44_period_of_every_interval`).
* `setZoneIndex` overflows at 2^63-1 (`C36_overflow_refuted`).
* A fan PID without inputs is stored as a null pointer and dereferenced in the
  first fan cycle (`C49_empty_fan_pid_refuted`).
* `stopControlLoops` looks at the first zone only; overlapping stop attempts
  can leave an old loop running (`C45_overlapping_attempts_refuted`). With
  running loops the first attempt always fails and the retry is 10 s later
  (`C45_running_loops_make_the_first_attempt_fail`): fans are unmanaged in
  between.
* IPMI: zone bytes 128 to 255 name negative zones
  (`C42_high_zones_unreachable_refuted`). Their "zone-N" is no valid object
  path, building the message fails outside the `try`, and the exception leaves
  the command handler instead of becoming a completion code
  (`C42_high_zones_throw`, `C42_always_a_completion_code_refuted`). A property the bus does not report
  reads as "off" (`C42_absent_property_reads_as_false_refuted`); the README says
  manual means the value 1, the code takes every non-zero value.
* JSON: a zone without `id` or a sensor or PID without `name` is undefined
  behaviour (`C67_missing_zone_number_refuted`,
  `C67_missing_sensor_name_refuted`); `FailSafePercent` is truncated to an int
  (`C65_fractional_percent_refuted`); tables of more than 20 points are cut off
  (`C65_long_table_refuted`); readings and outputs of different lengths are
  accepted; of two zones, PIDs or sensors of one name the last wins.
* configure.md: the default timeout is 0 for fans and 2 s otherwise, not the
  reverse (`C65_documented_timeout_refuted`); `readPath` is not optional
  (`C66_optional_read_path_refuted`).
* D-Bus configuration: the i-th TempToMargin value goes to the i-th input in the
  order "missing first, then found", or to the i-th found one, not to the i-th
  configured one (`C69_margin_order_refuted`, `C69_margin_shift_refuted`); the
  last object that names a sensor decides its class and options, and the order
  is that of a hash map (`C69_order_refuted`), as are zone numbers not asked
  for; stepwise controllers always get failsafe percent 0
  (`C69_stepwise_percent_refuted`) and, without the option to handle missing
  objects, lose the inputs after a missing one
  (`C69_stepwise_missing_refuted`); an integer ZoneIndex is ignored
  (`C69_integer_index_refuted`); sensors whose paths end in the same component
  collide; a PID and a stepwise controller of one name share one entry; two
  PIDs with SetPointOffset that name the same sensor append its input twice;
  a PID object without Zones, Name or Class throws and with it the whole
  configuration (`C70_one_bad_object_refuted`).
* D-Bus configuration: FailSafePercent beyond an int, or ZoneIndex beyond an
  int64 or NaN, is undefined behaviour (`C71_percent_refuted`,
  `C71_zone_number_refuted`).
* A controller in a zone that has no zone object loads with success and makes
  `buildZones` throw (`C72_zone_not_described_refuted`).
* A PID whose name is not a valid D-Bus path element makes zone construction
  throw; a sensor of unknown type without a D-Bus read path is silently not
  built and polling it throws.
* An infinite output in a stepwise table makes the zone command its fans to NaN
  (`C79_infinite_output_refuted`).
* A fan range with a negative minimum makes an ordinary command undefined
  behaviour: the raw value is negative and is converted to an unsigned type
  (`C80_negative_minimum_refuted`).
* A controller or zone that newly appears on the bus is not noticed:
  InterfacesAdded is only watched below /xyz/openbmc_project/sensors
  (`C81_new_controller_refuted`).
* An empty hwmon directory does not stop the daemon from starting: the path
  keeps its stars, and the first poll uses a value that was never set
  (`C85_wildcards_are_resolved_refuted`).
* Which of several entries is taken depends on the order in which the system
  lists them (`C85_order_does_not_matter_refuted`).
* With accumulated setpoints and a ceiling that decides, the requester is empty
  instead of "Ceiling" (`C86_ceiling_is_named_refuted`), and controllers of other
  profiles may be named (`C86_only_contributors_are_named_refuted`).
* A configuration named with `-c` that is gone at a reload is not an error: the
  daemon silently takes the configuration on the bus, not the installed file
  (`C87_missing_named_file_refuted`).
* Core logging (`-g`) without logging writes `/pidcore.*` in the root directory
  (`C89_core_log_refuted`): the folder is set only if logging is on.
* The flag file for logging may name a regular file (`C89_folder_refuted`), and its
  line wins over `-l`.
* Without a folder for temporary files the daemon ends at start, even if nothing is
  logged (`C89_no_temporary_folder_refuted`).
* A reload of a configuration with an external sensor never succeeds: the new
  sensors are built while the old ones still hold their D-Bus objects, the
  exception is retried every few seconds with the same result, and as the loops
  were stopped before, nothing drives the fans any more
  (`C94_reload_refuted`, `C94_published_sensors_block_reloads`).  This rests on
  sdbusplus throwing when the object path is taken.
* With OFFLINE_FAILSAFE_PWM and a fan in sysfs every reload and every orderly end
  reads an uninitialised variable (`C95_sysfs_refuted`): the fan does get its
  failsafe value, but the behaviour is undefined.
* With a rate limit the integral is recomputed from the limited output minus the
  proportional term and clamped.  One very hot sample therefore empties the
  integral, and the loop asks for less cooling afterwards than if the sample had
  been cooler (`C98_rate_limit_refuted`).
* The IPMI handler sends the new mode as a call without reply and answers success at
  once.  A request for a zone that does not exist succeeds, too
  (`C102_success_means_set_refuted`), and a query right after a successful request
  can show the mode of before (`C102_set_then_ask_refuted`).
* Read only, not modelled: `setsensor.cpp` sends the `Value` of a host sensor as a
  64-bit integer, while the property that `sensors/host.cpp` offers is a double; the
  bus refuses such a Set because of its type.
* With `STRICT_FAILSAFE_PWM` a failing sensor can lower the fans: they leave full speed
  for the failsafe percentage of the sensor, however hot the zone is
  (`C105_strict_refuted`).
* The log shows -1 as raw output of every fan in sysfs, although a raw value was written:
  the sysfs writers inherit a `write` that never stores it (`C55_raw_output`).
* A fan whose read path is empty or of no known kind is accepted, and the first wake-up of
  its zone ends the daemon with an exception (`C61_fan_without_source`).

## 6. Statements narrowed after a refutation

| property | what was too strong | theorem |
|---|---|---|
| C01 | limits without a sign condition on slewNeg; with setpoint hysteresis | `C01_positive_slewNeg_refuted`, `C01_setpoint_hysteresis_refuted` |
| C06 | any sample period | `C06_zero_period_refuted` |
| C13 | NaN ceilings allowed | `C13_nan_ceiling_refuted` |
| C14 | total per profile also with negative requests | `C14_negative_request_refuted` |
| C15 | disabled ceiling controllers | `C15_disabled_ceiling_refuted` |
| C16 | tuning mode | `C16_tuning_refuted` |
| C19 | zone setting as a floor | `C19_zone_setting_is_not_a_floor_refuted` |
| C20 | NaN outputs | `C20_nan_output_refuted` |
| C29 | a reason is always given; alarms of different severity are independent | `C29_redundancy_reason_refuted`, `C29_warning_hides_critical_refuted` |
| C30 | initial value is a reading | `C30_missing_value_reads_zero_refuted` |
| C32 | any bounds, any double | `C32_huge_bounds_refuted`, `C32_nan_refuted` |
| C34 | every lost write is repaired | `C34_unforced_repeat_refuted` |
| C35 | any min < max | `C35_range_overflow_refuted` |
| C36 | any requested number | `C36_overflow_refuted` |
| C38 | any clock; any width of `size_t` | `C38_clock_going_back_refuted`, `C38_32_bits_refuted` |
| C39 | nothing but repeats is dropped | `C39_silent_attempts_use_the_budget_refuted`, `C39_leaving_line_lost_refuted` |
| C42 | every zone byte; absent property is an error | `C42_high_zones_unreachable_refuted`, `C42_always_a_completion_code_refuted`, `C42_absent_property_reads_as_false_refuted` |
| C44 | every JSON number | `C44_json_negative_refuted` |
| C45 | overlapping stop attempts with several zones | `C45_overlapping_attempts_refuted` |
| C49 | whole wake-ups of every configuration | `C49_empty_fan_pid_refuted` |
| C50 | every writer | `C50_uninitialised_raw_refuted` |
| C60 | fans with external read paths; the host-off option of external sensors | `C60_external_fan_refuted`, `C60_external_host_off_option_refuted` |
| C65 | any percentage, any number of points, the defaults of configure.md | `C65_fractional_percent_refuted`, `C65_long_table_refuted`, `C65_documented_timeout_refuted` |
| C66 | optional readPath | `C66_optional_read_path_refuted` |
| C67 | any document | `C67_missing_zone_number_refuted`, `C67_missing_sensor_name_refuted` |
| C69 | one order of objects; the k-th zero for the k-th configured input; stepwise percentages; all inputs found; integer zone numbers | `C69_order_refuted`, `C69_margin_order_refuted`, `C69_margin_shift_refuted`, `C69_stepwise_percent_refuted`, `C69_stepwise_missing_refuted`, `C69_integer_index_refuted` |
| C70 | complete objects load even if others are not complete | `C70_one_bad_object_refuted` |
| C71 | any number | `C71_percent_refuted`, `C71_zone_number_refuted` |
| C72 | zones need not have objects | `C72_zone_not_described_refuted` |
| C74 | the shown input is a current reading | `C74_input_is_current_refuted` |
| C76 | every change of requester | `C76_every_takeover_is_printed_refuted` |
| C77 | any file | `C77_empty_file_refuted` |
| C78 | the printed log follows the zone | `C78_log_follows_the_zone_refuted` |
| C79 | any stepwise output | `C79_infinite_output_refuted` |
| C80 | any fan range | `C80_negative_minimum_refuted` |
| C81 | any new configuration object | `C81_new_controller_refuted` |
| C84 | exact outputs | `C84_exactness_refuted` |
| C85 | a path means the same file in every listing order | `C85_order_does_not_matter_refuted` |
| C85 | stars never reach the file system | `C85_wildcards_are_resolved_refuted` |
| C85 | different paths are different devices | `C85_own_paths_own_devices_refuted` |
| C86 | only contributors are named | `C86_only_contributors_are_named_refuted` |
| C86 | a deciding ceiling is named | `C86_ceiling_is_named_refuted` |
| C87 | a named file that is missing is an error | `C87_missing_named_file_refuted` |
| C89 | the core log goes to the folder for logs | `C89_core_log_refuted` |
| C89 | the folder for logs is a directory | `C89_folder_refuted` |
| C89 | logging that is off needs no folder | `C89_no_temporary_folder_refuted` |
| C94 | every usable configuration can be reloaded | `C94_reload_refuted` |
| C95 | the same for fans in sysfs | `C95_sysfs_refuted` |
| C96 | SIGTERM ends the daemon after two attempts even if a reload comes between | `C96_reload_between_refuted` |
| C98 | the claim also with a rate limit | `C98_rate_limit_refuted` |
| C98 | the claim also with a derivative term | `C98_derivative_refuted` |
| C98 | the claim also with hysteresis | `C98_hysteresis_refuted` |
| C105 | the claim also in a strict build when more sensors fail | `C105_strict_refuted` |
| C102 | a set request answered with success sets the mode | `C102_success_means_set_refuted`, `C102_set_then_ask_refuted` |
| C106 | rate limits of any size; rate limits together with an integral | `C106_tiny_rate_refuted`, `C106_unused_rate_limit_refuted` |
| C107 | fan speeds that follow the commands; tuning files | fans as physical devices are not modelled; C77 describes tuning |

## 7. Print Assumptions, theorem by theorem

Only axioms of the Coq standard library occur. `none` means "Closed under the global context". `R` means exactly these four, which come with the real numbers that Flocq's proofs use:

* `ClassicalDedekindReals.sig_forall_dec`
* `ClassicalDedekindReals.sig_not_dec`
* `Classical_Prop.classic`
* `FunctionalExtensionality.functional_extensionality_dep`

`none` (92 theorems):

`C49_built_as_configured`, `C49_when_construction_succeeds`, `C49_construction_is_defined`, `C59_acceptable_if_any_pid_says_so`, `C36_numbers_are_unique`, `C36_numbers_are_stable`, `C36_first_free_number_is_granted`, `C36_lookup_of_unknown_asks_for_0`, `C36_always_terminates_below_the_limit`, `C36_overflow_refuted`, `C37_each_input_gets_its_own_settings`, `C37_split_inverts_splice`, `C42_reads_stay_inside_the_request`, `C42_mode_changes_only_on_set`, `C42_set_asks_once_and_reports`, `C42_get_answers_one_byte`, `C42_everything_else_is_rejected`, `C42_zone_byte_names_the_zone`, `C42_reply_is_the_answer_of_the_zone`, `C42_high_zones_throw`, `C42_always_a_completion_code_refuted`, `C42_high_zones_unreachable_refuted`, `C42_absent_property_reads_as_false_refuted`, `C43_reader_kind`, `C43_writer_kind`, `C44_json_at_least_1ms`, `C44_json_value`, `C44_json_period_is_positive`, `C44_json_negative_refuted`, `C47_failing_queries`, `C38_at_most_max_lines_per_second`, `C38_clock_going_back_refuted`, `C38_no_limit_with_32_bits`, `C38_32_bits_refuted`, `C39_silent_outside_failsafe`, `C39_line_tells_the_attempt`, `C39_once_between_state_changes`, `C39_nothing_else_is_dropped`, `C39_silent_attempts_use_the_budget_refuted`, `C39_leaving_line_lost_refuted`, `C48_warning_iff_pace_elapsed`, `C56_zone_log_sees_exactly_its_own`, `C56_no_other_zone_is_named`, `C45_no_cycle_after_stop`, `C45_one_loop_per_zone`, `C45_restart_starts_each_zone_once`, `C45_at_most_one_cycle_while_stopping`, `C45_stopping_is_retried_until_done`, `C45_nothing_after_exit`, `C45_running_loops_make_the_first_attempt_fail`, `C45_overlapping_attempts_refuted`, `C29_interface_names`, `C69_interface_names`, `C42_calls_need_an_object_path`, `C73_object_paths_are_distinct`, `C73_no_other_path_is_used`, `C73_every_path_is_needed`, `C85_which_file`, `C85_order_does_not_matter_refuted`, `C85_own_paths_own_devices_refuted`, `C44_period_of_every_interval`, `C09_lookup`, `C09_lookup_determines_value`, `C09_below_all_points`, `C09_points_after_nan_unused`, `C81_which_signals`, `C81_no_change_is_lost`, `C81_running_zones_are_current`, `C81_no_reload_without_cause`, `C81_burst_is_one_reload`, `C81_new_controller_refuted`, `C82_hup_is_not_lost`, `C82_term_is_not_lost`, `C83_current_mode_selects`, `C83_unreadable_mode`, `C102_no_such_zone`, `C45_attempts_are_requests_or_retries`, `C29_reason_given`, `C46_pluggable_sensor`, `C47_failed_set`, `C47_initial_set`, `C88_not_started`, `C89_switches`, `C89_refused`, `C89_core_log_refuted`, `C89_folder_refuted`, `C89_no_temporary_folder_refuted`, `C48_warnings_three_seconds_apart`, `C48_warning_iff_three_seconds`, `C14_profile_is_suffix`, `C18_starts_in_failsafe`, `C55_rows_match_header`

`R` (255 theorems):

`C86_accumulated_requester`, `C86_contributors_are_named`, `C86_only_contributors_are_named_refuted`, `C86_ceiling_is_named_refuted`, `C109_own_sensors`, `C49_controllers_stay`, `C49_inputs_polled_once`, `C49_thermal_cycle_is_defined`, `C49_no_undefined_behaviour`, `C49_loop_keeps_running`, `C49_empty_fan_pid_refuted`, `C58_own_percent_is_the_largest`, `C110_clock`, `C110_same_life`, `C110_same_end`, `C44_dbus_at_least_1ms`, `C44_dbus_value`, `C44_dbus_period_is_positive`, `C105_hotter_fans`, `C105_strict_refuted`, `C90_running_system`, `C90_host_state`, `C91_only_cycles_write`, `C92_no_undefined_behaviour`, `C92_what_ends_it`, `C93_sensible_life`, `C93_devices_in_range`, `C94_reload_resumes`, `C94_published_sensors_block_reloads`, `C94_reload_refuted`, `C69_loaded_from_the_bus`, `C69_order_refuted`, `C69_stepwise_percent_refuted`, `C69_margin_order_refuted`, `C69_margin_shift_refuted`, `C69_stepwise_missing_refuted`, `C69_integer_index_refuted`, `C70_complete_configuration_loads`, `C70_one_bad_object_refuted`, `C71_always_answered`, `C71_percent_refuted`, `C71_zone_number_refuted`, `C72_configuration_runs`, `C72_zone_not_described_refuted`, `C84_rounding_error`, `C84_no_memory_no_drift`, `C84_controller`, `C84_one_year`, `C84_exactness_refuted`, `C98_hotter_history`, `C98_never_drops`, `C98_rate_limit_refuted`, `C98_derivative_refuted`, `C98_hysteresis_refuted`, `C99_hotter_zone`, `C29_message_beats_initial_property`, `C65_loaded_as_written`, `C65_fractional_percent_refuted`, `C65_long_table_refuted`, `C65_documented_timeout_refuted`, `C66_accepted_documents`, `C66_optional_read_path_refuted`, `C67_always_answered`, `C67_missing_zone_number_refuted`, `C67_missing_sensor_name_refuted`, `C68_document_runs`, `C100_manual_untouched`, `C100_mode`, `C101_life_reaction`, `C108_other_fans`, `C40_line_iff_due`, `C40_no_change_is_lost`, `C41_a_file_has_one_writer`, `C41_nothing_written_is_truncated`, `C41_files_named_after_the_loop`, `C57_logging_never_changes_the_loop`, `C57_nothing_written_when_off`, `C29_other_interfaces`, `C74_object_shows_the_cycle`, `C74_stepwise_object_is_not_updated`, `C74_input_is_current_refuted`, `C75_mode_changes_are_printed`, `C76_new_requester_is_printed`, `C76_first_requester_is_printed`, `C76_every_takeover_is_printed_refuted`, `C77_tuning_files_only_set_the_setpoint`, `C77_readable_files_do_not_stop_a_cycle`, `C77_empty_file_refuted`, `C78_failsafe_log_attempts`, `C78_state_is_the_property`, `C78_log_follows_the_zone_refuted`, `C95_offline_failsafe`, `C95_sysfs_refuted`, `C85_missing_directory`, `C85_polls_read_that_file`, `C85_other_devices_are_never_written`, `C85_wildcards_are_resolved_refuted`, `C01_pid_output_in_limits`, `C01_controller_output_in_limits`, `C01_positive_slewNeg_refuted`, `C01_setpoint_hysteresis_refuted`, `C02_integral_in_limits`, `C02_controller_integral_in_limits`, `C03_slew_increase`, `C03_slew_decrease`, `C04_pid_formula`, `C05_monotone_response`, `C06_no_nan`, `C06_zero_period_refuted`, `C07_input_hysteresis`, `C07_used_value_within_band`, `C08_above_band`, `C08_below_band`, `C08_inside_band`, `C09_highest_point_not_above_input`, `C09_monotone`, `C10_stepwise_hysteresis`, `C10_outputs_are_table_entries`, `C61_polls_of_a_wakeup`, `C61_every_poll_is_defined_refuted`, `C61_fan_without_source`, `C111_daemon_comes_to_rest`, `C111_bus_goes_quiet`, `C79_commands_in_range`, `C79_last_command_in_range`, `C79_infinite_output_refuted`, `C80_daemon_never_stops`, `C80_devices_in_range`, `C80_json_document`, `C80_dbus_configuration`, `C80_negative_minimum_refuted`, `C55_raw_output`, `C61_reason`, `C61_reason_of_others`, `C83_order_does_not_matter`, `C102_reports_the_zone`, `C102_failing_sensor_is_reported`, `C102_set_sends`, `C102_queries_change_nothing`, `C102_set_takes_effect`, `C102_manual_was_requested`, `C102_success_means_set_refuted`, `C102_set_then_ask_refuted`, `C103_recovery_ends_failsafe`, `C106_comes_to_rest`, `C106_rate_limit_only_delays`, `C106_integral_saturates`, `C106_clear_rates`, `C106_clear_gain`, `C106_tiny_rate_refuted`, `C106_unused_rate_limit_refuted`, `C29_failed_iff`, `C29_texts`, `C29_redundancy_reason_refuted`, `C29_warning_hides_critical_refuted`, `C30_value_is_last_accepted`, `C30_bad_reading_keeps_value`, `C30_missing_value_reads_zero_refuted`, `C31_critical_message_decides`, `C31_empty_message_changes_nothing`, `C35_normalised_in_unit_interval`, `C35_normalised_monotone`, `C35_no_range_passes_unchanged`, `C35_range_overflow_refuted`, `C46_host_sensor`, `C107_zone_comes_to_rest`, `C60_what_can_be_set_up`, `C60_what_a_bus_sensor_needs`, `C87_document_runs`, `C87_bad_file_ends`, `C87_only_the_file_counts`, `C87_bus_runs`, `C87_bus_failure_is_retried`, `C87_missing_named_file_refuted`, `C88_started`, `C96_two_attempts`, `C96_term_ends`, `C96_reload_between_refuted`, `C97_reload_is_served`, `C60_sensors_as_configured`, `C60_when_sensors_can_be_built`, `C60_external_fan_refuted`, `C60_external_host_off_option_refuted`, `C61_failed_iff`, `C61_value`, `C61_external`, `C61_sysfs`, `C61_age`, `C62_device_reaction`, `C62_configured_reaction`, `C63_daemon_starts`, `C63_daemon_keeps_running`, `C64_device_holds_last_command`, `C64_only_delivered_commands_count`, `C64_only_wakeups_write`, `C104_file_means_no_watching`, `C104_no_change_is_lost`, `C104_change_is_served`, `C32_dbus_raw_in_range`, `C32_dbus_ends_of_range`, `C32_dbus_raw_monotone`, `C32_sysfs_raw_in_range`, `C32_sysfs_same_as_dbus`, `C32_huge_bounds_refuted`, `C32_nan_refuted`, `C33_only_changes_are_sent`, `C33_fan_holds_last_command`, `C34_lost_write`, `C34_unforced_repeat_refuted`, `C11_margin_is_minimum`, `C11_absolute_is_maximum`, `C11_power_is_sum`, `C11_nothing_readable_gives_setpoint`, `C12_fan_feedback_is_lowest_running_fan`, `C13_zone_setpoint`, `C13_nan_ceiling_refuted`, `C14_zone_setpoint_accumulated`, `C14_largest_profile_total`, `C14_negative_request_refuted`, `C15_disabled_controller_has_no_influence`, `C15_enabled_is_last_written`, `C15_disabled_ceiling_refuted`, `C16_setpoint_never_below_minimum`, `C16_one_cycle`, `C16_tuning_refuted`, `C17_failsafe_sensors_are_the_failing_ones`, `C17_failsafe_property`, `C17_fan_after_wakeup`, `C17_thermal_after_wakeup`, `C18_stays_until_first_good_poll`, `C19_percent_is_the_largest`, `C19_percent_without_failure`, `C19_zone_setting_is_not_a_floor_refuted`, `C20_failsafe_floor`, `C20_nan_output_refuted`, `C21_strict_failsafe`, `C21_strict_failsafe_any_percents`, `C22_output_written_unchanged`, `C22_every_fan_once_in_order`, `C23_missing_acceptable_never_failsafe`, `C24_stale_sensor_is_in_failsafe`, `C24_fresh_sensor_is_not`, `C25_manual_mode_does_nothing`, `C26_one_forced_rewrite`, `C27_cycle_ratio`, `C27_cycle_ratio_short`, `C28_no_drift`, `C50_offline_failsafe`, `C50_uninitialised_raw_refuted`, `C51_reaction_time`, `C52_zones_are_independent`, `C53_every_input_is_polled`, `C54_requester_name`, `C55_log_file`, `C55_row_content`
