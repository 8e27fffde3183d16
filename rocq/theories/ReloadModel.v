(** * Model of the requests to reload: signals on the bus, SIGHUP, SIGTERM.

    Source: dbus/dbusconfiguration.cpp (createMatches, eventHandler,
    getSelectedProfiles) and main.cpp (signalHandler, tryRestartControlLoops).
    The control loops themselves: MainModel.v.

    Simplified: what an InterfacesAdded message says about an interface besides
    its name is left out (it is only printed), and such a message is assumed to
    be well formed; when a completed timer handler runs, relative to the
    handlers of MainModel.v, is chosen from outside. *)
From Coq Require Import ZArith Bool List String Ascii.
From Verif Require Import Base MainModel.
Import ListNotations.
Local Open Scope string_scope.

(** ** Which signals are looked at *)

(** A signal: its member, its first argument (an interface for
    PropertiesChanged, an object path for InterfacesAdded and
    InterfacesRemoved), and the interfaces an InterfacesAdded message carries.
    /repo/dbus/dbusconfiguration.cpp:179-212. *)
Record bus_signal : Type := BusSignal {
  sg_member : string;
  sg_arg0 : string;
  sg_interfaces : list string
}.

(** A rule: [arg0namespace] or [arg0path] (D-Bus specification, "Match Rules").
    /repo/dbus/dbusconfiguration.cpp:266-282. *)
Inductive match_rule : Type :=
| ByNamespace (member ns : string)
| ByPath (member path : string).

(** The text ends with a slash; part of the meaning of [arg0path],
    /repo/dbus/dbusconfiguration.cpp:274-282. *)
Fixpoint ends_slash (s : string) : bool :=
  match s with
  | "" => false
  | String c "" => Ascii.eqb c "/"
  | String _ r => ends_slash r
  end.
(** The bus delivers the signal to the rule, /repo/dbus/dbusconfiguration.cpp:266-282. *)
Definition rule_matches (r : match_rule) (m : bus_signal) : bool :=
  match r with
  | ByNamespace member ns =>
      String.eqb (sg_member m) member &&
      (String.eqb (sg_arg0 m) ns || prefix (ns ++ ".") (sg_arg0 m))
  | ByPath member path =>
      String.eqb (sg_member m) member &&
      (String.eqb (sg_arg0 m) path || (ends_slash path && prefix path (sg_arg0 m))
       || (ends_slash (sg_arg0 m) && prefix (sg_arg0 m) path))
  end.

(** /repo/dbus/dbusconfiguration.cpp:250-283, [createMatches]. *)
Definition reload_rules : list match_rule :=
  [ByNamespace "PropertiesChanged" "xyz.openbmc_project.Control.ThermalMode";
   ByNamespace "PropertiesChanged" "xyz.openbmc_project.Configuration.Pid";
   ByNamespace "PropertiesChanged" "xyz.openbmc_project.Configuration.Pid.Zone";
   ByNamespace "PropertiesChanged" "xyz.openbmc_project.Configuration.Stepwise";
   ByPath "InterfacesAdded" "/xyz/openbmc_project/sensors/";
   ByPath "InterfacesRemoved" "/xyz/openbmc_project/sensors/"].

(** /repo/dbus/dbusconfiguration.cpp:187-190. *)
Definition skip_list : list string :=
  ["xyz.openbmc_project.Association"; "xyz.openbmc_project.Association.Definitions"].

(** /repo/dbus/dbusconfiguration.cpp:203-214: [true] if the handler returns early. *)
Fixpoint all_skipped (skips data : list string) : bool :=
  match skips with
  | [] => false
  | k :: r =>
      if existsb (String.eqb k) data then
        let data' := filter (fun d => negb (String.eqb k d)) data in
        match data' with [] => true | _ => all_skipped r data' end
      else all_skipped r data
  end.
(** /repo/dbus/dbusconfiguration.cpp:193-214: the handler does not return early. *)
Definition handler_goes_on (m : bus_signal) : bool :=
  if String.eqb (sg_member m) "InterfacesAdded" then negb (all_skipped skip_list (sg_interfaces m)) else true.

(** ** The profiles in force *)

(** /repo/dbus/dbusconfiguration.cpp:110-177, [getSelectedProfiles].  [objects] is
    the reply of the mapper (object, owners), [current] what an owner says its
    object's Current is; [None] if the call fails. *)
Definition getSelectedProfiles (objects : option (list (string * list string)))
    (current : string -> string -> option string) : outcome (list string) :=
  match objects with
  | None => Throw "ObjectMapper Call Failure"
  | Some l =>
      foldM (fun ret po =>
        match current (snd po) (fst po) with
        | None => Throw "Failure getting profile"
        | Some mode => Ok (ret ++ [mode])%list
        end) (flat_map (fun o => map (fun owner => (fst o, owner)) (snd o)) l) []
  end.

(** ** The two timers *)

(** A completed wait: on the reload timer (/repo/dbus/dbusconfiguration.cpp:236-245)
    or on the timer of SIGHUP (/repo/main.cpp:290-299). *)
Inductive timer_op : Type :=
| TReload (aborted : bool)
| THup (aborted : bool).

(** What is printed or received, /repo/dbus/dbusconfiguration.cpp:243,
    /repo/main.cpp:297 and the two signals. *)
Inductive reload_event : Type :=
| LSignal (now : Z)     (* a signal on the bus that restarted the reload timer *)
| LHup (now : Z)        (* SIGHUP *)
| LReload (now : Z)     (* "New configuration detected, reloading" *)
| LHupReload (now : Z). (* "reloading configuration" *)

(** Times in milliseconds.  [rl_timer] and [rl_hup] are the expiry times of the
    waits in progress; [rl_log] is newest first and not part of the program.
    /repo/main.cpp:155, 275, /repo/dbus/dbusconfiguration.cpp:253. *)
Record reload_st : Type := ReloadSt {
  rl_main : main_st;
  rl_matches : bool;          (* the match rules exist *)
  rl_timer : option Z;
  rl_hup : option Z;
  rl_done : list timer_op;    (* completed waits, oldest first *)
  rl_now : Z;
  rl_log : list reload_event
}.

(** /repo/main.cpp:188-217, 417: the first [tryRestartControlLoops]. *)
Definition reload_init : reload_st :=
  ReloadSt (main_step main_init EPostRestart) false None None [] 0 [].

(** [expires_after] aborts a wait in progress; a new one begins.
    /repo/dbus/dbusconfiguration.cpp:235-236. *)
Definition arm_reload (s : reload_st) : reload_st :=
  ReloadSt (rl_main s) (rl_matches s) (Some (rl_now s + 2000)%Z) (rl_hup s)
    (match rl_timer s with Some _ => rl_done s ++ [TReload true] | None => rl_done s end)
    (rl_now s) (rl_log s).
(** /repo/main.cpp:289-290. *)
Definition arm_hup (s : reload_st) : reload_st :=
  ReloadSt (rl_main s) (rl_matches s) (rl_timer s) (Some (rl_now s + 1000)%Z)
    (match rl_hup s with Some _ => rl_done s ++ [THup true] | None => rl_done s end)
    (rl_now s) (LHup (rl_now s) :: rl_log s).
(** /repo/dbus/dbusconfiguration.cpp:179-247, [eventHandler]. *)
Definition eventHandler (m : bus_signal) (s : reload_st) : reload_st :=
  if handler_goes_on m then arm_reload s else s.
(** A signal arrives: one call for each rule that matches,
    /repo/dbus/dbusconfiguration.cpp:265-282. *)
Definition deliver (m : bus_signal) (s : reload_st) : reload_st :=
  fold_left (fun s r => if rule_matches r m then eventHandler m s else s) reload_rules s.
(** Adds to the ghost log; no counterpart in /repo. *)
Definition note_signal (m : bus_signal) (s : reload_st) : reload_st :=
  if existsb (fun r => rule_matches r m) reload_rules && handler_goes_on m
  then ReloadSt (rl_main s) (rl_matches s) (rl_timer s) (rl_hup s) (rl_done s) (rl_now s)
         (LSignal (rl_now s) :: rl_log s)
  else s.

(** The rest of the daemon moves on. /repo/main.cpp:423. *)
Definition set_main (m : main_st) (s : reload_st) : reload_st :=
  ReloadSt m (rl_matches s) (rl_timer s) (rl_hup s) (rl_done s) (rl_now s) (rl_log s).

(** What can happen.  [VRun] runs the oldest ready handler of MainModel.v; if it is
    a restart that gets as far as reading the configuration, and there is no
    configuration file ([bus]), the match rules are made (if they are not there
    yet).  /repo/main.cpp:127-161, 188-303. *)
Inductive reload_ev : Type :=
| VWait (ms : N)               (* time passes *)
| VSignal (m : bus_signal)     (* a signal on the bus *)
| VHup                         (* SIGHUP *)
| VTerm                        (* SIGTERM *)
| VExpire                      (* the reload timer expires *)
| VHupExpire                   (* the timer of SIGHUP expires *)
| VHandler                     (* the oldest completed wait is handled *)
| VLoopExpire (i : inst)       (* as in MainModel.v *)
| VRetry
| VTermRetry
| VRun (ok : bool) (b : build) (bus : bool).

(** [restartControlLoops] gets past [stopControlLoops], /repo/main.cpp:127-161. *)
Definition reads_config (m : main_st) : bool :=
  match m_ready m with
  | ORestart false :: r => negb (m_stopped m) && fst (stopControlLoops (set_ready r m))
  | _ => false
  end.

(** The handlers of the two timers, /repo/dbus/dbusconfiguration.cpp:236-245,
    /repo/main.cpp:290-299. *)
Definition timer_handler (o : timer_op) (s : reload_st) : reload_st :=
  match o with
  | TReload true | THup true => s
  | TReload false =>
      ReloadSt (main_step (rl_main s) EPostRestart) (rl_matches s) (rl_timer s) (rl_hup s)
        (rl_done s) (rl_now s) (LReload (rl_now s) :: rl_log s)
  | THup false =>
      ReloadSt (main_step (rl_main s) EPostRestart) (rl_matches s) (rl_timer s) (rl_hup s)
        (rl_done s) (rl_now s) (LHupReload (rl_now s) :: rl_log s)
  end.

(** /repo/main.cpp:188-303, 423, /repo/dbus/dbusconfiguration.cpp:179-283. *)
Definition reload_step (s : reload_st) (e : reload_ev) : reload_st :=
  if m_stopped (rl_main s) then s else
  match e with
  | VWait ms => ReloadSt (rl_main s) (rl_matches s) (rl_timer s) (rl_hup s) (rl_done s)
                  (rl_now s + Z.of_N ms) (rl_log s)
  | VSignal m => if rl_matches s then note_signal m (deliver m s) else s
  | VHup => arm_hup s
  | VTerm => set_main (main_step (rl_main s) EPostTerminate) s
  | VExpire =>
      match rl_timer s with
      | Some t => if (t <=? rl_now s)%Z
                  then ReloadSt (rl_main s) (rl_matches s) None (rl_hup s) (rl_done s ++ [TReload false])
                         (rl_now s) (rl_log s)
                  else s
      | None => s
      end
  | VHupExpire =>
      match rl_hup s with
      | Some t => if (t <=? rl_now s)%Z
                  then ReloadSt (rl_main s) (rl_matches s) (rl_timer s) None (rl_done s ++ [THup false])
                         (rl_now s) (rl_log s)
                  else s
      | None => s
      end
  | VHandler =>
      match rl_done s with
      | [] => s
      | o :: r => timer_handler o (ReloadSt (rl_main s) (rl_matches s) (rl_timer s) (rl_hup s) r
                                     (rl_now s) (rl_log s))
      end
  | VLoopExpire i => set_main (main_step (rl_main s) (EExpire i)) s
  | VRetry => set_main (main_step (rl_main s) ERetry) s
  | VTermRetry => set_main (main_step (rl_main s) ETermRetry) s
  | VRun ok b bus =>
      ReloadSt (main_step (rl_main s) (ERun ok b))
        (rl_matches s || (bus && reads_config (rl_main s)))
        (rl_timer s) (rl_hup s) (rl_done s) (rl_now s) (rl_log s)
  end.

(** Any number of events, /repo/main.cpp:423. *)
Definition reload_run (evs : list reload_ev) (s : reload_st) : reload_st := fold_left reload_step evs s.
