(** * Vocabulary for the reload properties. *)
From Coq Require Import ZArith Bool List String.
From Verif Require Import Base MainModel SpecMain ConfigModel DbusConfigModel ReloadModel.
Import ListNotations.
Local Open Scope string_scope.

(** ** Signals about the configuration *)

Definition thermal_mode : string := "xyz.openbmc_project.Control.ThermalMode".
Definition pid_config : string := "xyz.openbmc_project.Configuration.Pid".
Definition stepwise_config : string := "xyz.openbmc_project.Configuration.Stepwise".
Definition association : string := "xyz.openbmc_project.Association".
Definition association_definitions : string := "xyz.openbmc_project.Association.Definitions".

(** The interface itself, or one whose name continues it after a dot. *)
Definition within (intf name : string) : Prop := name = intf \/ exists r, name = intf ++ "." ++ r.
(** An object below /xyz/openbmc_project/sensors; the bus also counts the paths
    above that end with a slash, of which only the root is an object path. *)
Definition sensor_object (path : string) : Prop :=
  (exists r, path = "/xyz/openbmc_project/sensors/" ++ r) \/
  In path ["/"; "/xyz/"; "/xyz/openbmc_project/"].

(** A property of the thermal mode or of a controller or zone changed, or a sensor
    went, or a sensor came and not only its associations. *)
Definition about_configuration (m : bus_signal) : Prop :=
  sg_member m = "PropertiesChanged" /\
    (within thermal_mode (sg_arg0 m) \/ within pid_config (sg_arg0 m) \/ within stepwise_config (sg_arg0 m)) \/
  sg_member m = "InterfacesRemoved" /\ sensor_object (sg_arg0 m) \/
  sg_member m = "InterfacesAdded" /\ sensor_object (sg_arg0 m) /\
    (sg_interfaces m = [] \/
     exists i, In i (sg_interfaces m) /\ i <> association /\ i <> association_definitions).

(** ** States *)

(** The daemon has ended. *)
Definition ended (s : reload_st) : Prop := In MExit (history (rl_main s)).
(** No attempt to restart or to end is queued or waiting for a timer. *)
Definition settled (s : reload_st) : Prop :=
  rl_timer s = None /\ rl_hup s = None /\ rl_done s = [] /\
  m_rtimer (rl_main s) = false /\ m_ttimer (rl_main s) = false /\
  forall o, In o (m_ready (rl_main s)) -> is_attempt o = false.
(** No reload because of a signal is coming. *)
Definition no_reload_coming (s : reload_st) : Prop := rl_timer s = None /\ ~ In (TReload false) (rl_done s).

(** What the loops did between two states of one execution. *)
Definition since (s s' : reload_st) (h : list main_event) : Prop :=
  history (rl_main s') = (history (rl_main s) ++ h)%list.
(** The control loops were stopped and, as the daemon goes on, the configuration
    was read again. *)
Definition reread_since (s s' : reload_st) : Prop := exists h, since s s' h /\ In MStopped h.

(** ** The log *)

Definition is_reload (e : reload_event) : bool := match e with LReload _ => true | _ => false end.
Definition is_signal (e : reload_event) : bool := match e with LSignal _ => true | _ => false end.
Definition reloads (l : list reload_event) : nat := List.length (filter is_reload l).
Definition signals (l : list reload_event) : nat := List.length (filter is_signal l).

(** ** Bursts *)

(** Signals about the configuration come less than two seconds after each other.
    [last]: how long ago the last one was. *)
Fixpoint burst (last : option Z) (evs : list reload_ev) : Prop :=
  match evs with
  | [] => True
  | VSignal m :: r =>
      (about_configuration m -> (forall d, last = Some d -> (d < 2000)%Z) /\ burst (Some 0%Z) r) /\
      (~ about_configuration m -> burst last r)
  | VWait ms :: r => burst (option_map (Z.add (Z.of_N ms)) last) r
  | _ :: r => burst last r
  end.

(** Never two attempts queued, or never two zones. *)
Definition one_attempt (evs : list reload_ev) : Prop :=
  forall pre post, evs = (pre ++ post)%list ->
    (List.length (filter is_attempt (m_ready (rl_main (reload_run pre reload_init)))) <= 1)%nat.
Definition one_zone (evs : list reload_ev) : Prop :=
  forall ok ids good bus, In (VRun ok (BZones ids good) bus) evs -> (List.length ids <= 1)%nat.

(** ** Profiles *)

(** Some owner of an object with a thermal mode says that [p] is in force. *)
Definition currently (objects : list (string * list string)) (current : string -> string -> option string)
    (p : string) : Prop :=
  exists path owners owner, In (path, owners) objects /\ In owner owners /\ current owner path = Some p.
(** An interface is used if there is no thermal mode at all, or it lists no
    profiles, or one of them is in force. *)
Definition in_force (objects : list (string * list string)) (current : string -> string -> option string)
    (props : properties) : Prop :=
  (forall path owners, In (path, owners) objects -> owners = []) \/
  mget "Profiles" props = None \/ mget "Profiles" props = Some (VStrs []) \/
  exists l p, mget "Profiles" props = Some (VStrs l) /\ In p l /\ currently objects current p.
(** The same bus with other profiles in force. *)
Definition with_profiles (l : list string) (cb : config_bus) : config_bus :=
  ConfigBus (cb_subtree cb) (cb_managed cb) (Some l) (cb_thresholds cb).
