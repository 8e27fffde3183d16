(** * The IPMI OEM command for manual mode.

    Sources: ipmi/manualcmds.{hpp,cpp}, ipmi/manual_messages.hpp,
    ipmi/dbus_mode.cpp.  Bytes are numbers 0..255. *)
From Coq Require Import ZArith Bool List String Ascii.
From Verif Require Import Base.
Import ListNotations.
Local Open Scope string_scope.
Local Open Scope Z_scope.

(** Completion codes (ipmid/api-types.hpp).
    Used in /repo/ipmi/manualcmds.cpp and /repo/ipmi/dbus_mode.cpp:62. *)
Definition ccSuccess : Z := 0.
(** Used in /repo/ipmi/dbus_mode.cpp:59. *)
Definition ccInvalidCommand : Z := 193.

(** What the handler asks of the backend ([ZoneControlInterface]), in order.
    /repo/ipmi/control.hpp:17-23. *)
Inductive zc_call : Type :=
| ZcGet (zone : Z) (property : string)
| ZcSet (zone : Z) (value : bool) (property : string).

(** The backend: the answers it would give now.  A non-zero code from
    [getFanCtrlProperty] leaves the value unset; both may throw.
    /repo/ipmi/control.hpp:10-24. *)
Record zc_backend : Type := ZcBackend {
  zc_get : Z -> string -> outcome (Z * bool);
  zc_set : Z -> bool -> string -> outcome Z
}.

(** The result: completion code (or the exception that leaves the handler), what is stored at [replyBuf[0]] (if
    anything), the final [*dataLen], the bytes of the request that were read
    (indices), the calls. /repo/ipmi/manualcmds.hpp:38-40. *)
Record reply : Type := Reply {
  rp_code : outcome Z;
  rp_data : option Z;
  rp_len : Z;
  rp_read : list nat;
  rp_calls : list zc_call
}.

(** Byte [i] of the request buffer; reading outside is visible in [rp_read].
    /repo/ipmi/manual_messages.hpp:15-26, the packed structs laid over the buffer. *)
Definition byte_at (req : list Z) (i : nat) : Z := nth i req 0.

(** /repo/ipmi/manualcmds.cpp:22-45 and 53-76. *)
Definition get_state (property : string) (be : zc_backend) (req : list Z) (dataLen : Z) : reply :=
  if dataLen <? 2 then Reply (Ok ccInvalidCommand) None dataLen [] []
  else
    let zone := byte_at req 1 in
    let calls := [ZcGet zone property] in
    match zc_get be zone property with
    | Ok (rc, current) =>
        if negb (rc =? 0) then Reply (Ok rc) None dataLen [1%nat] calls
        else Reply (Ok ccSuccess) (Some (if current then 1 else 0)) 1 [1%nat] calls
    | Throw e => Reply (Throw e) None dataLen [1%nat] calls
    | UB e => Reply (UB e) None dataLen [1%nat] calls
    end.
(** /repo/ipmi/manualcmds.cpp:22-45. *)
Definition getFailsafeModeState := get_state "FailSafe".
(** /repo/ipmi/manualcmds.cpp:53-76. *)
Definition getManualModeState := get_state "Manual".

(** /repo/ipmi/manualcmds.cpp:85-101. *)
Definition setManualModeState (be : zc_backend) (req : list Z) (dataLen : Z) : reply :=
  if dataLen <? 3 then Reply (Ok ccInvalidCommand) None dataLen [] []
  else
    let zone := byte_at req 1 in
    let value := negb (byte_at req 2 =? 0) in
    Reply (zc_set be zone value "Manual") None dataLen [1%nat; 2%nat] [ZcSet zone value "Manual"].

(** /repo/ipmi/manualcmds.cpp:104-132, [manualModeControl]; [dataLen] is the
    length of the request. *)
Definition manualModeControl (be : zc_backend) (req : list Z) : reply :=
  let dataLen := Z.of_nat (List.length req) in
  if dataLen <? 2 then Reply (Ok ccInvalidCommand) None dataLen [] []
  else
    let command := byte_at req 0 in
    let r :=
      if command =? 0 then getManualModeState be req dataLen
      else if command =? 1 then setManualModeState be req dataLen
      else if command =? 2 then getFailsafeModeState be req dataLen
      else Reply (Ok ccInvalidCommand) None dataLen [] [] in
    Reply (rp_code r) (rp_data r) (rp_len r) (0%nat :: rp_read r) (rp_calls r).

(** ** The D-Bus backend *)

(** /repo/ipmi/dbus_mode.cpp:22. *)
Definition objectPath : string := "/xyz/openbmc_project/settings/fanctrl/zone".

(** /repo/ipmi/dbus_mode.cpp:31-34, [getControlPath(int8_t)]: the byte is
    converted to a signed byte. *)
Definition ipmi_getControlPath (zoneId : Z) : string :=
  objectPath ++ to_string (if zoneId <? 128 then zoneId else zoneId - 256).

(** The characters of an element of an object path (D-Bus specification,
    "Valid Object Paths"; checked by sd-bus for the path given to
    /repo/ipmi/dbus_mode.cpp:42 and 74). *)
Definition path_char (c : ascii) : bool :=
  let n := Z.of_nat (nat_of_ascii c) in
  (65 <=? n) && (n <=? 90) || (97 <=? n) && (n <=? 122) || (48 <=? n) && (n <=? 57) || (n =? 95).
(** The rest of a path; [fresh]: directly after a slash.
    As above, for /repo/ipmi/dbus_mode.cpp:42 and 74. *)
Fixpoint path_rest (fresh : bool) (s : string) : bool :=
  match s with
  | EmptyString => negb fresh
  | String c r =>
      if Ascii.eqb c "/" then negb fresh && path_rest true r
      else path_char c && path_rest false r
  end.
(** A valid object path: "/" or "/a/b/c".
    As above, for /repo/ipmi/dbus_mode.cpp:42 and 74. *)
Definition object_path_valid (s : string) : bool :=
  match s with
  | String c r => Ascii.eqb c "/" && (String.eqb r "" || path_rest true r)
  | EmptyString => false
  end.

(** [new_method_call]: sd_bus_message_new_method_call refuses an invalid path
    with -EINVAL and sdbusplus throws [SdBusError].  In both functions the call
    stands in front of the [try].  Failures of [new_system], out of memory and
    of [append] are not modelled.
    /repo/ipmi/dbus_mode.cpp:41-44 and 73-78. *)
Definition new_method_call {A : Type} (path : string) (k : outcome A) : outcome A :=
  if object_path_valid path then k else Throw "sd_bus_message_new_method_call".

(** The answer of the bus to GetAll(Control.Mode) on a path: an error, or the
    boolean properties. /repo/ipmi/dbus_mode.cpp:41-55. *)
Definition bus_props : Type := string -> option (smap bool).

(** /repo/ipmi/dbus_mode.cpp:36-63, [getFanCtrlProperty]: code and value.
    [propMap[property]] of an absent property is [false]. *)
Definition dbus_getFanCtrlProperty (bus : bus_props) (zoneId : Z) (property : string) : outcome (Z * bool) :=
  let path := ipmi_getControlPath zoneId in
  new_method_call path
    match bus path with
    | None => Ok (ccInvalidCommand, false)
    | Some m => Ok (ccSuccess, match mget property m with Some b => b | None => false end)
    end.
(** /repo/ipmi/dbus_mode.cpp:65-91, [setFanCtrlProperty]: the code.  The call is
    sent without waiting for a reply; [sends] says whether sending works. *)
Definition dbus_setFanCtrlProperty (sends : string -> bool) (zoneId : Z) (value : bool)
    (property : string) : outcome Z :=
  let path := ipmi_getControlPath zoneId in
  new_method_call path (if sends path then Ok ccSuccess else Ok ccInvalidCommand).
(** /repo/ipmi/dbus_mode.cpp:36-91. *)
Definition dbus_backend (bus : bus_props) (sends : string -> bool) : zc_backend :=
  ZcBackend (dbus_getFanCtrlProperty bus) (dbus_setFanCtrlProperty sends).
