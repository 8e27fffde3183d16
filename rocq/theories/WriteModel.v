(** * Writing fans, reading sysfs files.

    Sources: dbus/dbuswrite.{hpp,cpp}, sysfs/sysfswrite.{hpp,cpp},
    sysfs/sysfsread.{hpp,cpp}, sysfs/util.cpp, notimpl/readonly.cpp,
    interfaces.hpp:61-104. *)
From Coq Require Import ZArith Bool List Ascii String.
From Verif Require Import Base Dbl ZoneModel SensorModel.
Import ListNotations.
Local Open Scope string_scope.
Local Open Scope Z_scope.
Local Open Scope outcome_scope.

(** ** The raw value of a percentage *)

(** /repo/dbus/dbuswrite.cpp:65-70 and /repo/sysfs/sysfswrite.cpp:15-20: the
    bounds are [int64_t] converted to [double]. *)
Definition percent_ovalue (min max : Z) (value : dbl) : dbl :=
  let minimum := D min in
  let maximum := D max in
  let range := dsub maximum minimum in
  let offset := dmul range value in
  dadd offset minimum.

(** ** D-Bus writers *)

(** [DbusWritePercent] ([dw_percent = true]) and [DbusWrite].  Besides the C++
    members the record keeps the Set calls made (value, whether the call
    succeeded), newest first. /repo/dbus/dbuswrite.hpp:29-69. *)
Record dbus_writer : Type := MkDbusWriter {
  dw_percent : bool;
  dw_min : Z;
  dw_max : Z;
  dw_oldValue : Z;
  dw_calls : list (Z * bool)
}.

(** /repo/dbus/dbuswrite.hpp:36-47, 57-68, constructors. *)
Definition dbus_writer_new (percent : bool) (min max : Z) : dbus_writer :=
  MkDbusWriter percent min max (-1) [].

(** The double that is converted: [ovalue] or [value] itself.
    /repo/dbus/dbuswrite.cpp:65-72, 134. *)
Definition dw_target (w : dbus_writer) (value : dbl) : dbl :=
  if dw_percent w then percent_ovalue (dw_min w) (dw_max w) value else value.

(** /repo/dbus/dbuswrite.cpp:63-107 and 132-169, [write(value, force,
    written)].  [call_ok]: the bus call returns ([true]) or throws
    [sdbusplus::exception_t], which is caught and logged.  The value stored
    through [written] (never null for fan controllers) is returned beside the
    new state. *)
Definition dbus_write (value : dbl) (force call_ok : bool) (w : dbus_writer)
  : outcome (dbus_writer * Z) :=
  let ovalue := dw_target w value in
  match to_int64 ovalue with
  | None => UB "floating-integral conversion"
  | Some raw =>
      if (dw_oldValue w =? raw) && negb force then Ok (w, dw_oldValue w)
      else
        match to_uint64 ovalue with
        | None => UB "floating-integral conversion"
        | Some target =>
            Ok (MkDbusWriter (dw_percent w) (dw_min w) (dw_max w) raw
                  ((target, call_ok) :: dw_calls w), raw)
        end
  end.

(** The Target property of the fan: the last Set that succeeded, or the value
    it had before. /repo/dbus/dbuswrite.cpp:83-93, 145-155. *)
Definition fan_target (before : Z) (w : dbus_writer) : Z :=
  match filter (fun c => snd c) (dw_calls w) with
  | (v, _) :: _ => v
  | [] => before
  end.

(** A sequence of writes: (value, force, whether the bus call succeeds).
    Calls of /repo/dbus/dbuswrite.cpp:63-107, 132-169. *)
Definition dbus_write_all (ws : list (dbl * bool * bool)) (w : dbus_writer) : outcome dbus_writer :=
  foldM (fun w '(v, force, ok) => do r <- dbus_write v force ok w; Ok (fst r)) ws w.

(** ** sysfs writers *)

(** /repo/sysfs/sysfswrite.cpp:13-28 ([SysFsWritePercent]) and 30-38
    ([SysFsWrite]); the three-argument [write] is inherited from
    [WriteInterface] (interfaces.hpp:75-80), ignores [force] and never stores
    through [written].  [open_ok]: the file could be opened; otherwise nothing
    is written. *)
Definition sysfs_write (percent : bool) (min max : Z) (value : dbl) (open_ok : bool)
    (file : option Z) : outcome (option Z) :=
  match to_int64 (if percent then percent_ovalue min max value else value) with
  | None => UB "floating-integral conversion"
  | Some raw => Ok (if open_ok then Some raw else file)
  end.

(** /repo/notimpl/readonly.cpp:16-19, [ReadOnlyNoExcept::write] does nothing. *)

(** ** sysfs reader *)

(** /repo/sysfs/sysfsread.cpp:16-29, [SysFsRead::read].  A file that cannot be
    opened or is empty leaves the local [value] uninitialised. *)
Definition sysfs_read (content : file_content) (now : Z) : outcome ReadReturn :=
  match content with
  | FileInt v => Ok (MkRead (D v) now (D v))
  | NoFile | FileEmpty => UB "uninitialised value"
  end.

(** ** Wildcards in sysfs paths *)

(** [original.find("**")] with the text before and after it
    (/repo/sysfs/util.cpp:25, 30, 32). *)
Fixpoint split_stars (s : string) : option (string * string) :=
  match s with
  | "" => None
  | String a r =>
      match r with
      | String b f =>
          if Ascii.eqb a "*" && Ascii.eqb b "*" then Some ("", f)
          else match split_stars r with
               | Some (base, f) => Some (String a base, f)
               | None => None
               end
      | "" => None
      end
  end.

(** The last character of a path; part of [operator/] of
    std::filesystem::path, used at /repo/sysfs/util.cpp:35-37. *)
Fixpoint ends_with_slash (s : string) : bool :=
  match s with
  | "" => false
  | String a "" => Ascii.eqb a "/"
  | String _ r => ends_with_slash r
  end.

(** [path()] of an entry of a directory: the directory, a separator unless
    there is one, and the name (/repo/sysfs/util.cpp:37). *)
Definition entry_path (base name : string) : string :=
  if String.eqb base "" || ends_with_slash base then base ++ name
  else base ++ "/" ++ name.

(** /repo/sysfs/util.cpp:20-51, [FixupPath].  [dir] lists a directory in the
    order of the iterator; [None] when it cannot be opened and the iterator
    throws. *)
Definition FixupPath (dir : string -> option (list string)) (original : string)
  : outcome string :=
  match split_stars original with
  | None => Ok original
  | Some (base, f) =>
      match dir base with
      | None => Throw "directory iterator cannot open directory"
      | Some [] => Ok original
      | Some (name :: _) => Ok (entry_path base name ++ f)
      end
  end.
