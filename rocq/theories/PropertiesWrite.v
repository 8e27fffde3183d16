(** * Properties C32-C34: writing fans.

    Vocabulary: SpecWrite.v.  Proofs: WriteProofs.v. *)
From Coq Require Import ZArith Bool List String.
From Verif Require Import Base Dbl ZoneModel WriteModel SpecWrite WriteProofs.
Import ListNotations.
Local Open Scope Z_scope.

(** A D-Bus fan with raw range 50 .. 250. *)
Definition ex_fan : dbus_writer := dbus_writer_new true 50 250.
Definition ex_half : dbl := ddiv (D 1) (D 2).

(** ** C32 *)
Theorem C32_dbus_raw_in_range : forall w v force ok,
  dw_percent w = true -> usable_range (dw_min w) (dw_max w) ->
  dle d0 v -> dle v (D 1) ->
  exists w' raw, dbus_write v force ok w = Ok (w', raw) /\ dw_min w <= raw <= dw_max w /\
    Forall (fun c => In c (dw_calls w) \/ c = (raw, ok)) (dw_calls w').
Proof. exact C32_dbus_lemma. Qed.
Print Assumptions C32_dbus_raw_in_range.

Theorem C32_dbus_ends_of_range : forall w v force ok w' raw,
  dw_percent w = true -> usable_range (dw_min w) (dw_max w) ->
  dbus_write v force ok w = Ok (w', raw) ->
  (deq v d0 -> raw = dw_min w) /\ (deq v (D 1) -> raw = dw_max w).
Proof. exact C32_dbus_ends. Qed.
Print Assumptions C32_dbus_ends_of_range.

Theorem C32_dbus_raw_monotone : forall w1 w2 v v' f f' ok ok' w1' w2' r r',
  dw_percent w1 = true -> dw_percent w2 = true -> dw_min w1 = dw_min w2 -> dw_max w1 = dw_max w2 ->
  usable_range (dw_min w1) (dw_max w1) ->
  dle d0 v -> dle v v' -> dle v' (D 1) ->
  dbus_write v f ok w1 = Ok (w1', r) -> dbus_write v' f' ok' w2 = Ok (w2', r') -> r <= r'.
Proof. exact C32_dbus_monotone. Qed.
Print Assumptions C32_dbus_raw_monotone.

Theorem C32_sysfs_raw_in_range : forall min max v file,
  Z.abs min <= 2 ^ 53 -> Z.abs max <= 2 ^ 53 -> min <= max -> max - min <= 2 ^ 53 ->
  dle d0 v -> dle v (D 1) ->
  exists raw, sysfs_write true min max v true file = Ok (Some raw) /\ min <= raw <= max.
Proof. exact C32_sysfs_lemma. Qed.
Print Assumptions C32_sysfs_raw_in_range.

Theorem C32_sysfs_same_as_dbus : forall w v ok file,
  dw_percent w = true -> usable_range (dw_min w) (dw_max w) -> dle d0 v -> dle v (D 1) ->
  forall w' raw, dbus_write v true ok w = Ok (w', raw) ->
  sysfs_write true (dw_min w) (dw_max w) v true file = Ok (Some raw).
Proof. exact C32_same_lemma. Qed.
Print Assumptions C32_sysfs_same_as_dbus.

Example C32_example :
  dw_percent ex_fan = true /\ usable_range (dw_min ex_fan) (dw_max ex_fan) /\
  dle d0 ex_half /\ dle ex_half (D 1) /\
  match dbus_write ex_half false true ex_fan with Ok (w, raw) => Z.eqb raw 150 | _ => false end = true /\
  match dbus_write d0 false true ex_fan with Ok (w, raw) => Z.eqb raw 50 | _ => false end = true /\
  match dbus_write (D 1) false true ex_fan with Ok (w, raw) => Z.eqb raw 250 | _ => false end = true /\
  sysfs_write true 50 250 ex_half true None = Ok (Some 150).
Proof.
  split; [reflexivity|]. split; [repeat split; discriminate|]. vm_compute. repeat split.
Qed.

(** Bounds near 2^63 make the conversion undefined, and so does NaN. *)
Theorem C32_huge_bounds_refuted : exists v,
  dle d0 v /\ dle v (D 1) /\
  dbus_write v false true (dbus_writer_new true 0 (2 ^ 63 - 1)) = UB "floating-integral conversion"%string.
Proof. exists (D 1). vm_compute. repeat split. Qed.
Print Assumptions C32_huge_bounds_refuted.
Theorem C32_nan_refuted : dbus_write dnan false true ex_fan = UB "floating-integral conversion"%string.
Proof. vm_compute. reflexivity. Qed.
Print Assumptions C32_nan_refuted.

(** ** C33 *)
Theorem C33_only_changes_are_sent : forall percent min max ws rs,
  raws (dbus_writer_new percent min max) ws rs ->
  exists w, dbus_write_all ws (dbus_writer_new percent min max) = Ok w /\
            rev (dw_calls w) = expected_calls (-1) ws rs.
Proof. exact C33_calls_lemma. Qed.
Print Assumptions C33_only_changes_are_sent.

Theorem C33_fan_holds_last_command : forall before percent min max ws rs r,
  raws (dbus_writer_new percent min max) ws (rs ++ [r]) ->
  Forall (fun '(_, _, ok) => ok = true) ws ->
  exists w, dbus_write_all ws (dbus_writer_new percent min max) = Ok w /\
            fan_target before w = r.
Proof. exact C33_target_lemma. Qed.
Print Assumptions C33_fan_holds_last_command.

Definition ex_ws : list (dbl * bool * bool) :=
  [(ex_half, false, true); (ex_half, false, true); (ex_half, true, true); (D 1, false, true)].
Example C33_example :
  raws ex_fan ex_ws ([150; 150; 150] ++ [250]) /\
  Forall (fun '(_, _, ok) => ok = true) ex_ws /\
  expected_calls (-1) ex_ws [150; 150; 150; 250] = [(150, true); (150, true); (250, true)].
Proof.
  split; [repeat constructor; (discriminate || (vm_compute; reflexivity))|].
  split; [repeat constructor|reflexivity].
Qed.

(** ** C34 *)
Theorem C34_lost_write : forall before w v force ok r w' raw,
  0 <= r -> to_int64 (dw_target w v) = Some r ->
  dbus_write v force ok w = Ok (w', raw) ->
  (ok = false -> fan_target before w' = fan_target before w) /\
  (ok = true -> force = true \/ r <> dw_oldValue w -> fan_target before w' = r).
Proof. exact C34_lemma. Qed.
Print Assumptions C34_lost_write.

Example C34_example :
  to_int64 (dw_target ex_fan ex_half) = Some 150 /\
  match dbus_write_all [(D 1, false, true); (ex_half, false, false); (ex_half, true, true)] ex_fan with
  | Ok w => Z.eqb (fan_target 0 w) 150 | _ => false end = true /\
  match dbus_write_all [(D 1, false, true); (ex_half, false, false)] ex_fan with
  | Ok w => Z.eqb (fan_target 0 w) 250 | _ => false end = true.
Proof. vm_compute. repeat split. Qed.

(** An unforced repeat of a lost write is never sent: however often the same
    value is repeated, the fan keeps its old value. *)
Theorem C34_unforced_repeat_refuted : exists v r before,
  to_int64 (dw_target ex_fan v) = Some r /\ before <> r /\
  forall n, exists w,
    dbus_write_all ((v, false, false) :: repeat (v, false, true) n) ex_fan = Ok w /\
    fan_target before w = before.
Proof. exact C34_repeat_lemma. Qed.
Print Assumptions C34_unforced_repeat_refuted.
