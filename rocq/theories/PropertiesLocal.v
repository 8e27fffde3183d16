(** * Property C108: a fan's commands do not depend on the speeds of other fans.

    Vocabulary: SpecLocal.v, with SpecCool.v and SpecZone.v.  Proofs: LocalProofs.v. *)
From Coq Require Import ZArith Bool List String.
From Verif Require Import Base BaseFacts Dbl PidModel ZoneModel LoopModel SpecPid SpecZone ZoneProofs BuilderModel
  SpecBuilder PropertiesZone PropertiesBuilder SpecHeat PropertiesHeat SpecCool PropertiesCool SpecSettle PropertiesSettle
  SpecLocal LocalProofs.
Import ListNotations.
Local Open Scope string_scope.

(** ** C108 *)

(** Two lives of one zone, with any configuration, that differ in what the fans outside a
    group show, and in how writes are answered: the commands to the fans of the group are
    exactly the same in both.  The group must contain all or none of the fans of each fan
    controller.  The sensors that put the zone into failsafe must be the same ones. *)
Theorem C108_other_fans : forall bus_ok zp confs built id pids z group f e1 e2 te now1 now2 a0 b0 evs1 evs2 a b,
  buildZones bus_ok zp confs = Ok built -> NoDup (map fst zp) -> In (id, pids) zp -> In (id, z) built ->
  fan_group group z ->
  same_values (z_thermalInputs z) e1 e2 -> same_health z (z_thermalInputs z) e1 e2 ->
  Forall2 (same_but_other_fans group z) evs1 evs2 ->
  loop_start f e1 te now1 z = Ok a0 -> loop_run f evs1 a0 = Ok a ->
  loop_start f e2 te now2 z = Ok b0 -> loop_run f evs2 b0 = Ok b ->
  commands_to group (z_trace (l_zone a)) = commands_to group (z_trace (l_zone b)).
Proof. exact C108_lemma. Qed.
Print Assumptions C108_other_fans.

(** Two fan loops with an integral, on fan0 and fan1; fan1 may be missing.  In the second
    life fan1 runs faster and is bad. *)
Definition lo_pids : PIDConf :=
  [("air", MkInfo "fan" [ex_in "fan0"] (D 0) se_fan (ex_steps false) (D 0));
   ("cpu", MkInfo "temp" [ex_in "t0"] (D 40) ht_pi (ex_steps false) (D 0));
   ("gpu", MkInfo "fan" [MkInput "fan1" dnan false true] (D 0) se_fan (ex_steps false) (D 0))].
Definition lo_built : list (Z * zone) := get_ok [] (buildZones ex_bus [(1%Z, lo_pids)] [(1%Z, se_conf)]).
Definition lo_z : zone := match lo_built with (_, z) :: _ => z | [] => ex_zone end.
(** t0 is at 44 and fan0 shows 10. *)
Definition lo_poll (fan : dbl) (bad : bool) : poll_env :=
  PollEnv 0 (fun n =>
    if String.eqb n "t0" then Some (ex_view 44)
    else if String.eqb n "fan0" then Some (View (D2 1 (-3)) (D 10) 0 5 false "")
    else Some (View fan fan 0 5 bad "gone")).
Definition lo_tick (fan : dbl) (bad : bool) : loop_event :=
  LTick (TickEnv (lo_poll fan bad) (lo_poll fan bad) ex_write ex_tune).
Definition lo_ticks (fan : dbl) (bad : bool) : list loop_event :=
  [lo_tick fan bad; LManual true; lo_tick fan bad; LManual false; lo_tick fan bad; lo_tick fan bad; lo_tick fan bad].
Definition lo_run (fan : dbl) (bad : bool) : outcome loop :=
  bind (loop_start ex_flags (lo_poll fan bad) ex_tune 0 lo_z) (loop_run ex_flags (lo_ticks fan bad)).

Lemma lo_inputs : z_thermalInputs lo_z = ["t0"] /\ z_fanInputs lo_z = ["fan0"; "fan1"].
Proof. split; reflexivity. Qed.
Lemma lo_acceptable : z_missingAcceptable lo_z = ["fan1"].
Proof. reflexivity. Qed.
Lemma lo_fans : z_fans lo_z = [createFanPid "air" ["fan0"] se_fan; createFanPid "gpu" ["fan1"] se_fan].
Proof. reflexivity. Qed.
Lemma lo_values n : n = "t0" \/ n = "fan0" ->
  option_map sv_value (pe_sensor (lo_poll (D 5) false) n) = option_map sv_value (pe_sensor (lo_poll (D 70) true) n) /\
  option_map sv_unscaled (pe_sensor (lo_poll (D 5) false) n) = option_map sv_unscaled (pe_sensor (lo_poll (D 70) true) n).
Proof. intros [-> | ->]; split; reflexivity. Qed.
Lemma lo_health names : incl names ["t0"; "fan0"; "fan1"] -> same_health lo_z names (lo_poll (D 5) false) (lo_poll (D 70) true).
Proof.
  intros I n J A. destruct (I n J) as [<-|[<-|[<-|[]]]].
  - split; intros (v & E & B); cbn in E; injection E as <-; destruct B as [B|B]; discriminate B.
  - split; intros (v & E & B); cbn in E; injection E as <-; destruct B as [B|B]; discriminate B.
  - exfalso. apply A. unfold acceptable. rewrite lo_acceptable. left. reflexivity.
Qed.
Example C108_example :
  buildZones ex_bus [(1%Z, lo_pids)] [(1%Z, se_conf)] = Ok lo_built /\ In (1%Z, lo_z) lo_built /\
  fan_group ["fan0"] lo_z /\
  same_values (z_thermalInputs lo_z) (lo_poll (D 5) false) (lo_poll (D 70) true) /\
  same_health lo_z (z_thermalInputs lo_z) (lo_poll (D 5) false) (lo_poll (D 70) true) /\
  Forall2 (same_but_other_fans ["fan0"] lo_z) (lo_ticks (D 5) false) (lo_ticks (D 70) true) /\
  ex_writes 4 (lo_run (D 5) false) =
    [("fan0", 215, false); ("fan1", 227, false); ("fan0", 220, false); ("fan1", 245, false)]%Z /\
  ex_writes 4 (lo_run (D 70) true) =
    [("fan0", 215, false); ("fan1", 200, false); ("fan0", 220, false); ("fan1", 200, false)]%Z.
Proof.
  destruct lo_inputs as (It & If).
  assert (V : same_values (z_thermalInputs lo_z) (lo_poll (D 5) false) (lo_poll (D 70) true)).
  { intros n I. rewrite It in I. destruct I as [<-|[]]. apply lo_values. left. reflexivity. }
  assert (H1 : same_health lo_z (z_thermalInputs lo_z) (lo_poll (D 5) false) (lo_poll (D 70) true)).
  { apply lo_health. rewrite It. intros n [<-|[]]. left. reflexivity. }
  assert (H2 : same_health lo_z (z_fanInputs lo_z) (lo_poll (D 5) false) (lo_poll (D 70) true)).
  { apply lo_health. rewrite If. intros n [<-|[<-|[]]]; [right; left|right; right; left]; reflexivity. }
  assert (T : same_but_other_fans ["fan0"] lo_z (lo_tick (D 5) false) (lo_tick (D 70) true)).
  { unfold lo_tick, same_but_other_fans. cbn [tk_fan tk_therm tk_tune].
    split; [|split; [exact V|split; [exact H2|split; [exact H1|reflexivity]]]].
    intros n I. rewrite It in I. destruct I as [<-|[<-|[]]]; apply lo_values; [right|left]; reflexivity. }
  split; [apply get_ok_eq; vm_compute; reflexivity|]. split; [left; reflexivity|].
  split. { intros k. rewrite lo_fans. intros [E|[E|[]]]; injection E as <-; [left|right]; cbn.
           - intros n I. exact I.
           - intros n [<-|[]] [X|[]]. discriminate X. }
  split; [exact V|]. split; [exact H1|].
  split. { unfold lo_ticks. repeat (apply Forall2_cons; [first [exact T|reflexivity]|]). apply Forall2_nil. }
  split; vm_compute; reflexivity.
Qed.
