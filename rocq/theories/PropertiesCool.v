(** * Property C105: a hotter or less healthy zone never gets lower fan commands.

    Vocabulary: SpecCool.v, with SpecHeat.v, SpecRange.v and SpecZone.v.  Proofs:
    CoolProofs.v. *)
From Coq Require Import ZArith Bool List String.
From Verif Require Import Base BaseFacts Dbl PidModel ZoneModel LoopModel SpecPid SpecZone ZoneProofs BuilderModel
  SpecBuilder SpecRange PropertiesZone PropertiesBuilder SpecHeat PropertiesHeat SpecCool CoolProofs.
Import ListNotations.
Local Open Scope string_scope.

(** ** C105 *)

(** Two lives of one zone with the same schedule of wake-ups, Manual and Enable writes.
    In every poll the second is at least as hot, and every sensor that is bad in the
    first is bad in the second (the same ones in a strict build).  Then the two lives
    send the same number of commands, to the same fans in the same order, and no command
    of the second is lower.  Fan speeds and write results may differ. *)
Theorem C105_hotter_fans : forall bus_ok zp confs built id pids z c up f e1 e2 te1 te2 now1 now2 a0 b0 evs1 evs2 a b,
  buildZones bus_ok zp confs = Ok built -> NoDup (map fst zp) -> In (id, pids) zp -> In (id, z) built ->
  zget id confs = Some c -> sensible_pids pids -> sensible_zone c ->
  tuningEnabled f = false -> cooling_zone up z -> forward_fans z ->
  modest_speeds (z_fanInputs z) e1 -> modest_speeds (z_fanInputs z) e2 -> int_files te1 -> int_files te2 ->
  Forall (sensible_event (z_fanInputs z)) evs1 -> Forall (sensible_event (z_fanInputs z)) evs2 ->
  hotter_poll up z e1 e2 -> Forall2 (hotter_event up z) evs1 evs2 ->
  no_healthier (STRICT_FAILSAFE_PWM f) (z_thermalInputs z) e1 e2 ->
  Forall2 (no_healthier_event (STRICT_FAILSAFE_PWM f) z) evs1 evs2 ->
  loop_start f e1 te1 now1 z = Ok a0 -> loop_run f evs1 a0 = Ok a ->
  loop_start f e2 te2 now2 z = Ok b0 -> loop_run f evs2 b0 = Ok b ->
  Forall2 at_least (writes_in (z_trace (l_zone a))) (writes_in (z_trace (l_zone b))).
Proof. exact C105_lemma. Qed.
Print Assumptions C105_hotter_fans.

(** A PI loop on t0, a stepwise loop on t1 and a feed-forward fan loop; t1 failing
    commands 60 %. *)
Definition cl_pids : PIDConf :=
  [("cpu", MkInfo "temp" [ex_in "t0"] (D 40) ht_pi (ex_steps false) (D 0));
   ("fans", MkInfo "fan" [ex_in "fan0"; ex_in "fan1"] (D 0) ex_ff (ex_steps false) (D 0));
   ("step", MkInfo "stepwise" [ex_in "t1"] (D 0) ht_pi (ex_steps false) (D 60))].
Definition cl_conf : ZoneConfig := MkZoneConfig (D 10) (D 75) 100 1000 false.
Definition cl_built : list (Z * zone) := get_ok [] (buildZones ex_bus [(1%Z, cl_pids)] [(1%Z, cl_conf)]).
Definition cl_z : zone := match cl_built with (_, z) :: _ => z | [] => ex_zone end.
Definition cl_up (n : string) : bool := true.
(** Readings of t0 and t1, whether t1 is bad, the speed of both fans. *)
Definition cl_poll (t0 t1 : Z) (bad : bool) (fan : Z) : poll_env :=
  PollEnv 0 (fun n =>
    if String.eqb n "t0" then Some (ex_view t0)
    else if String.eqb n "t1" then Some (View (D t1) (D t1) 0 5 bad "gone")
    else Some (ex_view fan)).
Definition cl_tick (t0 t1 : Z) (bad : bool) (fan : Z) : loop_event :=
  LTick (TickEnv (cl_poll t0 t1 bad fan) (cl_poll t0 t1 bad fan) ex_write ex_tune).
Definition cl_ticks (t0 t1 : Z) (bad : bool) (fan : Z) (n : nat) : list loop_event :=
  map (fun _ => cl_tick t0 t1 bad fan) (seq 1 n).
Definition cl_run (f : flags) (first : poll_env) (evs : list loop_event) : outcome loop :=
  bind (loop_start f first ex_tune 0 cl_z) (loop_run f evs).

Lemma cl_thermals : z_thermals cl_z =
  [TPid "cpu" [ex_in "t0"] absolute (D 40) (pid_ctrl_init ht_pi); TStep "step" ["t1"] (stepwise_ctrl_init (ex_steps false))].
Proof. reflexivity. Qed.
Lemma cl_inputs : z_thermalInputs cl_z = ["t0"; "t1"] /\ z_fanInputs cl_z = ["fan0"; "fan1"].
Proof. split; reflexivity. Qed.
Lemma cl_fans : z_fans cl_z = [createFanPid "fans" ["fan0"; "fan1"] ex_ff].
Proof. reflexivity. Qed.
Example C105_configuration_example :
  buildZones ex_bus [(1%Z, cl_pids)] [(1%Z, cl_conf)] = Ok cl_built /\ In (1%Z, cl_z) cl_built /\
  sensible_pids cl_pids /\ sensible_zone cl_conf /\ cooling_zone cl_up cl_z /\ forward_fans cl_z.
Proof.
  split; [apply get_ok_eq; vm_compute; reflexivity|].
  split; [left; reflexivity|].
  assert (F : sensible_fan ex_ff).
  { constructor; unfold bounded_cfg, limits_ordered, sane_slew, percent_ok, mag_le;
      repeat match goal with |- _ /\ _ => split | |- Forall _ _ => constructor end; vm_compute; reflexivity. }
  assert (T : sensible_thermal ht_pi).
  { unfold sensible_thermal, limits_ordered, sane_slew; repeat match goal with |- _ /\ _ => split end; vm_compute; reflexivity. }
  assert (S : sensible_stepwise (ex_steps false)).
  { intros i Hi. unfold maxStepwisePoints in Hi. do 20 (destruct i as [|i]; [vm_compute; discriminate|]). Lia.lia. }
  split; [split; [|vm_compute; discriminate]|].
  { intros e I. cbn [cl_pids In] in I.
    repeat (destruct I as [<-|I];
      [split; [intros X; try discriminate X; exact F|]; split; [intros X; try discriminate X; exact T|];
       split; [intros X; exact S|]; split; vm_compute; reflexivity|]).
    destruct I. }
  split.
  { split; [|split]; unfold mag_le; repeat match goal with |- _ /\ _ => split end; vm_compute; reflexivity. }
  split.
  - split; rewrite cl_thermals.
    + apply Forall_cons; [ht_pid ht_pi|]. apply Forall_cons; [ht_step false|]. apply Forall_nil.
    + rewrite (proj1 cl_inputs). repeat (apply Forall_cons; [intros n; cbn; tauto|]). apply Forall_nil.
  - intros k. rewrite cl_fans. intros [E|[]]. injection E as <-. exists ex_ff. split; [reflexivity|].
    split; [vm_compute; reflexivity|]. split; [vm_compute; reflexivity|]. split; [vm_compute; reflexivity|].
    split; [vm_compute; reflexivity|]. split; [split; vm_compute; reflexivity|].
    split; [reflexivity|]. split; vm_compute; reflexivity.
Qed.

(** t0 at 44, then 60; t1 at 30 all the time, bad in the second life. *)
Lemma cl_polls : hotter_poll cl_up cl_z (cl_poll 44 30 false 20) (cl_poll 60 30 true 90) /\
  no_healthier false (z_thermalInputs cl_z) (cl_poll 44 30 false 20) (cl_poll 60 30 true 90) /\
  no_healthier false (z_fanInputs cl_z) (cl_poll 44 30 false 20) (cl_poll 60 30 true 90).
Proof.
  destruct cl_inputs as (It & If). split; [split; [|split]|split].
  - unfold moderate. rewrite cl_thermals. apply Forall_cons; [split; [vm_compute; reflexivity|split; vm_compute; reflexivity]|].
    apply Forall_cons; [exact Logic.I|apply Forall_nil].
  - unfold moderate. rewrite cl_thermals. apply Forall_cons; [split; [vm_compute; reflexivity|split; vm_compute; reflexivity]|].
    apply Forall_cons; [exact Logic.I|apply Forall_nil].
  - rewrite It. intros n [<-|[<-|[]]].
    + ht_reading 44%Z 60%Z.
    + left. reflexivity.
  - rewrite It. intros n [<-|[<-|[]]]; (split; [|discriminate]); intros (v & E & B); cbn in E; injection E as <-.
    + destruct B as [B|B]; discriminate B.
    + destruct B as [B|B]; discriminate B.
  - rewrite If. intros n [<-|[<-|[]]]; (split; [|discriminate]); intros (v & E & B); cbn in E; injection E as <-;
      destruct B as [B|B]; discriminate B.
Qed.
Lemma cl_modest t0 t1 bad fan : mag_le 200 (D (fan * 50)) -> modest_speeds (z_fanInputs cl_z) (cl_poll t0 t1 bad fan).
Proof.
  intros M n v I E _. rewrite (proj2 cl_inputs) in I.
  destruct I as [<-|[<-|[]]]; cbn in E; injection E as <-; exact M.
Qed.
Ltac cl_speed := apply cl_modest; split; [vm_compute; reflexivity|split; vm_compute; reflexivity].
Example C105_example :
  hotter_poll cl_up cl_z (cl_poll 44 30 false 20) (cl_poll 60 30 true 90) /\
  Forall2 (hotter_event cl_up cl_z) (cl_ticks 44 30 false 20 11) (cl_ticks 60 30 true 90 11) /\
  no_healthier false (z_thermalInputs cl_z) (cl_poll 44 30 false 20) (cl_poll 60 30 true 90) /\
  Forall2 (no_healthier_event false cl_z) (cl_ticks 44 30 false 20 11) (cl_ticks 60 30 true 90 11) /\
  modest_speeds (z_fanInputs cl_z) (cl_poll 44 30 false 20) /\ modest_speeds (z_fanInputs cl_z) (cl_poll 60 30 true 90) /\
  Forall (sensible_event (z_fanInputs cl_z)) (cl_ticks 44 30 false 20 11) /\
  Forall (sensible_event (z_fanInputs cl_z)) (cl_ticks 60 30 true 90 11) /\
  ex_writes 2 (cl_run ex_flags (cl_poll 44 30 false 20) (cl_ticks 44 30 false 20 11)) =
    [("fan0", 300, false); ("fan1", 300, false)]%Z /\
  ex_writes 2 (cl_run ex_flags (cl_poll 60 30 true 90) (cl_ticks 60 30 true 90 11)) =
    [("fan0", 600, false); ("fan1", 600, false)]%Z /\
  ex_writes 2 (cl_run ex_flags (cl_poll 80 30 true 90) (cl_ticks 80 30 true 90 11)) =
    [("fan0", 1000, false); ("fan1", 1000, false)]%Z.
Proof.
  destruct cl_polls as (P1 & P2 & P3).
  split; [exact P1|].
  split. { unfold cl_ticks. induction (seq 1 11) as [|k ks IH]; [apply Forall2_nil|]. apply Forall2_cons; [exact P1|exact IH]. }
  split; [exact P2|].
  split. { unfold cl_ticks. induction (seq 1 11) as [|k ks IH]; [apply Forall2_nil|].
           apply Forall2_cons; [split; [exact P3|exact P2]|exact IH]. }
  split; [cl_speed|]. split; [cl_speed|].
  split. { unfold cl_ticks. induction (seq 1 11) as [|k ks IH]; [apply Forall_nil|].
           apply Forall_cons; [split; [cl_speed|split; [cl_speed|split; exact Logic.I]]|exact IH]. }
  split. { unfold cl_ticks. induction (seq 1 11) as [|k ks IH]; [apply Forall_nil|].
           apply Forall_cons; [split; [cl_speed|split; [cl_speed|split; exact Logic.I]]|exact IH]. }
  split; [vm_compute; reflexivity|]. split; vm_compute; reflexivity.
Qed.

(** In a strict build a sensor that fails can lower the fans: with t0 at 80 they run at
    full speed, and at 60 % once t1 is bad. *)
Theorem C105_strict_refuted : exists f z e1 e2 a b evs1 evs2,
  STRICT_FAILSAFE_PWM f = true /\ tuningEnabled f = false /\ cooling_zone cl_up z /\ forward_fans z /\
  hotter_poll cl_up z e1 e2 /\ no_healthier false (z_thermalInputs z) e1 e2 /\
  Forall2 (hotter_event cl_up z) evs1 evs2 /\ Forall2 (no_healthier_event false z) evs1 evs2 /\
  bind (loop_start f e1 ex_tune 0 z) (loop_run f evs1) = Ok a /\
  bind (loop_start f e2 ex_tune 0 z) (loop_run f evs2) = Ok b /\
  match writes_in (z_trace (l_zone a)), writes_in (z_trace (l_zone b)) with
  | (n, v, _) :: _, (m, w, _) :: _ => n = m /\ dlt w v
  | _, _ => False
  end.
Proof.
  pose (d := MkLoop cl_z 0 0).
  exists ex_strict, cl_z, (cl_poll 80 30 false 20), (cl_poll 80 30 true 20),
    (get_ok d (bind (loop_start ex_strict (cl_poll 80 30 false 20) ex_tune 0 cl_z) (loop_run ex_strict [cl_tick 80 30 false 20]))),
    (get_ok d (bind (loop_start ex_strict (cl_poll 80 30 true 20) ex_tune 0 cl_z) (loop_run ex_strict [cl_tick 80 30 true 20]))),
    [cl_tick 80 30 false 20], [cl_tick 80 30 true 20].
  destruct cl_inputs as (It & If).
  assert (HP : hotter_poll cl_up cl_z (cl_poll 80 30 false 20) (cl_poll 80 30 true 20)).
  { split; [|split].
    - unfold moderate. rewrite cl_thermals. apply Forall_cons; [split; [vm_compute; reflexivity|split; vm_compute; reflexivity]|].
      apply Forall_cons; [exact Logic.I|apply Forall_nil].
    - unfold moderate. rewrite cl_thermals. apply Forall_cons; [split; [vm_compute; reflexivity|split; vm_compute; reflexivity]|].
      apply Forall_cons; [exact Logic.I|apply Forall_nil].
    - rewrite It. intros n [<-|[<-|[]]]; left; reflexivity. }
  assert (NT : no_healthier false (z_thermalInputs cl_z) (cl_poll 80 30 false 20) (cl_poll 80 30 true 20)).
  { rewrite It. intros n [<-|[<-|[]]]; (split; [|discriminate]); intros (v & E & B); cbn in E; injection E as <-;
      destruct B as [B|B]; discriminate B. }
  assert (NF : no_healthier false (z_fanInputs cl_z) (cl_poll 80 30 false 20) (cl_poll 80 30 true 20)).
  { rewrite If. intros n [<-|[<-|[]]]; (split; [|discriminate]); intros (v & E & B); cbn in E; injection E as <-;
      destruct B as [B|B]; discriminate B. }
  split; [reflexivity|]. split; [reflexivity|].
  destruct C105_configuration_example as (_ & _ & _ & _ & CZ & FF).
  split; [exact CZ|]. split; [exact FF|]. split; [exact HP|]. split; [exact NT|].
  split; [apply Forall2_cons; [exact HP|apply Forall2_nil]|].
  split; [apply Forall2_cons; [split; [exact NF|exact NT]|apply Forall2_nil]|].
  split; [apply get_ok_eq; vm_compute; reflexivity|]. split; [apply get_ok_eq; vm_compute; reflexivity|].
  vm_compute. split; reflexivity.
Qed.
Print Assumptions C105_strict_refuted.
