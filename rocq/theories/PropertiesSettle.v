(** * Property C107: a zone whose readings stay the same comes to rest.

    Vocabulary: SpecSettle.v, with SpecHeat.v, SpecCool.v, SpecRange.v and SpecZone.v.
    Proofs: SettleProofs.v, SettleZone.v. *)
From Coq Require Import ZArith Bool List String.
From Verif Require Import Base BaseFacts Dbl PidModel ZoneModel LoopModel SpecPid SpecZone ZoneProofs BuilderModel
  SpecBuilder SpecRange PropertiesZone PropertiesBuilder SpecHeat PropertiesHeat SpecCool PropertiesCool SpecSettle SettleZone.
Import ListNotations.
Local Open Scope string_scope.

(** ** C107 *)

(** After any life [evs] of a zone, from some wake-up on everything its sensors show
    stays the same: readings, speeds, and which sensors are bad.  Then after finitely many
    wake-ups each further one sends the same commands [W], for ever.  Whatever the
    schedule, coefficients, rate limits, hysteresis, tables and failing sensors are, fans
    do not hunt. *)
Theorem C107_zone_comes_to_rest : forall bus_ok zp confs built id pids z c f env te now l0 evs es,
  buildZones bus_ok zp confs = Ok built -> NoDup (map fst zp) -> In (id, pids) zp -> In (id, z) built ->
  zget id confs = Some c -> sensible_pids pids -> sensible_zone c ->
  tuningEnabled f = false -> settling_zone z ->
  modest_speeds (z_fanInputs z) env -> int_files te -> moderate env z ->
  loop_start f env te now z = Ok l0 ->
  Forall (sensible_event (z_fanInputs z)) evs -> Forall (moderate_event z) evs ->
  unchanging z es -> (forall i, sensible_event (z_fanInputs z) (LTick (es i))) -> moderate (tk_therm (es 0%nat)) z ->
  exists N W, forall n l l' new, (N <= n)%nat ->
    loop_run f (evs ++ wake_ups es n)%list l0 = Ok l -> loop_run f (evs ++ wake_ups es (S n))%list l0 = Ok l' ->
    new_events (l_zone l) (l_zone l') new -> Forall2 same_command (writes_in new) W.
Proof. exact C107_lemma. Qed.
Print Assumptions C107_zone_comes_to_rest.

(** The zone of C105 with a fan loop that has an integral, and a thermal cycle in every
    second wake-up.  t0 goes from 60 to 44, t1 is bad from then on. *)
Definition se_fan : pidinfo :=
  PidInfo false (D 1) (D2 1 (-1)) (D2 1 (-2)) (D 0) (D 0) (D 0) (Limits (D 0) (D 60)) (Limits (D 20) (D 100)) (D (-5)) (D 5) (D 0) (D 0).
Definition se_pids : PIDConf :=
  [("cpu", MkInfo "temp" [ex_in "t0"] (D 40) ht_pi (ex_steps false) (D 0));
   ("fans", MkInfo "fan" [ex_in "fan0"; ex_in "fan1"] (D 0) se_fan (ex_steps false) (D 0));
   ("step", MkInfo "stepwise" [ex_in "t1"] (D 0) ht_pi (ex_steps false) (D 30))].
Definition se_conf : ZoneConfig := MkZoneConfig (D 10) (D 75) 100 200 false.
Definition se_built : list (Z * zone) := get_ok [] (buildZones ex_bus [(1%Z, se_pids)] [(1%Z, se_conf)]).
Definition se_z : zone := match se_built with (_, z) :: _ => z | [] => ex_zone end.
Definition se_env (k : Z) : tick_env := TickEnv (cl_poll 44 30 true k) (cl_poll 44 30 true k) ex_write ex_tune.
Definition se_run (n : nat) : outcome loop :=
  bind (loop_start ex_flags (cl_poll 60 30 false 0) ex_tune 0 se_z)
    (loop_run ex_flags (cl_ticks 60 30 false 0 3 ++ wake_ups (fun _ => se_env 0) n)%list).

Lemma se_thermals : z_thermals se_z =
  [TPid "cpu" [ex_in "t0"] absolute (D 40) (pid_ctrl_init ht_pi); TStep "step" ["t1"] (stepwise_ctrl_init (ex_steps false))].
Proof. reflexivity. Qed.
Lemma se_inputs : z_thermalInputs se_z = ["t0"; "t1"] /\ z_fanInputs se_z = ["fan0"; "fan1"].
Proof. split; reflexivity. Qed.
Ltac se_mag := split; [vm_compute; reflexivity|split; vm_compute; reflexivity].
Example C107_configuration_example :
  buildZones ex_bus [(1%Z, se_pids)] [(1%Z, se_conf)] = Ok se_built /\ In (1%Z, se_z) se_built /\
  sensible_pids se_pids /\ sensible_zone se_conf /\ settling_zone se_z.
Proof.
  split; [apply get_ok_eq; vm_compute; reflexivity|].
  split; [left; reflexivity|].
  assert (F : sensible_fan se_fan).
  { constructor; unfold bounded_cfg, limits_ordered, sane_slew, percent_ok, mag_le;
      repeat match goal with |- _ /\ _ => split | |- Forall _ _ => constructor end; vm_compute; reflexivity. }
  assert (T : sensible_thermal ht_pi).
  { unfold sensible_thermal, limits_ordered, sane_slew; repeat match goal with |- _ /\ _ => split end; vm_compute; reflexivity. }
  assert (S : sensible_stepwise (ex_steps false)).
  { intros i Hi. unfold maxStepwisePoints in Hi. do 20 (destruct i as [|i]; [vm_compute; discriminate|]). Lia.lia. }
  split; [split; [|vm_compute; discriminate]|].
  { intros e I. cbn [se_pids In] in I.
    repeat (destruct I as [<-|I];
      [split; [intros X; try discriminate X; exact F|]; split; [intros X; try discriminate X; exact T|];
       split; [intros X; exact S|]; split; vm_compute; reflexivity|]).
    destruct I. }
  split.
  { split; [|split]; unfold mag_le; repeat match goal with |- _ /\ _ => split end; vm_compute; reflexivity. }
  split; rewrite se_thermals.
  - apply Forall_cons; [split; [se_mag|]|apply Forall_cons; [exact Logic.I|apply Forall_nil]].
    exists ht_pi. split; [reflexivity|]. split; [ht_bounded|]. split; [split; vm_compute; reflexivity|].
    split; [vm_compute; reflexivity|split; vm_compute; reflexivity].
  - rewrite (proj1 se_inputs). repeat (apply Forall_cons; [intros n; cbn; tauto|]). apply Forall_nil.
Qed.

Lemma se_modest t0 t1 bad fan : mag_le 200 (D (fan * 50)) -> modest_speeds (z_fanInputs se_z) (cl_poll t0 t1 bad fan).
Proof.
  intros M n v I E _. rewrite (proj2 se_inputs) in I.
  destruct I as [<-|[<-|[]]]; cbn in E; injection E as <-; exact M.
Qed.
Ltac se_speed := apply se_modest; se_mag.
Ltac se_moderate := unfold moderate; rewrite se_thermals; apply Forall_cons; [se_mag|apply Forall_cons; [exact Logic.I|apply Forall_nil]].
(** Tenths of a percent sent to the last fan by each wake-up: the rate limit, the
    integral of the fan loop and the integral of the thermal loop take their time. *)
Example C107_example :
  modest_speeds (z_fanInputs se_z) (cl_poll 60 30 false 0) /\ moderate (cl_poll 60 30 false 0) se_z /\
  Forall (sensible_event (z_fanInputs se_z)) (cl_ticks 60 30 false 0 3) /\
  Forall (moderate_event se_z) (cl_ticks 60 30 false 0 3) /\
  unchanging se_z (fun _ => se_env 0) /\ sensible_event (z_fanInputs se_z) (LTick (se_env 0)) /\
  moderate (tk_therm (se_env 0)) se_z /\
  map (fun n => ex_writes 1 (se_run n)) (seq 1 10) =
    map (fun x => [("fan1", x, false)]) [525; 475; 525; 575; 625; 675; 725; 750; 750; 750]%Z.
Proof.
  split; [se_speed|]. split; [se_moderate|].
  split. { unfold cl_ticks. induction (seq 1 3) as [|k ks IH]; [apply Forall_nil|].
           apply Forall_cons; [split; [se_speed|split; [se_speed|split; exact Logic.I]]|exact IH]. }
  split. { unfold cl_ticks. induction (seq 1 3) as [|k ks IH]; [apply Forall_nil|]. apply Forall_cons; [|exact IH].
           change (moderate (cl_poll 60 30 false 0) se_z). se_moderate. }
  split. { intros i. split; intros n _; split; [reflexivity|split; [reflexivity|split; intros H; exact H]|reflexivity|split; [reflexivity|split; intros H; exact H]]. }
  split; [split; [se_speed|split; [se_speed|split; exact Logic.I]]|].
  split; [change (moderate (cl_poll 44 30 true 0) se_z); se_moderate|].
  vm_compute; reflexivity.
Qed.
