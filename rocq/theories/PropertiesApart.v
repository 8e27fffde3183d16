(** * Property C109: a zone of the daemon is controlled by its own sensors only.

    Vocabulary: SpecApart.v, with SpecSystem.v and SpecZone.v.  Proofs: ApartProofs.v. *)
From Coq Require Import ZArith Bool List String.
From Verif Require Import Base BaseFacts Dbl PidModel ZoneModel LoopModel SpecZone ZoneProofs SensorModel SpecSensor
  WriteModel SpecWrite BuilderModel SpecBuilder PropertiesZone PropertiesBuilder SystemModel SpecSystem PropertiesSystem
  SpecHeat PropertiesHeat SpecSettle PropertiesSettle SpecApart ApartProofs.
Import ListNotations.
Local Open Scope string_scope.

(** ** C109 *)

(** Two lives of a daemon with the same sensors.  The other zones, the fan devices and all
    events that do not concern zone number [i] may differ in any way; so may the files the
    zone's sensors do not read, and which writes fail.  If the events that concern the zone
    are the same ones in the same order, the zone gives exactly the same fan commands. *)
Theorem C109_own_sensors : forall bus_ok zp confs built id pids z f sf pow10 sb config failures first devices1 devices2
    zs1 zs2 i st1 st2 evs1 evs2 s1 s2 l1 l2,
  buildZones bus_ok zp confs = Ok built -> NoDup (map fst zp) -> In (id, pids) zp -> In (id, z) built ->
  runs f sf pow10 sb config failures first devices1 zs1 evs1 s1 ->
  runs f sf pow10 sb config failures first devices2 zs2 evs2 s2 ->
  nth_error zs1 i = Some (st1, z) -> nth_error zs2 i = Some (st2, z) -> same_start sb config z st1 st2 ->
  Forall2 (same_event sb config z) (filter (concerns config i z) evs1) (filter (concerns config i z) evs2) ->
  nth_error (sy_loops s1) i = Some l1 -> nth_error (sy_loops s2) i = Some l2 ->
  writes_in (z_trace (l_zone l1)) = writes_in (z_trace (l_zone l2)).
Proof. exact C109_lemma. Qed.
Print Assumptions C109_own_sensors.

(** Two zones: fan0 and t0, fan1 and t1.  In the second life t1 raises an alarm, fan1 shows
    another speed, the second zone does not run while it is under manual control, and the
    writes of the first zone fail. *)
Definition ap_pids (fan t : string) : PIDConf :=
  [("air", ex_info "fan" [ex_in fan] 0); ("heat", MkInfo "temp" [ex_in t] (D 40) ht_pi (ex_steps false) (D 0))].
Definition ap_zp : list (Z * PIDConf) := [(1%Z, ap_pids "fan0" "t0"); (2%Z, ap_pids "fan1" "t1")].
Definition ap_confs : list (Z * ZoneConfig) := [(1%Z, se_conf); (2%Z, se_conf)].
Definition ap_built : list (Z * zone) := get_ok [] (buildZones ex_bus ap_zp ap_confs).
Definition ap_zone (k : nat) : zone := snd (nth k ap_built (0%Z, ex_zone)).
Definition ap_zones : list (start_in * zone) :=
  [(StartIn 0 sys_files ex_tune 0, ap_zone 0); (StartIn 0 sys_files ex_tune 0, ap_zone 1)].
Definition ap_files : string -> file_content :=
  fun p => if String.eqb p "/sys/hwmon/fan1_input" then FileInt 300 else sys_files p.
Definition ap_wake (now : Z) : wake := Wake now ap_files now ap_files ex_tune (fun _ => false).
Definition ap_s0 : system := get_ok no_system (sys_start ex_flags sys_sensors0 [] false sys_devs ap_zones).
Definition ap_after (evs : list sys_event) : system := get_ok no_system (sys_run ex_flags ex_sf ex_pow evs ap_s0).
Definition ap_first : list sys_event :=
  [host_up; STick 0 (sys_wake 1); STick 1 (sys_wake 1); STick 0 (sys_wake 2); STick 1 (sys_wake 2); STick 0 (sys_wake 3);
   STick 1 (sys_wake 3); SHost "m0" (D 3) 4].
Definition ap_second : list sys_event :=
  [host_up; t1_alarm; STick 0 (ap_wake 1); STick 1 (ap_wake 1); STick 1 (ap_wake 2); STick 0 (ap_wake 2); STick 1 (ap_wake 3);
   SManual 1 true; STick 1 (sys_wake 3); STick 0 (ap_wake 3)].
Definition ap_writes (i k : nat) (evs : list sys_event) : list (string * Z * bool) :=
  match nth_error (sy_loops (ap_after evs)) i with Some l => ex_writes k (Ok l) | None => [] end.

Lemma ap_inputs : z_fanInputs (ap_zone 0) = ["fan0"] /\ z_thermalInputs (ap_zone 0) = ["t0"].
Proof. split; vm_compute; reflexivity. Qed.
Lemma ap_input_of n : input_of (ap_zone 0) n = (smem n ["fan0"] || smem n ["t0"])%bool.
Proof.
  destruct ap_inputs as (A & B). revert A B. generalize (ap_zone 0). intros z A B. unfold input_of. rewrite A, B. reflexivity.
Qed.
Lemma ap_filter evs : filter (concerns sys_config 0 (ap_zone 0)) evs =
  filter (fun e => match e with
    | SSignal path _ => existsb (fun c =>
        ((smem (fst c) ["fan0"] || smem (fst c) ["t0"]) && String.eqb (sc_readPath (snd c)) path)%bool) sys_config
    | SHost n _ _ => (smem n ["fan0"] || smem n ["t0"])%bool
    | SRedundancy _ | SHostState _ => true
    | STick j _ | SManual j _ | SEnable j _ _ => Nat.eqb j 0
    end) evs.
Proof.
  assert (A := ap_input_of). revert A. generalize (ap_zone 0). intros z A. apply filter_ext. intros e.
  unfold concerns. destruct e; try reflexivity; [|apply A].
  induction sys_config as [|c r IH]; [reflexivity|]. cbn [existsb]. rewrite IH, A. reflexivity.
Qed.
Lemma ap_same : same_files sys_bus sys_config (ap_zone 0) sys_files ap_files.
Proof.
  intros n info path I J R. rewrite ap_input_of in J.
  assert (E : path <> "/sys/hwmon/fan1_input"); [|apply String.eqb_neq in E; unfold ap_files; rewrite E; reflexivity].
  assert (Re : path = sc_readPath info).
  { destruct R as [(_ & R)|(base & rest & (Fs & _) & R)]; [exact R|]. exfalso.
    assert (C : contains "**" (sc_readPath info)) by (exists base, rest; exact Fs).
    revert C. apply not_in; [discriminate|].
    destruct I as [I|[I|[I|[I|[I|[]]]]]]; injection I as <- <-; reflexivity. }
  rewrite Re. destruct I as [I|[I|[I|[I|[I|[]]]]]]; injection I as <- <-; cbn in J; discriminate.
Qed.
Lemma ap_runs evs : is_ok (sys_run ex_flags ex_sf ex_pow evs ap_s0) = true ->
  runs ex_flags ex_sf ex_pow sys_bus sys_config [] None sys_devs ap_zones evs (ap_after evs).
Proof.
  intros H. constructor.
  - repeat constructor; cbn; intuition discriminate.
  - apply Forall_cons; [|apply Forall_cons; [|apply Forall_nil]]; cbn [snd]; unfold fresh;
      repeat match goal with |- _ /\ _ => split end; vm_compute; reflexivity.
  - exists sys_sensors0, ap_s0. split; [|split].
    + apply get_ok_eq. vm_compute. reflexivity.
    + apply get_ok_eq. vm_compute. reflexivity.
    + apply get_ok_eq. exact H.
Qed.
Example C109_example :
  buildZones ex_bus ap_zp ap_confs = Ok ap_built /\ map fst ap_built = [1%Z; 2%Z] /\
  runs ex_flags ex_sf ex_pow sys_bus sys_config [] None sys_devs ap_zones ap_first (ap_after ap_first) /\
  runs ex_flags ex_sf ex_pow sys_bus sys_config [] None sys_devs ap_zones ap_second (ap_after ap_second) /\
  Forall2 (same_event sys_bus sys_config (ap_zone 0)) (filter (concerns sys_config 0 (ap_zone 0)) ap_first)
    (filter (concerns sys_config 0 (ap_zone 0)) ap_second) /\
  ap_writes 0 2 ap_first = [("fan0", 375, false); ("fan0", 450, false)]%Z /\
  ap_writes 0 2 ap_second = [("fan0", 375, false); ("fan0", 450, false)]%Z /\
  ap_writes 1 2 ap_first = [("fan1", 550, false); ("fan1", 640, false)]%Z /\
  ap_writes 1 2 ap_second = [("fan1", 550, false); ("fan1", 750, false)]%Z.
Proof.
  split; [apply get_ok_eq; vm_compute; reflexivity|]. split; [vm_compute; reflexivity|].
  split; [apply ap_runs; vm_compute; reflexivity|]. split; [apply ap_runs; vm_compute; reflexivity|].
  split.
  { rewrite !ap_filter. cbn [filter ap_first ap_second host_up t1_alarm].
    assert (T : forall now, same_event sys_bus sys_config (ap_zone 0) (STick 0 (sys_wake now)) (STick 0 (ap_wake now))).
    { intros now. repeat (split; [first [reflexivity|exact ap_same]|]). exact ap_same. }
    match goal with |- Forall2 _ ?a ?b =>
      change a with [host_up; STick 0 (sys_wake 1); STick 0 (sys_wake 2); STick 0 (sys_wake 3)];
      change b with [host_up; STick 0 (ap_wake 1); STick 0 (ap_wake 2); STick 0 (ap_wake 3)] end.
    apply Forall2_cons; [reflexivity|]. repeat (apply Forall2_cons; [apply T|]). apply Forall2_nil. }
  split; [vm_compute; reflexivity|]. split; [vm_compute; reflexivity|].
  split; vm_compute; reflexivity.
Qed.
