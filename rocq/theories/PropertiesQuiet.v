(** * Property C111: a daemon whose sensors stay the same comes to rest.

    Vocabulary: SpecQuiet.v, with SpecSettle.v, SpecHeat.v, SpecRange.v and SpecSystem.v.
    Proofs: QuietProofs.v. *)
From Coq Require Import ZArith Bool List String Permutation.
From Verif Require Import Base BaseFacts Dbl PidModel ZoneModel LoopModel SpecPid SpecZone ZoneProofs SensorModel SpecSensor
  WriteModel SpecWrite BuilderModel SpecBuilder SpecRange PropertiesZone PropertiesBuilder SystemModel SpecSystem PropertiesSystem
  PropertiesRange SpecHeat PropertiesHeat SpecSettle PropertiesSettle SpecCool SpecApart PropertiesApart SpecQuiet QuietProofs.
Import ListNotations.
Local Open Scope string_scope.

(** ** C111 *)

(** A daemon with a sensible configuration has been running.  From now on zone [i] is
    woken again and again, and nothing is asked of it; between its wake-ups other zones
    run, messages and values arrive, and the host may change its state, as long as the
    zone's own sensors show the same.  Then the daemon goes on, and after finitely many
    wake-ups each further one sends the same commands [W]. *)
Theorem C111_daemon_comes_to_rest : forall f sf pow10 sb config failures first devices zs bus_ok zp confs i st z evs s ws between,
  NoDup (map fst config) -> built_from bus_ok zp confs zs -> (forall id pids, In (id, pids) zp -> pids_served config pids) ->
  sensible_setup sf pow10 sb config zp confs -> Forall (fun e => sensible_begin (fst e)) zs ->
  tuningEnabled f = false -> nth_error zs i = Some (st, z) -> settling_zone z ->
  runs f sf pow10 sb config failures first devices zs evs s -> Forall sensible_news evs ->
  moderate_life f sf pow10 sb config failures first devices zs i st z evs ->
  (forall k, Forall (not_for i) (between k)) ->
  (forall k, sensible_news (STick i (ws k)) /\ Forall sensible_news (between k)) ->
  (forall k, served f sb config (STick i (ws k)) /\ Forall (served f sb config) (between k)) ->
  moderate (view_env s (wk_therm_files (ws 0%nat)) (wk_therm_now (ws 0%nat))) z ->
  steady f sf pow10 z i ws between s ->
  exists N W, forall k, (N <= k)%nat -> exists sk s' l l' new,
    sys_run f sf pow10 (rounds i ws between k) s = Ok sk /\ sys_step f sf pow10 sk (STick i (ws k)) = Ok s' /\
    nth_error (sy_loops sk) i = Some l /\ nth_error (sy_loops s') i = Some l' /\
    new_events (l_zone l) (l_zone l') new /\ Forall2 same_command (writes_in new) W.
Proof. exact C111_rest_lemma. Qed.
Print Assumptions C111_daemon_comes_to_rest.

(** And then it makes no further Set call for a fan that belongs to this zone only,
    whether the calls made so far succeeded or not. *)
Theorem C111_bus_goes_quiet : forall f sf pow10 sb config failures first devices zs bus_ok zp confs i st z evs s ws between n,
  NoDup (map fst config) -> built_from bus_ok zp confs zs -> (forall id pids, In (id, pids) zp -> pids_served config pids) ->
  sensible_setup sf pow10 sb config zp confs -> Forall (fun e => sensible_begin (fst e)) zs ->
  tuningEnabled f = false -> nth_error zs i = Some (st, z) -> settling_zone z ->
  runs f sf pow10 sb config failures first devices zs evs s -> Forall sensible_news evs ->
  moderate_life f sf pow10 sb config failures first devices zs i st z evs ->
  (forall k, Forall (not_for i) (between k)) ->
  (forall k, sensible_news (STick i (ws k)) /\ Forall sensible_news (between k)) ->
  (forall k, served f sb config (STick i (ws k)) /\ Forall (served f sb config) (between k)) ->
  moderate (view_env s (wk_therm_files (ws 0%nat)) (wk_therm_now (ws 0%nat))) z ->
  steady f sf pow10 z i ws between s ->
  NoDup (z_fanInputs z) ->
  (forall j st' z', j <> i -> nth_error zs j = Some (st', z') -> ~ In n (z_fanInputs z')) ->
  exists N calls, forall k, (N <= k)%nat -> exists sk,
    sys_run f sf pow10 (rounds i ws between k) s = Ok sk /\ set_calls sk n = calls.
Proof. exact C111_quiet_lemma. Qed.
Print Assumptions C111_bus_goes_quiet.

(** The two zones of C109.  The host is up and zone 0 has run once; then both zones run
    in turn, and t0 stays at 55 degrees. *)
Definition qu_evs : list sys_event := [host_up; STick 0 (sys_wake 1)].
Definition qu_ws : nat -> wake := fun _ => sys_wake 2.
Definition qu_between : nat -> list sys_event := fun _ => [STick 1 (sys_wake 2)].
Definition qu_after (k : nat) : system := ap_after (qu_evs ++ rounds 0 qu_ws qu_between k)%list.

Lemma qu_same {A : Type} (o : outcome A) a b : o = Ok a -> o = Ok b -> a = b.
Proof. intros H1 H2. rewrite H1 in H2. injection H2 as H. exact H. Qed.
Lemma qu_unique evs s : is_ok (sys_run ex_flags ex_sf ex_pow evs ap_s0) = true ->
  runs ex_flags ex_sf ex_pow sys_bus sys_config [] None sys_devs ap_zones evs s -> s = ap_after evs.
Proof.
  intros Hk [_ _ (m & s0 & B & St & R)].
  destruct (ap_runs evs Hk) as [_ _ (m' & s0' & B' & St' & R')].
  assert (E := qu_same _ _ _ B B'). subst m'. assert (E := qu_same _ _ _ St St'). subst s0'. exact (qu_same _ _ _ R R').
Qed.
Lemma qu_thermals : z_thermals (ap_zone 0) = [TPid "heat" [ex_in "t0"] absolute (D 40) (pid_ctrl_init ht_pi)].
Proof. reflexivity. Qed.
Ltac qu_moderate := unfold moderate; rewrite qu_thermals; apply Forall_cons; [se_mag|apply Forall_nil].

Example C111_configuration_example :
  built_from ex_bus ap_zp ap_confs ap_zones /\
  (forall id pids, In (id, pids) ap_zp -> pids_served sys_config pids) /\
  sensible_setup ex_sf ex_pow sys_bus sys_config ap_zp ap_confs /\
  settling_zone (ap_zone 0) /\ NoDup (z_fanInputs (ap_zone 0)) /\
  (forall j st z, j <> 0%nat -> nth_error ap_zones j = Some (st, z) -> ~ In "fan0" (z_fanInputs z)).
Proof.
  assert (Bt : buildZones ex_bus ap_zp ap_confs = Ok ap_built) by (apply get_ok_eq; vm_compute; reflexivity).
  split.
  { split; [repeat constructor; cbn; intuition discriminate|]. exists ap_built. split; [exact Bt|].
    assert (E : List.length ap_built = 2%nat) by (vm_compute; reflexivity). revert E. unfold ap_zones, ap_zone.
    generalize ap_built. intros [|[a x] [|[b y] [|]]] E; try discriminate E. cbn. apply Permutation_refl. }
  split.
  { intros id pids I. destruct I as [I|[I|[]]]; injection I as <- <-.
    all: split; [intros e I B; repeat (destruct I as [<-|I]; [discriminate|]); destruct I|].
    all: split; [intros e i I T J C; repeat (destruct I as [<-|I]; [try discriminate T; destruct J as [<-|[]]; discriminate C|]); destruct I|].
    all: split; intros n (e & I & T & N); cbn in I; repeat destruct I as [<-|I]; try contradiction; try discriminate T;
      cbn in N; repeat destruct N as [<-|N]; try contradiction.
    - exists t0_info; split; [cbn; auto 6|]; split; [right; left; reflexivity|right; right; path_class].
    - split; [exists fan0_info; split; [cbn; auto|]; split; [left; reflexivity|left; path_class]|].
      exists fan0_info. split; [cbn; auto|reflexivity].
    - exists t1_info; split; [cbn; auto 6|]; split; [right; left; reflexivity|left; path_class].
    - split; [exists fan1_info; split; [cbn; auto|]; split; [left; reflexivity|right; right; path_class]|].
      exists fan1_info. split; [cbn; auto|reflexivity]. }
  split.
  { assert (F : sensible_fan ex_ff).
    { constructor; unfold bounded_cfg, limits_ordered, sane_slew, percent_ok, mag_le;
        repeat match goal with |- _ /\ _ => split | |- Forall _ _ => constructor end; vm_compute; reflexivity. }
    assert (T : sensible_thermal ht_pi).
    { unfold sensible_thermal, limits_ordered, sane_slew; repeat match goal with |- _ /\ _ => split end; vm_compute; reflexivity. }
    assert (S : sensible_stepwise (ex_steps false)).
    { intros i Hi. unfold maxStepwisePoints in Hi. do 20 (destruct i as [|i]; [vm_compute; discriminate|]). Lia.lia. }
    constructor.
    - intros id pids I. destruct I as [I|[I|[]]]; injection I as <- <-; (split; [|vm_compute; discriminate]); intros e I; cbn [ap_pids In] in I;
        (repeat (destruct I as [<-|I];
          [split; [intros X; try discriminate X; exact F|]; split; [intros X; try discriminate X; exact T|];
           split; [intros X; exact S|]; split; vm_compute; reflexivity|]); destruct I).
    - destruct C107_configuration_example as (_ & _ & _ & Z & _).
      intros id pids c I Hc. destruct I as [I|[I|[]]]; injection I as <- <-; cbn in Hc; injection Hc as <-; exact Z.
    - destruct C80_example as (A & _). exact (se_fans _ _ _ _ _ _ A).
    - destruct C80_example as (A & _). exact (se_start _ _ _ _ _ _ A). }
  split.
  { split; rewrite qu_thermals.
    - apply Forall_cons; [split; [se_mag|]|apply Forall_nil].
      exists ht_pi. split; [reflexivity|]. split; [ht_bounded|]. split; [split; vm_compute; reflexivity|].
      split; [vm_compute; reflexivity|split; vm_compute; reflexivity].
    - rewrite (proj2 ap_inputs). apply Forall_cons; [intros n; cbn; tauto|apply Forall_nil]. }
  split. { rewrite (proj1 ap_inputs). constructor; [intros []|constructor]. }
  assert (E : z_fanInputs (ap_zone 1) = ["fan1"]) by (vm_compute; reflexivity). revert E. unfold ap_zones. generalize (ap_zone 0), (ap_zone 1).
  intros z0 z1 E [|[|j]] st z N I; [elim (N eq_refl)| |destruct j; discriminate I].
  cbn in I. injection I as <- <-. rewrite E. intros [X|[]]. discriminate X.
Qed.

(** The raw values of the Set calls for fan0 after so many rounds, newest first: the
    commands rise for a while, then there are no more calls. *)
Example C111_example :
  Forall (fun e => sensible_begin (fst e)) ap_zones /\
  runs ex_flags ex_sf ex_pow sys_bus sys_config [] None sys_devs ap_zones qu_evs (ap_after qu_evs) /\ Forall sensible_news qu_evs /\
  moderate_life ex_flags ex_sf ex_pow sys_bus sys_config [] None sys_devs ap_zones 0 (StartIn 0 sys_files ex_tune 0) (ap_zone 0) qu_evs /\
  (forall k, Forall (not_for 0) (qu_between k)) /\
  (forall k, sensible_news (STick 0 (qu_ws k)) /\ Forall sensible_news (qu_between k)) /\
  (forall k, served ex_flags sys_bus sys_config (STick 0 (qu_ws k)) /\ Forall (served ex_flags sys_bus sys_config) (qu_between k)) /\
  moderate (view_env (ap_after qu_evs) (wk_therm_files (qu_ws 0%nat)) (wk_therm_now (qu_ws 0%nat))) (ap_zone 0) /\
  steady ex_flags ex_sf ex_pow (ap_zone 0) 0 qu_ws qu_between (ap_after qu_evs) /\
  map (fun k => map fst (set_calls (qu_after k) "fan0")) [0; 2; 4; 6; 20]%nat =
    [[95]; [114; 95]; [127; 114; 95]; [127; 114; 95]; [127; 114; 95]]%Z.
Proof.
  assert (Fs : forall p, modest_file (sys_files p)).
  { intros p. cbn. destruct (String.eqb p "/sys/hwmon/temp0"); vm_compute; discriminate. }
  assert (Tk : forall i w, sensible_news (STick i (sys_wake w))).
  { intros i w. split; [exact Fs|]. split; [exact Fs|]. split; exact Logic.I. }
  assert (Sv : forall i w, served ex_flags sys_bus sys_config (STick i (sys_wake w))).
  { assert (Fk : files_ok sys_bus sys_config sys_files) by (intros n i p _ _ _; eexists; reflexivity).
    intros i w. split; [exact Fk|]. split; [exact Fk|]. intros X. discriminate X. }
  split. { apply Forall_cons; [|apply Forall_cons; [|apply Forall_nil]]; (split; [exact Fs|split; exact Logic.I]). }
  split. { apply ap_runs. vm_compute. reflexivity. }
  split. { apply Forall_cons; [exact Logic.I|]. apply Forall_cons; [apply Tk|apply Forall_nil]. }
  split.
  { split.
    - intros s0 R. rewrite (qu_unique [] s0 ltac:(vm_compute; reflexivity) R). qu_moderate.
    - intros before w after s E R. destruct before as [|e [|e' [|e'' r]]]; try discriminate E.
      injection E as <- <- <-. rewrite (qu_unique [host_up] s ltac:(vm_compute; reflexivity) R). qu_moderate. }
  split. { intros k. apply Forall_cons; [discriminate|apply Forall_nil]. }
  split. { intros k. split; [apply Tk|]. apply Forall_cons; [apply Tk|apply Forall_nil]. }
  split. { intros k. split; [apply Sv|]. apply Forall_cons; [apply Sv|apply Forall_nil]. }
  split; [qu_moderate|].
  split; [|vm_compute; reflexivity].
  generalize (ap_after qu_evs). intros s k sk H. cbv zeta.
  assert (V := ticks_view ex_flags ex_sf ex_pow (rounds 0 qu_ws qu_between k)).
  assert (T : Forall SystemProofs3.is_stick (rounds 0 qu_ws qu_between k)).
  { apply Forall_forall. intros e I. unfold rounds in I. apply in_flat_map in I. destruct I as (j & _ & [<-|[<-|[]]]); exact Logic.I. }
  assert (Q : forall names, same_view names (view_env s sys_files 2) (view_env sk sys_files 2)).
  { intros names m _. unfold found_bad. rewrite (V T s sk H). cbn [pe_now view_env]. split; [reflexivity|]. split; [reflexivity|]. reflexivity. }
  split; apply Q.
Qed.
