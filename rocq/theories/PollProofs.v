(** * What a wake-up polls (C61; proofs only). *)
From Coq Require Import ZArith Bool List String Lia.
From Verif Require Import Base BaseFacts Dbl PidModel ZoneModel LoopModel SpecZone ZoneFrame
  ZoneThermal ZoneFan ZoneProofs LoopProofs ReactionProofs ConfigModel SensorModel WriteModel
  SystemModel SpecSystem SystemProofs SystemProofs2.
Import ListNotations.
Local Open Scope string_scope.
Local Open Scope list_scope.

(** Polls in a list of events (newest first), oldest first. *)
Definition polls (tr : list event) : list (string * Z * option sensor_view) :=
  flat_map (fun e => match e with EvRead n t v => [(n, t, Some v)] | _ => [] end) (rev tr).
Definition polled (env : poll_env) (l : list string) : list (string * Z * option sensor_view) :=
  map (fun n => (n, pe_now env, pe_sensor env n)) l.

Lemma polls_app a b : polls (a ++ b) = polls b ++ polls a.
Proof. unfold polls. rewrite rev_app_distr, flat_map_app. reflexivity. Qed.
Lemma polls_none evs : (forall n t v, ~ In (EvRead n t v) evs) -> polls evs = [].
Proof.
  intros H. unfold polls. assert (K : forall n t v, ~ In (EvRead n t v) (rev evs))
    by (intros n t v I; apply in_rev in I; exact (H n t v I)).
  clear H. induction (rev evs) as [|e r IH]; [reflexivity|]. cbn [flat_map]. rewrite IH.
  - destruct e; try reflexivity. exfalso. eapply K. left. reflexivity.
  - intros n t v I. eapply K. right. exact I.
Qed.
Lemma plain_polls evs : all_plain evs -> polls evs = [].
Proof. intros P. apply polls_none. intros n t v I. apply P in I. discriminate. Qed.
Lemma no_reads_polls evs : reads_in evs = [] -> polls evs = [].
Proof.
  intros R. apply polls_none. intros n t v I. unfold reads_in in R. apply in_rev in I.
  assert (J : In n (flat_map (fun e => match e with EvRead n _ _ => [n] | _ => [] end) (rev evs)))
    by (apply in_flat_map; eexists; split; [exact I|left; reflexivity]).
  rewrite R in J. exact J.
Qed.

Lemma polls_inputs f b env l : forall z z', processSensorInputs f b env l z = Ok z' ->
  polls (z_trace z') = polls (z_trace z) ++ polled env l.
Proof.
  unfold processSensorInputs. induction l as [|n r IH]; intros z z' H; cbn [foldM] in H.
  - injection H as <-. unfold polled. cbn [map]. rewrite app_nil_r. reflexivity.
  - apply bind_ok in H. destruct H as (z1 & H1 & H2). rewrite (IH _ _ H2).
    apply poll_one in H1. destruct H1 as (v & Ev & [_ _ _ _ _ _ _ (evs & P & ->)]).
    rewrite polls_app, (plain_polls _ P), app_nil_r.
    change (EvRead n (pe_now env) v :: z_trace z) with ([EvRead n (pe_now env) v] ++ z_trace z).
    rewrite polls_app, <- app_assoc. unfold polled. cbn [map]. rewrite Ev. reflexivity.
Qed.

Lemma tick_polls f e l l' evs :
  loop_step f l (LTick e) = Ok l' -> z_manualMode (l_zone l) = false ->
  new_events (l_zone l) (l_zone l') evs ->
  polls evs = polled (tk_fan e) (z_fanInputs (l_zone l)) ++
    (if Nat.eqb (thermal_cycles_in evs) 0 then [] else polled (tk_therm e) (z_thermalInputs (l_zone l))).
Proof.
  intros H A Ev. destruct (tick_step _ _ _ _ H A) as (z1 & z2 & evs' & At & T).
  assert (evs = evs') by (eapply new_events_unique; [exact Ev|apply (tf_trace _ _ _ _ _ _ T)]). subst evs'.
  apply (app_inv_head (polls (z_trace (l_zone l)))). rewrite <- polls_app.
  unfold new_events in Ev. rewrite <- Ev. rewrite (tf_cycles _ _ _ _ _ _ T).
  destruct At as [_ Hf Ht (z3 & P & Z) _ _].
  assert (P1 : polls (z_trace z1) = polls (z_trace (l_zone l)) ++ polled (tk_fan e) (z_fanInputs (l_zone l)) /\
               z_thermalInputs z1 = z_thermalInputs (l_zone l)).
  { assert (C1 : conf z1 = conf (l_zone l)) by (apply updateFanTelemetry_spec in Hf; apply Hf).
    split; [|use_conf C1; reflexivity]. clear C1.
    unfold updateFanTelemetry in Hf. apply bind_ok in Hf. destruct Hf as (y & H1 & H2). injection H2 as <-.
    match goal with |- polls (z_trace (log_tokens f ?ts y)) = _ =>
      rewrite (qs_tr _ _ _ (quiet_log f ts y)) end. cbn [app].
    match type of H1 with processSensorInputs f true _ (z_fanInputs ?y0) _ = _ =>
      assert (Q : quiet_step (l_zone l) y0 []) by apply quiet_log end.
    rewrite (polls_inputs _ _ _ _ _ _ H1). destruct Q as [C _ _ _ _ _ _ Tq]. rewrite Tq. cbn [app].
    f_equal. f_equal. use_conf C. reflexivity. }
  destruct P1 as (P1 & Ti).
  assert (P2 : polls (z_trace z2) = polls (z_trace z1) ++
    (if (z_updateThermalsTimeMS (l_zone l) <=? l_cycleCnt l)%Z
     then polled (tk_therm e) (z_thermalInputs (l_zone l)) else [])).
  { destruct (z_updateThermalsTimeMS (l_zone l) <=? l_cycleCnt l)%Z; [|subst z2; rewrite app_nil_r; reflexivity].
    apply thermal_cycle_split in Ht. destruct Ht as (y1 & y2 & H1 & F & _ & _ & _ & H4).
    apply determine_frame in H4. destruct H4 as ((ev2 & Pl & T2) & _).
    destruct F as [_ _ _ _ _ Ft _ _ _ _ _]. change (z_trace y2 = z_trace y1) in Ft.
    rewrite T2, polls_app, (plain_polls _ Pl), app_nil_r, Ft.
    unfold updateSensors in H1. rewrite (polls_inputs _ _ _ _ _ _ H1).
    change (z_thermalInputs (emit EvThermalCycle z1)) with (z_thermalInputs z1). rewrite Ti. f_equal.
    change (z_trace (emit EvThermalCycle z1)) with ([EvThermalCycle] ++ z_trace z1).
    rewrite polls_app. cbn. apply app_nil_r. }
  rewrite Z. match goal with |- polls (z_trace (log_tokens f ?ts z3)) = _ =>
    rewrite (qs_tr _ _ _ (quiet_log f ts z3)) end. cbn [app].
  apply processFans_spec in P. destruct P as (_ & _ & _ & _ & _ & _ & _ & _ & _ & _ & ev3 & T3 & _ & R3 & _).
  rewrite T3, polls_app, (no_reads_polls _ R3), app_nil_r, P2, P1, <- app_assoc. f_equal. f_equal.
  destruct (z_updateThermalsTimeMS (l_zone l) <=? l_cycleCnt l)%Z; reflexivity.
Qed.

Lemma C61_polls_lemma f sf pow10 s i w s' l l' new :
  sys_step f sf pow10 s (STick i w) = Ok s' ->
  nth_error (sy_loops s) i = Some l -> nth_error (sy_loops s') i = Some l' ->
  z_manualMode (l_zone l) = false -> new_events (l_zone l) (l_zone l') new ->
  flat_map (fun e => match e with EvRead n t v => [(n, t, Some v)] | _ => [] end) (rev new) =
    map (fun n => (n, wk_fan_now w, pe_sensor (view_env s (wk_fan_files w) (wk_fan_now w)) n))
      (z_fanInputs (l_zone l)) ++
    (if Nat.eqb (thermal_cycles_in new) 0 then [] else
     map (fun n => (n, wk_therm_now w, pe_sensor (view_env s (wk_therm_files w) (wk_therm_now w)) n))
      (z_thermalInputs (l_zone l))).
Proof.
  intros H El El' A Nw. cbn [sys_step] in H. apply tick_split in H.
  destruct H as [(E & _)|(l1 & l2 & ls & k' & E1 & H & E2 & _ & _ & E3)]; [congruence|].
  rewrite El in E1. injection E1 as <-. rewrite E3, E2 in El'. injection El' as ->.
  exact (tick_polls _ _ _ _ _ H A Nw).
Qed.

(** ** Sensors that cannot be read *)
Lemma mute_core sf pow10 name evs t w i y :
  foldM (core_after sf pow10 name) evs (Pluggable t RWriteOnly w i) = Ok y -> y = Pluggable t RWriteOnly w i.
Proof.
  revert y. induction evs as [|e r IH]; intros y H; cbn [foldM] in H; [injection H as <-; reflexivity|].
  apply bind_ok in H. destruct H as (x & H1 & H2).
  assert (x = Pluggable t RWriteOnly w i) as -> by (destruct e; cbn in H1; try (injection H1 as <-; reflexivity);
    destruct (String.eqb _ _); injection H1 as <-; reflexivity).
  apply IH. exact H2.
Qed.

Lemma poll_check_bad s files now name m : forall names,
  mget name (sy_sensors s) = Some m ->
  sensor_poll (sy_failures s) (sy_power s) files now m = Throw "Not supported." -> In name names ->
  (forall u, poll_check s files now names <> Ok u) /\
  (forall r, names = name :: r -> poll_check s files now names = Throw "Not supported.").
Proof.
  intros names E P. unfold poll_check. induction names as [|n r IH]; [intros []|]. intros I. split.
  - intros u H. cbn [foldM] in H. apply bind_ok in H. destruct H as ([] & H1 & H2).
    destruct (String.eqb_spec n name) as [->|N].
    + rewrite E, P in H1. discriminate.
    + destruct I as [I|I]; [contradiction|]. destruct (IH I) as (K & _). exact (K _ H2).
  - intros r' X. injection X as -> _. cbn [foldM]. rewrite E, P. reflexivity.
Qed.

Lemma C61_unreadable_lemma f sf pow10 sb config failures first devices zs evs s name info i w l :
  runs f sf pow10 sb config failures first devices zs evs s ->
  In (name, info) config -> known_type (sc_type info) ->
  ~ external_path (sc_readPath info) -> ~ bus_path (sc_readPath info) -> ~ sysfs_path (sc_readPath info) ->
  nth_error (sy_loops s) i = Some l -> z_manualMode (l_zone l) = false -> In name (z_fanInputs (l_zone l)) ->
  (forall s', sys_step f sf pow10 s (STick i w) <> Ok s') /\
  (forall r, z_fanInputs (l_zone l) = name :: r -> sys_step f sf pow10 s (STick i w) = Throw "Not supported.").
Proof.
  intros R I K Ne Nb Ns El M In'.
  destruct (runs_sensor _ _ _ _ _ _ _ _ _ _ _ _ _ R I K) as (x0 & x & S0 & Ex & C & _).
  destruct S0 as (_ & S0). destruct x0 as [t rd w0 i0|t i0 h]; [|tauto].
  destruct S0 as (_ & _ & _ & Rd & _). destruct rd as [p0 red|q| |]; cbn in Rd; try tauto.
  cbn [core] in C. apply mute_core in C.
  destruct x as [t' r' w' i'|t' i' h']; cbn in C; [|discriminate]. injection C as _ -> _ _.
  destruct (poll_check_bad s (wk_fan_files w) (wk_fan_now w) _ _ _ Ex eq_refl In') as (A & B).
  cbn [sys_step]. unfold sys_tick. rewrite El, M. split.
  - intros s' H. apply bind_ok in H. destruct H as ([] & H & _). apply bind_ok in H. destruct H as ([] & H & _).
    exact (A _ H).
  - intros r X. rewrite (B r X). reflexivity.
Qed.
