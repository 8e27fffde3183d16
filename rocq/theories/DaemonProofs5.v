(** * Proofs about the whole daemon (C92 to C94, when the daemon may be compiled with OFFLINE_FAILSAFE_PWM). *)
From Coq Require Import ZArith Bool List String Permutation Lia.
From Verif Require Import Base BaseFacts Dbl PidModel ZoneModel LoopModel BuilderModel SpecBuilder BuilderProofs BuilderRun ConfigModel
  SensorModel WriteModel SystemModel SpecSystem SpecZone ZoneFrame ZoneFan ZoneProofs LoopProofs SystemProofs SystemProofs2 SystemProofs3
  SystemProofs4 JsonModel SpecJson JsonProofs JsonSystemProofs DbusConfigModel SpecDbus DbusProofs4 SpecRange RangeProofs RangeSystem
  LogModel MainModel SpecMain MainProofs MainProofs2 ReloadModel SpecReload ReloadProofs StartModel SpecStart StartProofs DaemonModel SpecDaemon
  DaemonProofs DaemonProofs2 DaemonProofs3 DaemonProofs4.
Import ListNotations.
Local Open Scope string_scope.
Local Open Scope outcome_scope.

(** ** Destroying zones whose fans are on the bus *)

Definition on_bus (s : system) (n : string) : Prop := exists p d, wcoref s n = Some (WDbus p d).

Section Destroy.
Context (sf : sflags) (pow10 : Z -> dbl) (sb : sensor_bus) (config : smap SensorConfig) (base : smap Z)
  (zp : list (Z * PIDConf)) (confs : list (Z * ZoneConfig)).
Hypothesis (Su : sensible_setup sf pow10 sb config zp confs).
Notation good := (good pow10 sb config base).

Lemma bus_write_ok s n v z : good s -> on_bus s n -> unit_command v ->
  exists z', write_fan (sensors_write_env (sy_sensors s)) v None z n = Ok z'.
Proof.
  intros (G & _ & _) (p & d & W) U. unfold wcoref in W. destruct (mget n (sy_sensors s)) as [[t r w i|t i h]|] eqn:E; try discriminate W.
  destruct (G _ _ E) as (_ & _ & Gw). destruct w as [path dw|path pc mn mx|]; try discriminate W.
  unfold write_fan, sensors_write_env. rewrite E. cbn [option_map sensor_write].
  destruct (dbus_unit dw v (z_redundantWrite z) true (fan_device_usable _ _ _ _ _ _ Su _ _ _ _ Gw) U) as (raw & _ & ->). cbn [bind snd]. eexists. reflexivity.
Qed.

Lemma bus_writes_ok s v names : good s -> unit_command v -> (forall n, In n names -> on_bus s n) ->
  forall z, exists z', foldM (write_fan (sensors_write_env (sy_sensors s)) v None) names z = Ok z'.
Proof.
  intros G U. induction names as [|n r IH]; intros B z; cbn [foldM]; [eexists; reflexivity|].
  destruct (bus_write_ok s n v z G (B n (or_introl eq_refl)) U) as (z1 & ->). cbn [bind]. apply IH. intros m I. apply B. right. exact I.
Qed.

Lemma destroy_fans_ok f s fs : good s -> (forall c n, In (Some c) fs -> In n (fan_inputs c) -> on_bus s n) ->
  forall z, unit_command (ddiv (getFailSafePercent z) (D 100)) -> OFFLINE_FAILSAFE_PWM f = true ->
  exists z', foldM (fun z c => match c with Some c => fan_destroy f (sensors_write_env (sy_sensors s)) c z | None => Ok z end) fs z = Ok z'.
Proof.
  intros G. induction fs as [|c fs IH]; intros B z U O; cbn [foldM]; [eexists; reflexivity|].
  assert (B' : forall c n, In (Some c) fs -> In n (fan_inputs c) -> on_bus s n) by (intros c' n I; apply (B c' n (or_intror I))).
  destruct c as [c|]; [|cbn [bind]; apply IH; assumption].
  unfold fan_destroy at 1. rewrite O. cbn [negb].
  destruct (bus_writes_ok s _ (fan_inputs c) G U (fun n => B c n (or_introl eq_refl)) z) as (z1 & E). rewrite E. cbn [bind].
  apply IH; [exact B'| |exact O]. apply write_fans_spec in E. destruct E as (Fr & _). destruct (frame_percent _ _ Fr) as (-> & _). exact U.
Qed.

Lemma destroy_good f ok k s l : good s -> good_loop config l -> (OFFLINE_FAILSAFE_PWM f = true -> forall n, lists_fan l n -> on_bus s n) ->
  exists ks, destroy_zone f ok (k, s) l = Ok ks /\ good (snd ks).
Proof.
  intros G ((Fi & Ri & _) & _) B. unfold destroy_zone.
  assert (U : unit_command (ddiv (getFailSafePercent (l_zone l)) (D 100))) by (apply percent_fraction, failsafe_percent_ok; assumption).
  destruct (OFFLINE_FAILSAFE_PWM f) eqn:O.
  - destruct (destroy_fans_ok f s (z_fans (l_zone l)) G (fun c n I J => B eq_refl n (ex_intro _ c (conj I J))) (l_zone l) U O) as (z' & E). cbn [snd]. rewrite E. cbn [bind].
    apply (destroy_spec f _ _ O) in E. destruct E as (_ & evs & Ev & W). rewrite (new_writes_eq _ _ _ Ev), W.
    refine (good_writes sf pow10 sb config base zp confs Su ok _ _ k s G). intros n v b I. apply in_destroy_writes in I.
    destruct I as (_ & E & _). cbn in E. subst v. exact U.
  - assert (E : forall fs z, foldM (fun z c => match c with Some c => fan_destroy f (sensors_write_env (sy_sensors (snd (k, s)))) c z | None => Ok z end) fs z = Ok z).
    { induction fs as [|c fs IHf]; intros z; cbn [foldM]; [reflexivity|]. destruct c as [c|]; cbn [bind]; [unfold fan_destroy at 1; rewrite O; cbn [negb bind]|]; apply IHf. }
    rewrite E. cbn [bind]. unfold new_writes. rewrite Nat.sub_diag. cbn. eexists. split; [reflexivity|exact G].
Qed.

Lemma destroys_good f ok ls : forall ks, good (snd ks) -> Forall (good_loop config) ls ->
  (OFFLINE_FAILSAFE_PWM f = true -> forall l n, In l ls -> lists_fan l n -> on_bus (snd ks) n) ->
  exists ks', foldM (destroy_zone f ok) ls ks = Ok ks' /\ good (snd ks').
Proof.
  induction ls as [|l ls IH]; intros (k & s) G Gl B; cbn [foldM]; [eexists; split; [reflexivity|exact G]|].
  inversion Gl as [|? ? G1 G2]; subst.
  destruct (destroy_good f ok k s l G G1 (fun O n => B O l n (or_introl eq_refl))) as (ks1 & E & Gk). rewrite E. cbn [bind].
  apply IH; [exact Gk|exact G2|]. intros O x n I L. unfold on_bus. rewrite (destroy_wcoref _ _ _ _ _ _ E). exact (B O x n (or_intror I) L).
Qed.
End Destroy.

(** Without assumptions about the numbers. *)
Lemma on_bus_write_rob s n v z : on_bus s n -> rob (write_fan (sensors_write_env (sy_sensors s)) v None z n).
Proof.
  intros (p & d & W). unfold wcoref in W. destruct (mget n (sy_sensors s)) as [[t r w i|t i h]|] eqn:E; try discriminate W.
  destruct w as [path dw|path pc mn mx|]; try discriminate W.
  unfold write_fan, sensors_write_env. rewrite E. cbn [option_map sensor_write]. unfold dbus_write.
  destruct (to_int64 (dw_target dw v)) as [raw|]; [|right; reflexivity].
  destruct ((dw_oldValue dw =? raw)%Z && negb (z_redundantWrite z)); [left; eexists; reflexivity|].
  destruct (to_uint64 (dw_target dw v)); [left; eexists; reflexivity|right; reflexivity].
Qed.
Lemma rob_fold_in {A St : Type} (g : St -> A -> outcome St) l : (forall s a, In a l -> rob (g s a)) -> forall s, rob (foldM g l s).
Proof.
  induction l as [|a l IH]; intros H s; cbn [foldM]; [left; eexists; reflexivity|].
  destruct (H s a (or_introl eq_refl)) as [(s1 & ->)| ->]; cbn [bind]; [|right; reflexivity]. apply IH. intros s2 b I. apply H. right. exact I.
Qed.
Lemma destroy_rob f ok k s l : (OFFLINE_FAILSAFE_PWM f = true -> forall n, lists_fan l n -> on_bus s n) -> rob (destroy_zone f ok (k, s) l).
Proof.
  intros B. unfold destroy_zone. cbn [snd].
  assert (R : rob (foldM (fun z c => match c with Some c => fan_destroy f (sensors_write_env (sy_sensors s)) c z | None => Ok z end) (z_fans (l_zone l)) (l_zone l))).
  { apply rob_fold_in. intros z c I. destruct c as [c|]; [|left; eexists; reflexivity]. unfold fan_destroy. destruct (OFFLINE_FAILSAFE_PWM f) eqn:O; [|left; eexists; reflexivity].
    cbn [negb]. apply rob_fold_in. intros z' n J. apply on_bus_write_rob, (B eq_refl). exists c. auto. }
  destruct R as [(z & ->)| ->]; cbn [bind]; [|right; reflexivity]. apply rob_foldM. intros. apply apply_write_rob.
Qed.
Lemma destroys_rob f ok ls : forall ks, (OFFLINE_FAILSAFE_PWM f = true -> forall l n, In l ls -> lists_fan l n -> on_bus (snd ks) n) ->
  rob (foldM (destroy_zone f ok) ls ks).
Proof.
  induction ls as [|l ls IH]; intros (k & s) B; cbn [foldM]; [left; eexists; reflexivity|].
  destruct (destroy_rob f ok k s l (fun O n => B O l n (or_introl eq_refl))) as [(ks1 & E)|E]; rewrite E; cbn [bind]; [|right; reflexivity].
  apply IH. intros O x n I L. unfold on_bus. rewrite (destroy_wcoref _ _ _ _ _ _ E). exact (B O x n (or_intror I) L).
Qed.

(** ** The daemon *)

Section Offline2.
Context (f : flags) (sf : sflags) (pow10 : Z -> dbl) (re : regex) (named : string).
Notation step := (daemon_step f sf pow10 re named).
Notation run := (daemon_run f sf pow10 re named).
Notation running := (running f sf pow10 re named).
Notation calm := (SpecDaemon.calm f sf pow10 re named).

Lemma configured_bus sb config failures first devices zs evs s n info :
  runs f sf pow10 sb config failures first devices zs evs s -> In (n, info) config -> sc_type info = "fan" -> bus_out (sc_writePath info) -> on_bus s n.
Proof.
  intros [Nd Fr (m & s0 & B & St & R)] I Ty Bo.
  destruct (C60_lemma _ _ _ _ _ B Nd) as (A1 & _). destruct (A1 _ _ I (or_introl Ty)) as (x0 & E0 & _ & S0).
  apply start_rest in St. cbn in St. destruct St as (E1 & _). unfold on_bus. rewrite (run_wcoref _ _ _ _ n _ _ R). unfold wcoref. rewrite E1, E0.
  destruct x0 as [t r w i|t i h]; [|destruct S0; contradiction]. destruct S0 as (_ & _ & _ & _ & Wr).
  destruct w as [p d|p a b c|]; cbn in Wr.
  - cbn [wcore]. eauto.
  - destruct Wr as (_ & Wr & _). elim (bus_not_sysfs_out _ Bo Wr).
  - destruct Wr as [Wr|(_ & Wr)]; [contradiction|elim (Wr Bo)].
Qed.

Lemma running_bus F d0 evs d :
  Forall (no_accident f sf re named F) evs -> (OFFLINE_FAILSAFE_PWM f = true -> Forall (bus_fans sf re named) evs) -> running d0 evs d ->
  OFFLINE_FAILSAFE_PWM f = true -> forall l n, In l (sy_loops (dm_sys d)) -> lists_fan l n -> on_bus (dm_sys d) n.
Proof.
  intros Ev Bu Rn O l n I L. specialize (Bu O).
  destruct Rn as (pre & w0 & k0 & post & da & d2 & c & fl & first & devs & zs & rest & sevs & E & A1 & A2 & A3 & A4 & (A5 & A5') & A6 & A7 & A8 & A9).
  subst evs. apply Forall_app in Ev. destruct Ev as (_ & Ev). inversion Ev as [|? ? S0 _]; subst. destruct S0 as (S0 & _).
  destruct S0 as (_ & _ & Ld). destruct (Ld c A4) as (Sv & _ & _).
  apply Forall_app in Bu. destruct Bu as (_ & Bu). inversion Bu as [|? ? B0 _]; subst.
  destruct (listed_writable _ _ _ _ _ _ _ _ _ _ _ _ (built_some _ _ _ _ _ A5) Sv _ _ _ _ A8 I L) as (info & Ii & Ty).
  exact (configured_bus _ _ _ _ _ _ _ _ _ _ A8 Ii Ty (B0 w0 k0 c n info eq_refl A4 Ii Ty)).
Qed.

(** What a running daemon is like. *)
Lemma running_good F d0 evs d :
  Forall (no_accident f sf re named F) evs -> Forall (sensible sf pow10 re named) evs ->
  (OFFLINE_FAILSAFE_PWM f = true -> Forall (bus_fans sf re named) evs) -> running d0 evs d ->
  exists w0 k0 c, In (DRun w0 k0) evs /\ read_configuration sf re named (su_disk w0) (su_config w0) = Ok (Loaded c) /\
    sensible_setup sf pow10 (su_sensors w0) (l_sensors c) (l_pids c) (l_zones c) /\
    good pow10 (su_sensors w0) (l_sensors c) (sy_devices (dm_sys d)) (dm_sys d) /\
    (OFFLINE_FAILSAFE_PWM f = true -> forall l n, In l (sy_loops (dm_sys d)) -> lists_fan l n -> on_bus (dm_sys d) n).
Proof.
  intros Ev Se Bu Rn. pose proof (running_bus F _ _ _ Ev Bu Rn) as On.
  destruct Rn as (pre & w0 & k0 & post & da & d2 & c & fl & first & devs & zs & rest & sevs & E & A1 & A2 & A3 & A4 & (A5 & A5') & A6 & A7 & A8 & A9 & A10 & A11 & _).
  exists w0, k0, c. split; [subst evs; apply in_or_app; right; left; reflexivity|]. split; [exact A4|].
  subst evs. apply Forall_app in Ev. destruct Ev as (_ & Ev). inversion Ev as [|? ? S0 _]; subst. destruct S0 as (S0 & _).
  apply Forall_app in Se. destruct Se as (_ & Se). inversion Se as [|? ? S1 Sp]; subst. destruct S1 as (_ & S1).
  destruct S0 as (_ & _ & Ld). destruct (Ld c A4) as (Sv & _ & Fs). destruct (S1 c A4) as (Su & Sb).
  assert (Su' : sensible_setup sf pow10 (seen (dm_exports da) (su_sensors w0)) (l_sensors c) (l_pids c) (l_zones c)) by (destruct Su; constructor; assumption).
  assert (Sb' : Forall (fun e => sensible_begin (fst e)) zs).
  { rewrite Forall_forall in *. intros e I. rewrite (A5' e) by (apply in_or_app; left; exact I). apply Sb. }
  destruct (good_runs f sf pow10 _ _ _ _ _ _ _ _ _ (read_sensors _ _ _ _ _ _ A4) (built_some _ _ _ _ _ A5) Sv Su' Sb' _ _ A8 (passed_news _ _ _ _ _ _ _ _ _ A7 Sp)) as (G1 & _ & G3).
  split; [exact Su|]. split.
  - split; [exact G1|]. split; [|exact G3]. intros path v M. left. exact M.
  - exact On.
Qed.

Definition in_range_of (evs : list daemon_ev) (before after : smap Z) : Prop :=
  before = after \/ exists w0 k0 c, In (DRun w0 k0) evs /\ read_configuration sf re named (su_disk w0) (su_config w0) = Ok (Loaded c) /\
    devices_in_range (su_sensors w0) (l_sensors c) before after.

Lemma clear_good F d0 evs d ok m :
  Forall (no_accident f sf re named F) evs -> Forall (sensible sf pow10 re named) evs ->
  (OFFLINE_FAILSAFE_PWM f = true -> Forall (bus_fans sf re named) evs) ->
  dm_ids d = [] /\ sy_loops (dm_sys d) = [] \/ running d0 evs d ->
  exists d', clear_zones f ok m d = Ok d' /\ in_range_of evs (sy_devices (dm_sys d)) (sy_devices (dm_sys d')).
Proof.
  intros Ev Se Bu Rn. unfold clear_zones. cbv zeta. destruct Rn as [(-> & ->)|Rn].
  - cbn [combine filter map foldM bind]. eexists. split; [reflexivity|]. left. reflexivity.
  - destruct (running_good F _ _ _ Ev Se Bu Rn) as (w0 & k0 & c & I & A & Su & G & B).
    assert (In1 : forall x, In x (map snd (filter (fun y : inst * loop => negb (handled m (fst y))) (combine (dm_ids d) (sy_loops (dm_sys d))))) -> In x (sy_loops (dm_sys d))).
    { intros x J. apply in_map_iff in J. destruct J as ((i & l) & <- & J). apply filter_In in J. destruct J as (J & _). exact (in_combine_r _ _ _ _ J). }
    destruct (destroys_good sf pow10 (su_sensors w0) (l_sensors c) (sy_devices (dm_sys d)) (l_pids c) (l_zones c) Su f ok
      (map snd (filter (fun y : inst * loop => negb (handled m (fst y))) (combine (dm_ids d) (sy_loops (dm_sys d))))) (0%nat, dm_sys d) G) as (ks & E & Gk).
    + destruct G as (_ & _ & Gl). rewrite Forall_forall in *. intros x J. apply Gl, In1, J.
    + intros O l n J. exact (B O l n (In1 _ J)).
    + rewrite E. cbn [bind]. eexists. split; [reflexivity|]. right. exists w0, k0, c. split; [exact I|]. split; [exact A|].
      cbn [dm_sys sy_devices set_loops]. apply Gk.
Qed.

Lemma tick_good F d0 evs d w k n s :
  Forall (no_accident f sf re named F) evs -> Forall (sensible sf pow10 re named) evs ->
  (OFFLINE_FAILSAFE_PWM f = true -> Forall (bus_fans sf re named) evs) -> running d0 evs d ->
  sensible sf pow10 re named (DRun w k) -> sys_tick f n k (dm_sys d) = Ok s ->
  in_range_of evs (sy_devices (dm_sys d)) (sy_devices s).
Proof.
  intros Ev Se Bu Rn (Sw & _) T. destruct (running_good F _ _ _ Ev Se Bu Rn) as (w0 & k0 & c & I & A & Su & G & _).
  right. exists w0, k0, c. split; [exact I|]. split; [exact A|].
  destruct (good_keep f sf pow10 (su_sensors w0) (l_sensors c) (sy_devices (dm_sys d)) (l_pids c) (l_zones c) Su (dm_sys d) (STick n k) s G Sw T) as (_ & D & _).
  exact D.
Qed.

Lemma held_step evs e before mid after : held_in_range sf re named evs before mid -> in_range_of evs mid after ->
  held_in_range sf re named (evs ++ [e]) before after.
Proof.
  intros H [ <- |(w0 & k0 & c & I & A & D)]; [apply held_more, H|]. intros path v M. destruct (D path v M) as [B|(name & info & J & Ty & Dv & Ir)].
  - exact (held_more _ _ _ _ [e] _ _ H path v B).
  - right. exists w0, k0, c, name, info. split; [apply in_or_app; left; exact I|]. auto.
Qed.

Lemma step_in_range F b d0 evs d e d1 :
  Forall (no_accident f sf re named F) evs -> Forall (sensible sf pow10 re named) evs ->
  (OFFLINE_FAILSAFE_PWM f = true -> Forall (bus_fans sf re named) evs) ->
  sensible sf pow10 re named e -> life f sf pow10 re named b d0 evs d -> step d e = Ok d1 ->
  in_range_of evs (sy_devices (dm_sys d)) (sy_devices (dm_sys d1)).
Proof.
  intros Ev Se Bu Ns Lf H. destruct (m_stopped (dm_main d)) eqn:St; [unfold daemon_step in H; rewrite St in H; injection H as <-; left; reflexivity|].
  pose proof (lf_runs _ _ _ _ _ _ _ _ _ Lf St) as Rn.
  pose proof (step_kind _ _ _ _ _ _ _ _ St H) as K.
  destruct K as [e d1 l N1 N2 Om Te E1 E2|x s M E|x M|w k i n s Nx Ix T|w k i Nx Ix|w k i n m Nx Ix T|w k r m d' bd ex s bus R S C E|w k o r m R A S C|w k r m d' R S C];
    try (left; reflexivity).
  - left. rewrite E1. reflexivity.
  - left. symmetry. exact (message_devices _ _ _ _ _ _ M E).
  - destruct Rn as [(Nl & _)|Rn]; [rewrite Nl in Ix; discriminate Ix|]. exact (tick_good F _ _ _ w k n s Ev Se Bu Rn Ns T).
  - apply restart_left in E. destruct E as (_ & E). cbn [dm_sys]. rewrite E.
    destruct (clear_good F _ _ _ (wk_write_ok k) m Ev Se Bu Rn) as (d2 & C2 & D2). rewrite C in C2. injection C2 as <-. exact D2.
  - destruct (clear_good F _ _ _ (wk_write_ok k) m Ev Se Bu Rn) as (d2 & C2 & D2). rewrite C in C2. injection C2 as <-. exact D2.
Qed.

Lemma C93_full_lemma F first devices evs :
  Forall (no_accident f sf re named F) evs -> Forall (sensible sf pow10 re named) evs ->
  (OFFLINE_FAILSAFE_PWM f = true -> Forall (bus_fans sf re named) evs) -> calm evs (daemon_init first devices) ->
  exists d, run evs (daemon_init first devices) = Ok d /\ held_in_range sf re named evs devices (sy_devices (dm_sys d)).
Proof.
  intros Ev Se Bu C.
  assert (Q : exists b, throughout f sf pow10 re named (quiet b) evs (daemon_init first devices)).
  { destruct C as [C|C]; [exists true|exists false]; exact C. }
  destruct Q as (b & Th). clear C. revert Ev Se Bu Th. induction evs as [|e evs IH] using rev_ind; intros Ev Se Bu Th.
  { eexists. split; [reflexivity|]. intros path v M. left. exact M. }
  apply Forall_app in Ev. destruct Ev as (Ev & Ee). inversion Ee as [|? ? Ne _]; subst.
  apply Forall_app in Se. destruct Se as (Se & Es). inversion Es as [|? ? Ns _]; subst.
  assert (Bu' : OFFLINE_FAILSAFE_PWM f = true -> Forall (bus_fans sf re named) evs) by (intros O; specialize (Bu O); apply Forall_app in Bu; apply Bu).
  unfold daemon_run in *. rewrite foldM_app. pose proof (throughout_prefix _ _ _ _ _ _ _ _ _ Th) as Th0.
  destruct (IH Ev Se Bu' Th0) as (d & Hd & Hh); rewrite Hd; cbn [bind foldM].
  assert (Or : Forall ordered evs).
  { clear - Ev. eapply Forall_impl; [|exact Ev]. intros e H w k ->. apply H. }
  pose proof (life_run _ _ _ _ _ _ _ _ _ _ Or Th0 Hd) as Lf.
  destruct (m_stopped (dm_main d)) eqn:St.
  { unfold daemon_step. rewrite St. cbn [bind]. exists d. split; [reflexivity|]. apply held_more, Hh. }
  assert (Cl : forall ok m, exists d', clear_zones f ok m d = Ok d').
  { intros ok m. destruct (clear_good F _ _ _ ok m Ev Se Bu' (lf_runs _ _ _ _ _ _ _ _ _ Lf St)) as (d' & E & _). eauto. }
  destruct (step_cases _ _ _ _ _ F _ _ _ _ e (fun _ ok m => or_introl (Cl ok m)) Ne Lf) as [(d1 & H1)|[(_ & ok & m & _ & H1)|(w & k & i & n & m & -> & _ & Ix & T & E)]].
  - rewrite H1. cbn [bind]. exists d1. split; [reflexivity|]. exact (held_step _ _ _ _ _ Hh (step_in_range F _ _ _ _ _ _ Ev Se Bu' Ns Lf H1)).
  - exfalso. destruct (Cl ok m) as (d' & H2). congruence.
  - exfalso. destruct (lf_runs _ _ _ _ _ _ _ _ _ Lf St) as [(Nl & _)|Rn]; [rewrite Nl in Ix; discriminate Ix|].
    destruct (running_sensible _ _ _ _ _ F _ _ _ w k n Ev Se Rn Ne Ns) as (s & Q). congruence.
Qed.

Lemma handled_in m ids (loops : list loop) x :
  In x (map snd (filter (fun y : inst * loop => negb (handled m (fst y))) (combine ids loops))) -> In x loops.
Proof.
  intros J. apply in_map_iff in J. destruct J as ((i & l) & <- & J). apply filter_In in J. destruct J as (J & _). exact (in_combine_r _ _ _ _ J).
Qed.

Lemma life_clears F first devices evs :
  (OFFLINE_FAILSAFE_PWM f = true -> Forall (bus_fans sf re named) evs) ->
  Forall (no_accident f sf re named F) evs -> calm evs (daemon_init first devices) ->
  throughout f sf pow10 re named (clears f) evs (daemon_init first devices).
Proof.
  intros Bu Ev C.
  assert (Q : exists b, throughout f sf pow10 re named (quiet b) evs (daemon_init first devices)).
  { destruct C as [C|C]; [exists true|exists false]; exact C. }
  destruct Q as (b & Th). clear C. intros pre post d E R St ok m. subst evs.
  apply Forall_app in Ev. destruct Ev as (Ev & _).
  assert (Bu' : OFFLINE_FAILSAFE_PWM f = true -> Forall (bus_fans sf re named) pre) by (intros O; specialize (Bu O); apply Forall_app in Bu; apply Bu).
  assert (Or : Forall ordered pre).
  { clear - Ev. eapply Forall_impl; [|exact Ev]. intros e H w k ->. apply H. }
  assert (Th0 : throughout f sf pow10 re named (quiet b) pre (daemon_init first devices)).
  { intros p q d' -> R'. apply (Th p (q ++ post)%list d'); [rewrite app_assoc; reflexivity|exact R']. }
  pose proof (life_run _ _ _ _ _ _ _ _ _ _ Or Th0 R) as Lf.
  unfold clear_zones. cbv zeta.
  assert (Rb : rob (foldM (destroy_zone f ok) (map snd (filter (fun y : inst * loop => negb (handled m (fst y))) (combine (dm_ids d) (sy_loops (dm_sys d))))) (0%nat, dm_sys d))).
  { apply destroys_rob. intros O l n I. apply handled_in in I.
    destruct (lf_runs _ _ _ _ _ _ _ _ _ Lf St) as [(_ & Nl)|Rn]; [rewrite Nl in I; destruct I|]. exact (running_bus F _ _ _ Ev Bu' Rn O l n I). }
  destruct Rb as [(ks & ->)| ->]; cbn [bind]; [left; eexists; reflexivity|right; reflexivity].
Qed.

Lemma C92_lemma F first devices evs :
  (OFFLINE_FAILSAFE_PWM f = true -> Forall (bus_fans sf re named) evs) ->
  Forall (no_accident f sf re named F) evs -> calm evs (daemon_init first devices) ->
  returns_or_bad_command (run evs (daemon_init first devices)).
Proof. intros Bu Ev C. exact (C92_from _ _ _ _ _ F first devices evs (life_clears F first devices evs Bu Ev C) Ev C). Qed.

Lemma C92_end_lemma F first devices evs d :
  (OFFLINE_FAILSAFE_PWM f = true -> Forall (bus_fans sf re named) evs) ->
  Forall (no_accident f sf re named F) evs -> calm evs (daemon_init first devices) ->
  run evs (daemon_init first devices) = Ok d -> ended (dm_reload d) ->
  In (DMove VTerm) evs \/ exists w k, In (DRun w k) evs /\ hopeless sf re named w.
Proof. intros Bu Ev C. exact (C92_end_from _ _ _ _ _ F first devices evs d (life_clears F first devices evs Bu Ev C) Ev C). Qed.

Lemma C94_resumes_lemma first devices evs d w k c :
  stops_well f sf pow10 re named evs -> Forall ordered evs -> calm evs (daemon_init first devices) ->
  run evs (daemon_init first devices) = Ok d -> going d -> next_is (ORestart false) d ->
  read_configuration sf re named (su_disk w) (su_config w) = Ok (Loaded c) -> usable_configuration f sf pow10 w c ->
  new_objects sf re named c evs ->
  exists d1, step d (DRun w k) = Ok d1 /\ m_stopped (dm_main d1) = false /\
    (~ no_loop_handler d /\ dm_ids d1 = dm_ids d /\ m_rtimer (dm_main d1) = true \/
     Permutation (map fst (dm_ids d1)) (map fst (l_pids c)) /\ live (dm_main d1) = dm_ids d1 /\
     List.length (sy_loops (dm_sys d1)) = List.length (dm_ids d1)).
Proof.
  intros Sw Or C H. eapply C94_resumes_from; eauto. intros St ok m.
  destruct (OFFLINE_FAILSAFE_PWM f) eqn:O; [|apply clear_ok, O]. destruct (Sw O) as (Bu & Se & F & Ev).
  assert (L : exists b, life f sf pow10 re named b (daemon_init first devices) evs d).
  { destruct C as [C|C]; [exists true|exists false]; apply life_run; assumption. }
  destruct L as (b & Lf). destruct (clear_good F _ _ _ ok m Ev Se (fun _ => Bu) (lf_runs _ _ _ _ _ _ _ _ _ Lf St)) as (d' & E & _). eauto.
Qed.

Lemma C93_life_lemma F first devices evs :
  (OFFLINE_FAILSAFE_PWM f = true -> Forall (bus_fans sf re named) evs) ->
  Forall (no_accident f sf re named F) evs -> Forall (sensible sf pow10 re named) evs -> calm evs (daemon_init first devices) ->
  exists d, run evs (daemon_init first devices) = Ok d.
Proof. intros Bu Ev Se C. destruct (C93_full_lemma F first devices evs Ev Se Bu C) as (d & H & _). eauto. Qed.

Lemma C93_range_lemma F first devices evs d :
  (OFFLINE_FAILSAFE_PWM f = true -> Forall (bus_fans sf re named) evs) ->
  Forall (no_accident f sf re named F) evs -> Forall (sensible sf pow10 re named) evs -> calm evs (daemon_init first devices) ->
  run evs (daemon_init first devices) = Ok d -> held_in_range sf re named evs devices (sy_devices (dm_sys d)).
Proof. intros Bu Ev Se C H. destruct (C93_full_lemma F first devices evs Ev Se Bu C) as (d' & H' & R). rewrite H in H'. injection H' as <-. exact R. Qed.
End Offline2.
