(** * Proofs about the whole daemon (C93, C94). *)
From Coq Require Import ZArith Bool List String Permutation Lia.
From Verif Require Import Base BaseFacts Dbl PidModel ZoneModel LoopModel BuilderModel SpecBuilder BuilderProofs BuilderRun ConfigModel
  SensorModel WriteModel SystemModel SpecSystem SpecZone ZoneFrame ZoneProofs SystemProofs SystemProofs2 SystemProofs3
  SystemProofs4 JsonModel SpecJson JsonProofs JsonSystemProofs DbusConfigModel SpecDbus DbusProofs4 SpecRange RangeSystem
  LogModel MainModel SpecMain MainProofs MainProofs2 ReloadModel SpecReload ReloadProofs StartModel SpecStart StartProofs DaemonModel SpecDaemon
  DaemonProofs DaemonProofs2.
Import ListNotations.
Local Open Scope string_scope.
Local Open Scope outcome_scope.

Section Sensible.
Context (f : flags) (sf : sflags) (pow10 : Z -> dbl) (re : regex) (named : string).
Notation step := (daemon_step f sf pow10 re named).
Notation run := (daemon_run f sf pow10 re named).
Notation running := (running f sf pow10 re named).
Notation calm := (SpecDaemon.calm f sf pow10 re named).

(** ** Nothing fails (C93) *)

Lemma passed_news d evs l d' : passes_on f sf pow10 re named d evs l d' -> Forall (sensible sf pow10 re named) evs -> Forall sensible_news l.
Proof.
  induction 1 as [d|d e d1 evs l d2 M E _ IH|d w k i z d1 evs l d2 Nx Nt E _ IH|d e d1 evs l d2 N1 N2 E _ IH]; intros H; [constructor| | |];
    inversion H as [|? ? H1 H2]; subst; [constructor; [exact H1|apply IH, H2]| |apply IH, H2].
  constructor; [|apply IH, H2]. exact (proj1 H1).
Qed.

(** What C80 needs. *)
Lemma running_sensible F d0 evs d w k n :
  Forall (no_accident f sf re named F) evs -> Forall (sensible sf pow10 re named) evs -> running d0 evs d ->
  no_accident f sf re named F (DRun w k) -> sensible sf pow10 re named (DRun w k) ->
  exists s, sys_tick f n k (dm_sys d) = Ok s.
Proof.
  intros Ev Se Rn (_ & Wk) (Sw & _).
  destruct Rn as (pre & w0 & k0 & post & da & d2 & c & fl & first & devs & zs & rest & sevs & E & A1 & A2 & A3 & A4 & (A5 & A5') & A6 & A7 & A8 & A9).
  subst evs. apply Forall_app in Ev. destruct Ev as (_ & Ev). inversion Ev as [|? ? S0 _]; subst. destruct S0 as (S0 & _).
  apply Forall_app in Se. destruct Se as (_ & Se). inversion Se as [|? ? S1 Sp]; subst. destruct S1 as (_ & S1).
  destruct S0 as (_ & _ & Ld). destruct (Ld c A4) as (Sv & _ & Fs). destruct Wk as (W1 & W2 & W3). destruct (S1 c A4) as (Su & Sb).
  assert (Sd : served f (seen (dm_exports da) (su_sensors w0)) (l_sensors c) (STick n k)).
  { split; [|split; [|exact W3]]; intros n' info p J Sp' Rs; [apply W1|apply W2]; eapply Fs; eauto. }
  assert (Su' : sensible_setup sf pow10 (seen (dm_exports da) (su_sensors w0)) (l_sensors c) (l_pids c) (l_zones c)) by (destruct Su; constructor; assumption).
  assert (Sb' : Forall (fun e => sensible_begin (fst e)) zs).
  { rewrite Forall_forall in *. intros e I. rewrite (A5' e) by (apply in_or_app; left; exact I). apply Sb. }
  destruct (C80_some f sf pow10 _ _ _ _ _ _ _ _ _ (read_sensors _ _ _ _ _ _ A4) (built_some _ _ _ _ _ A5) Sv Su' Sb' _ _ [STick n k] A8 (passed_news _ _ _ _ A7 Sp))
    as (s & Hs); [constructor; [exact Sd|constructor]|constructor; [exact Sw|constructor]|].
  cbn in Hs. apply bind_ok in Hs. destruct Hs as (s' & Hs & _). exists s'. exact Hs.
Qed.

Lemma held_more evs more before after : held_in_range sf re named evs before after -> held_in_range sf re named (evs ++ more) before after.
Proof.
  intros H path v M. destruct (H path v M) as [A|(w & k & c & name & info & I & R)]; [left; exact A|right].
  exists w, k, c, name, info. split; [apply in_or_app; left; exact I|exact R].
Qed.

(** ** External sensors and reloads (C94) *)

Lemma busy_path sb config p : In p (exports config) -> sb_free sb p = false -> buildSensors sf pow10 sb config = Throw "sd_bus_add_object_vtable".
Proof.
  intros I N. unfold buildSensors. assert (E : can_register (sb_free sb) (exports config) = false).
  { revert I. generalize (exports config). induction l as [|x l IH]; intros []; cbn.
    - subst x. rewrite N. reflexivity.
    - rewrite IH by assumption. apply andb_false_r. }
  rewrite E. reflexivity.
Qed.

Lemma restart_stuck p w old s b ex s0 :
  In p old -> (forall c, read_configuration sf re named (su_disk w) (su_config w) = Ok (Loaded c) -> In p (exports (l_sensors c))) ->
  restart f sf pow10 re named w old s = Ok (b, (ex, s0)) -> ex = old /\ started b = 0 /\ forall ids n, b <> BZones ids n.
Proof.
  intros I P H. unfold restart in H.
  destruct (read_configuration sf re named (su_disk w) (su_config w)) as [[c| |]|m|m] eqn:E; try discriminate H.
  - rewrite (busy_path _ _ p (P _ eq_refl)) in H.
    + injection H as <- <- _. split; [reflexivity|]. split; [reflexivity|discriminate].
    + cbn. assert (X : smem p old = true) by (apply smem_In, I). rewrite X. apply andb_false_r.
  - injection H as <- <- _. split; [reflexivity|]. split; [reflexivity|discriminate].
  - injection H as <- <- _. split; [reflexivity|]. split; [reflexivity|discriminate].
  - injection H as <- <- _. split; [reflexivity|]. split; [reflexivity|discriminate].
Qed.

Lemma quiet_start m e : m_stopped m = false -> (forall ok ids n, e <> ERun ok (BZones ids n)) ->
  filter is_start (history (main_step m e)) = filter is_start (history m).
Proof.
  intros St N. unfold history.
  assert (Q : forall l, filter is_start l = [] -> filter is_start (rev (l ++ m_log m)%list) = filter is_start (rev (m_log m))).
  { intros l Hl. rewrite rev_app_distr, filter_app. assert (X : filter is_start (rev l) = []).
    { destruct (filter is_start (rev l)) as [|x r] eqn:F; [reflexivity|]. assert (In x (filter is_start (rev l))) by (rewrite F; left; reflexivity).
      apply filter_In in H. destruct H as (H & Hx). apply in_rev in H. assert (In x (filter is_start l)) by (apply filter_In; auto). rewrite Hl in H0. destruct H0. }
    rewrite X, app_nil_r. reflexivity. }
  unfold main_step. rewrite St. destruct e as [i| | | | |ok b].
  1-5: try (destruct (imem _ _)); try (destruct (m_rtimer _)); try (destruct (m_ttimer _)); reflexivity.
  destruct (m_ready m) as [|o r]; [reflexivity|].
  assert (Sl : forall r', m_log (snd (stopControlLoops (set_ready r' m))) = ([if fst (stopControlLoops (set_ready r' m)) then MStopped else MStopFailed] ++ m_log m)%list).
  { intros r'. destruct (stop_kept (set_ready r' m)) as (_ & _ & ->). reflexivity. }
  assert (Ar : forall m', m_log (arm_retry m') = m_log m') by (intros m'; unfold arm_retry; destruct (m_rtimer m'); reflexivity).
  assert (At : forall m', m_log (arm_term m') = m_log m') by (intros m'; unfold arm_term; destruct (m_ttimer m'); reflexivity).
  specialize (Sl r). destruct o as [i []|[]|[]]; cbn [run_op]; try reflexivity.
  - destruct ok; [cbn; destruct (m_canceling m); cbn; exact (Q [MRan i] eq_refl)|cbn; exact (Q [MExit; MRan i] eq_refl)].
  - unfold restartControlLoops. destruct (stopControlLoops (set_ready r m)) as [[] m1]; cbn [fst snd] in Sl.
    + destruct b as [| | |ids n].
      * rewrite Sl. exact (Q [MStopped] eq_refl).
      * cbn. rewrite Sl. exact (Q [MExit; MStopped] eq_refl).
      * rewrite Ar, Sl. exact (Q [MStopped] eq_refl).
      * elim (N _ _ _ eq_refl).
    + rewrite Ar, Sl. exact (Q [MStopFailed] eq_refl).
  - destruct (stopControlLoops (set_ready r m)) as [[] m1]; cbn [fst snd] in Sl.
    + cbn. rewrite Sl. exact (Q [MExit; MStopped] eq_refl).
    + rewrite At, Sl. exact (Q [MStopFailed] eq_refl).
Qed.

Lemma stuck_step p d e d1 : In p (dm_exports d) -> publishes sf re named p e -> step d e = Ok d1 ->
  In p (dm_exports d1) /\ incl (dm_ids d1) (dm_ids d) /\ loop_starts d1 = loop_starts d.
Proof.
  intros I P H. unfold loop_starts. destruct (m_stopped (dm_main d)) eqn:St.
  { unfold daemon_step in H. rewrite St in H. injection H as <-. split; [exact I|]. split; [apply incl_refl|reflexivity]. }
  pose proof (step_kind _ _ _ _ _ _ _ _ St H) as K.
  assert (Quit : filter is_start (history (quit (dm_main d))) = filter is_start (history (dm_main d))).
  { unfold history, quit. cbn. rewrite filter_app. cbn. apply app_nil_r. }
  assert (Run : forall ok b, (forall ids n, b <> BZones ids n) -> filter is_start (history (main_step (dm_main d) (ERun ok b))) = filter is_start (history (dm_main d))).
  { intros ok b N. apply quiet_start; [exact St|]. intros ok' ids n E. injection E as _ ->. exact (N _ _ eq_refl). }
  destruct K as [e d1 l N1 N2 Om Te E1 E2|x s M E|x M|w k i n s Nx Ix T|w k i Nx Ix|w k i n m Nx Ix T|w k r m dd bd ex s bus R S C E|w k o r m R A S C|w k r m dd R S C].
  - rewrite E1. split; [exact I|]. split; [apply incl_refl|]. change (dm_main (Daemon (dm_reload d1) (dm_sys d) (dm_ids d) (dm_exports d))) with (dm_main d1).
    rewrite E2. destruct Om as (O1 & O2). destruct O1 as [->|(x & ->)]; [reflexivity|]. cbn [main_run fold_left].
    apply quiet_start; [exact St|]. intros ok ids n ->. destruct (O2 _ _ (or_introl eq_refl)) as (_ & X & _). discriminate X.
  - split; [exact I|]. split; [apply incl_refl|reflexivity].
  - split; [exact I|]. split; [apply incl_refl|exact Quit].
  - split; [exact I|]. split; [apply incl_refl|]. change (dm_main (set_sys s (plain d))) with (dm_main (plain d)). rewrite (plain_main d St). apply Run. discriminate.
  - split; [exact I|]. split; [apply incl_refl|]. rewrite (plain_main d St). apply Run. discriminate.
  - split; [exact I|]. split; [apply incl_refl|]. unfold dm_main at 1. cbn [dm_reload set_reload]. rewrite (reload_run_main _ _ _ _ St). apply Run. discriminate.
  - assert (Cx : dm_exports dd = dm_exports d /\ incl (dm_ids dd) (dm_ids d)).
    { split; [exact (proj2 (clear_reload _ _ _ _ _ C))|]. unfold clear_zones in C. apply bind_ok in C. destruct C as (ks & _ & C). injection C as <-. cbn.
      intros i J. apply in_map_iff in J. destruct J as ([i' l'] & <- & J). apply filter_In in J. destruct J as (J & _). exact (in_combine_l _ _ _ _ J). }
    destruct Cx as (Cx & Ci). rewrite Cx in E.
    destruct (restart_stuck p _ _ _ _ _ _ I (fun c Ec => ltac:(destruct (P _ _ c eq_refl Ec) as (n & info & J & Pu & <-); unfold exports; apply in_flat_map; exists (n, info); split; [exact J|apply exported_iff; auto])) E) as (-> & Z & Nb).
    cbn [dm_exports dm_ids]. split; [exact I|]. split; [rewrite Z, app_nil_r; exact Ci|].
    unfold dm_main at 1. cbn [dm_reload]. rewrite (reload_run_main _ _ _ _ St). apply Run. exact Nb.
  - split; [exact I|]. split; [apply incl_refl|exact Quit].
  - destruct (clear_reload _ _ _ _ _ C) as (Er & Ex). unfold plain. cbn [dm_exports dm_ids set_reload]. rewrite Ex. split; [exact I|]. split.
    + unfold clear_zones in C. apply bind_ok in C. destruct C as (ks & _ & C). injection C as <-. cbn.
      intros i J. apply in_map_iff in J. destruct J as ([i' l'] & <- & J). apply filter_In in J. destruct J as (J & _). exact (in_combine_l _ _ _ _ J).
    + unfold dm_main at 1. cbn [dm_reload set_reload]. rewrite Er, (reload_run_main _ _ _ _ St). apply Run. discriminate.
Qed.

Lemma C94_lemma p evs : forall d d1, In p (dm_exports d) -> Forall (publishes sf re named p) evs -> run evs d = Ok d1 ->
  In p (dm_exports d1) /\ incl (dm_ids d1) (dm_ids d) /\ loop_starts d1 = loop_starts d.
Proof.
  unfold daemon_run. induction evs as [|e r IH]; intros d d1 I P H; cbn [foldM] in H; [injection H as <-; split; [exact I|split; [apply incl_refl|reflexivity]]|].
  apply bind_ok in H. destruct H as (d' & H1 & H). inversion P as [|? ? P1 P2]; subst.
  destruct (stuck_step p _ _ _ I P1 H1) as (I1 & J1 & L1). destruct (IH _ _ I1 P2 H) as (I2 & J2 & L2).
  split; [exact I2|]. split; [exact (incl_tran J2 J1)|congruence].
Qed.

(** Where the objects on the bus come from. *)
Lemma restart_exports w old s b ex s0 : restart f sf pow10 re named w old s = Ok (b, (ex, s0)) ->
  ex = old \/ exists c, read_configuration sf re named (su_disk w) (su_config w) = Ok (Loaded c) /\ ex = exports (l_sensors c).
Proof.
  unfold restart. intros H.
  destruct (read_configuration sf re named (su_disk w) (su_config w)) as [[c| |]|m|m]; try discriminate H; try (injection H as _ <- _; left; reflexivity).
  destruct (buildSensors _ _ _ _) as [m|m|m]; try discriminate H; [|injection H as _ <- _; left; reflexivity].
  destruct (buildZones _ _ _) as [bu|m'|m']; try discriminate H; [|injection H as _ <- _; right; exists c; auto].
  apply bind_ok in H. destruct H as (x & _ & H). injection H as _ <- _. right. exists c. auto.
Qed.
Lemma exports_source first devices evs : forall d p, run evs (daemon_init first devices) = Ok d -> In p (dm_exports d) ->
  exists w k c e, In (DRun w k) evs /\ read_configuration sf re named (su_disk w) (su_config w) = Ok (Loaded c) /\
    In e (l_sensors c) /\ published_sensor (snd e) /\ sc_readPath (snd e) = p.
Proof.
  induction evs as [|e evs IH] using rev_ind; intros d p H I; [injection H as <-; destruct I|].
  unfold daemon_run in H. rewrite foldM_app in H. apply bind_ok in H. destruct H as (d' & H1 & H). cbn [foldM] in H.
  apply bind_ok in H. destruct H as (d'' & H & X). injection X as ->.
  assert (Old : In p (dm_exports d') -> exists w k c e', In (DRun w k) (evs ++ [e]) /\ read_configuration sf re named (su_disk w) (su_config w) = Ok (Loaded c) /\
    In e' (l_sensors c) /\ published_sensor (snd e') /\ sc_readPath (snd e') = p).
  { intros J. destruct (IH _ _ H1 J) as (w & k & c & e' & J1 & R). exists w, k, c, e'. split; [apply in_or_app; left; exact J1|exact R]. }
  destruct (m_stopped (dm_main d')) eqn:St.
  { unfold daemon_step in H. rewrite St in H. injection H as <-. exact (Old I). }
  pose proof (step_kind _ _ _ _ _ _ _ _ St H) as K.
  destruct K as [e d1 l N1 N2 Om Te E1 E2|x s M E|x M|w k i n s Nx Ix T|w k i Nx Ix|w k i n m Nx Ix T|w k r m dd bd ex s bus R S C E|w k o r m R A S C|w k r m dd R S C];
    try exact (Old I).
  - rewrite E1 in I. exact (Old I).
  - cbn [dm_exports] in I. rewrite (proj2 (clear_reload _ _ _ _ _ C)) in E. destruct (restart_exports _ _ _ _ _ _ E) as [->|(c & Ec & ->)]; [exact (Old I)|].
    unfold exports in I. apply in_flat_map in I. destruct I as (e' & J & I). apply exported_iff in I. destruct I as (Pu & ->).
    exists w, k, c, e'. split; [apply in_or_app; right; left; reflexivity|]. auto.
  - unfold plain in I. cbn [dm_exports set_reload] in I. rewrite (proj2 (clear_reload _ _ _ _ _ C)) in I. exact (Old I).
Qed.

Lemma no_handler_stops d r : no_loop_handler d -> m_ready (dm_main d) = ORestart false :: r -> fst (stopControlLoops (set_ready r (dm_main d))) = true.
Proof.
  intros (Ar & Nr) R. unfold stopControlLoops. cbn [m_zones m_armed m_timers set_ready m_ready].
  destruct (m_zones (dm_main d)) as [|z zs]; [reflexivity|].
  match goal with |- context [Nat.ltb 1 ?n] => assert (E : n = 1) end.
  { unfold use_count. cbn [m_armed m_ready]. rewrite Ar. cbn [filter].
    assert (F : forall l : list inst, filter (fun _ : inst => false) l = []) by (induction l; auto).
    cbn [imem existsb]. rewrite F. cbn [map List.length]. rewrite app_nil_r.
    assert (Fr : filter (is_loop_of z) r = []).
    { destruct (filter (is_loop_of z) r) as [|o l] eqn:Fe; [reflexivity|]. assert (H0 : In o (filter (is_loop_of z) r)) by (rewrite Fe; left; reflexivity).
      apply filter_In in H0. destruct H0 as (H0 & H1). destruct o as [i b|b|b]; try discriminate H1. elim (Nr i b). rewrite R. right. exact H0. }
    rewrite Fr. reflexivity. }
  rewrite E. reflexivity.
Qed.

Lemma C94_resumes_from first devices evs d w k c :
  (m_stopped (dm_main d) = false -> forall ok m, exists d', clear_zones f ok m d = Ok d') -> Forall ordered evs -> calm evs (daemon_init first devices) ->
  run evs (daemon_init first devices) = Ok d -> going d -> next_is (ORestart false) d ->
  read_configuration sf re named (su_disk w) (su_config w) = Ok (Loaded c) -> usable_configuration f sf pow10 w c ->
  new_objects sf re named c evs ->
  exists d1, step d (DRun w k) = Ok d1 /\ m_stopped (dm_main d1) = false /\
    (~ no_loop_handler d /\ dm_ids d1 = dm_ids d /\ m_rtimer (dm_main d1) = true \/
     Permutation (map fst (dm_ids d1)) (map fst (l_pids c)) /\ live (dm_main d1) = dm_ids d1 /\
     List.length (sy_loops (dm_sys d1)) = List.length (dm_ids d1)).
Proof.
  intros O Or C H Go (r & R) Er (Bs & Oo & Bz & Np & Ps & Ss & Ow) No.
  assert (L : exists b, life f sf pow10 re named b (daemon_init first devices) evs d).
  { destruct C as [C|C]; [exists true|exists false]; apply life_run; assumption. }
  destruct L as (b & [G X Li Rn]). apply (going_iff _ X) in Go. rename Go into St.
  pose proof (good_inv1 _ _ G) as I1. pose proof (pop_inv _ _ _ I1 R eq_refl) as Ip.
  unfold daemon_step. rewrite St. unfold run_handler. rewrite R.
  destruct (stopControlLoops (set_ready r (dm_main d))) as [[] m] eqn:Sp.
  - destruct (O St (wk_write_ok k) m) as (d' & Cz). rewrite Cz.
    destruct (restart_live _ _ true BNotReady _ I1 (good_clean _ _ St G) St R Sp (Nat.le_0_l _)) as (_ & _ & Hn).
    destruct (clear_rest _ _ _ _ _ Cz Hn) as (C1 & C2 & _). destruct (clear_reload _ _ _ _ _ Cz) as (_ & Ex).
    assert (Bm : exists m, buildSensors sf pow10 (seen (dm_exports d') (su_sensors w)) (l_sensors c) = Ok m).
    { apply C60_fails_lemma. split; [|exact Oo]. rewrite Forall_forall in *. intros [n info] J. destruct (Bs _ J) as (B1 & B2 & B3 & B4 & B5).
      split; [exact B1|]. split; [exact B2|]. split; [exact B3|]. split; [exact B4|]. intros Pu. cbn. rewrite (B5 Pu). cbn.
      destruct (smem (sc_readPath info) (dm_exports d')) eqn:Sm; [|reflexivity]. exfalso. apply smem_In in Sm. rewrite Ex in Sm.
      destruct (exports_source _ _ _ _ _ H Sm) as (w' & k' & c' & e' & J1 & J2 & J3 & J4 & J5).
      exact (No w' k' c' (n, info) e' J1 J2 J Pu J3 J4 (eq_sym J5)). }
    destruct Bm as (mm & Em).
    assert (Bb : exists built, buildZones (su_bus_ok w) (l_pids c) (l_zones c) = Ok built).
    { apply buildZones_returns. rewrite Forall_forall in Bz. exact Bz. }
    destruct Bb as (built & Eb).
    destruct (restart_runs f sf pow10 re named w (dm_exports d') (dm_sys d') c mm built Er (read_sensors _ _ _ _ _ _ Er) (read_order _ _ _ _ _ _ Er) Ps Em Eb Ow Ss C2)
      as (ids & s0 & Hr & Pe & Lo & _).
    rewrite Hr. cbn [bind].
    set (rl := reload_step (dm_reload d) (VRun true (BZones ids (List.length ids)) (no_config_file named (su_disk w)))).
    assert (Erl : rl_main rl = main_step (dm_main d) (ERun true (BZones ids (List.length ids)))) by exact (reload_run_main _ _ _ _ St).
    pose proof (restart_nodup _ _ _ _ _ _ _ _ _ _ _ _ Ow Hr) as Nd.
    destruct (restart_live _ _ true (BZones ids (List.length ids)) _ I1 (good_clean _ _ St G) St R Sp (restart_started _ _ _ _ _ _ _ _ _ _ _ _ Ow Hr)) as (Mz & Ml & _).
    cbn [built_zones started] in Mz, Ml. rewrite nodup_fixed_point in Mz, Ml by exact Nd.
    assert (Fn : firstn (List.length ids) (map (fun z => (z, S (m_gen (dm_main d))) : inst) ids) = map (fun z => (z, S (m_gen (dm_main d))) : inst) ids).
    { apply (@firstn_all2 inst). rewrite map_length. lia. }
    pose proof (eq_trans Ml Fn) as Ml'. clear Ml. rename Ml' into Ml.
    eexists. split; [reflexivity|]. unfold dm_main at 1 3. cbn [dm_reload dm_ids dm_sys started]. rewrite Erl, C1, Mz. cbn [app].
    match goal with |- context [@firstn ?A ?n ?l] => replace (@firstn A n l) with l by (symmetry; exact Fn) end. split.
    + destruct (m_stopped (main_step _ _)) eqn:E; [|reflexivity]. exfalso. apply stop_handler in E; [|exact I1|exact St].
      destruct E as [E|[E|[(n & E)|(r' & E)]]]; [discriminate E|discriminate E| |].
      * injection E as -> _. apply Permutation_nil in Pe. apply map_eq_nil in Pe. exact (Np Pe).
      * congruence.
    + right. rewrite map_map, map_id. split; [exact Pe|]. split; [exact Ml|]. rewrite map_length. clear - Lo. induction Lo; cbn; congruence.
  - eexists. split; [reflexivity|].
    assert (E : dm_main (set_reload (reload_step (dm_reload d) (VRun true BNotReady false)) d) = main_step (dm_main d) (ERun true BNotReady)) by exact (reload_run_main _ _ _ _ St).
    rewrite E. unfold main_step. rewrite St, R. unfold run_op, restartControlLoops. rewrite Sp.
    pose proof Sp as S0. apply stop_fail_inv in S0; [|exact Ip]. destruct S0 as (_ & _ & ->). split.
    + unfold arm_retry. destruct (m_rtimer _); exact St.
    + left. split; [|split; [reflexivity|unfold arm_retry; reflexivity]]. intros N. apply no_handler_stops with (r := r) in N; [|exact R]. rewrite Sp in N. discriminate N.
Qed.
End Sensible.
