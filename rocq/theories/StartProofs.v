(** * Proofs about start-up (C87 to C89). *)
From Coq Require Import ZArith Bool List String Permutation Lia.
From Verif Require Import Base BaseFacts Dbl PidModel ZoneModel LoopModel BuilderModel SpecBuilder BuilderProofs BuilderRun ConfigModel
  SensorModel WriteModel PathProofs SystemModel SpecSystem SpecZone ZoneFrame ZoneProofs SystemProofs SystemProofs2 SystemProofs3
  SystemProofs4 JsonModel SpecJson JsonProofs JsonProofs2 JsonProofs3 SpecJsonSystem JsonSystemProofs DbusConfigModel SpecDbus
  SpecDbusSystem DbusProofs4 DbusProofs5 DbusSystemProofs LogModel MainModel SpecMain MainProofs StartModel SpecStart.
Import ListNotations.
Local Open Scope string_scope.
Local Open Scope outcome_scope.

(** ** Which file *)

Lemma entry_in_directory d p : directory_name d -> (entry_path d "config.json" = p <-> in_directory d p).
Proof.
  intros D. unfold entry_path, in_directory. destruct D as [->|(N & S)].
  - cbn. split; [intros <-; left; auto|intros [(_ & ->)|(X & _)]; [reflexivity|congruence]].
  - destruct (String.eqb_spec d ""); [contradiction|]. cbn [orb].
    destruct (ends_with_slash d) eqn:E.
    { apply ends_with_slash_iff in E. destruct E as (b & ->). elim (S b). reflexivity. }
    assert (d <> "/") by (intros ->; apply (S ""); reflexivity).
    split; [intros <-; right; auto|intros [(X & _)|(_ & ->)]; [contradiction|reflexivity]].
Qed.

Lemma exists_file_present dk p : present dk p -> exists_file dk p = Ok true.
Proof. unfold present, exists_file. intros ->. reflexivity. Qed.
Lemma exists_file_absent dk p : absent dk p -> exists_file dk p = Ok false.
Proof. unfold absent, exists_file. intros ->. reflexivity. Qed.

(** What the search and the test of line 134 come to. *)
Definition chosen (named : string) (dk : disk) : outcome (string * bool) :=
  do path <- if String.eqb named "" then searchConfigurationPath dk else Ok named;
  do there <- exists_file dk path;
  Ok (path, there).

Lemma read_chosen sf re named dk cb :
  read_configuration sf re named dk cb =
  do x <- chosen named dk;
  if snd x : bool
  then match load_file dk (fst x) with Ok c => Ok (Loaded c) | Throw _ => Ok Fatal | UB m => UB m end
  else do r <- dbus_init sf re cb; Ok (if fst r : bool then Loaded (snd r) else NotReady).
Proof.
  unfold read_configuration, chosen.
  destruct (if String.eqb named "" then searchConfigurationPath dk else Ok named) as [path|m|m]; [|reflexivity|reflexivity].
  cbn [bind]. destruct (exists_file dk path) as [b|m|m]; [|reflexivity|reflexivity]. reflexivity.
Qed.

Lemma chosen_used named dk p : file_used named dk p -> chosen named dk = Ok (p, true).
Proof.
  intros (pre & post & Pl & Ab & Pr). apply exists_file_present in Pr.
  destruct Pl as [(N & E)|(-> & cwd & q & C & D & I & E)]; unfold chosen.
  - destruct (String.eqb_spec named ""); [contradiction|]. destruct pre as [|x [|y r]]; [|discriminate E|discriminate E].
    injection E as -> _. cbn [bind]. rewrite Pr. reflexivity.
  - cbn [String.eqb]. unfold searchConfigurationPath. rewrite C. cbn [first_file].
    apply (entry_in_directory _ _ D) in I. rewrite I.
    change (entry_path "/var/lib/swampd" "config.json") with "/var/lib/swampd/config.json".
    change (entry_path "/usr/share/swampd" "config.json") with "/usr/share/swampd/config.json".
    destruct pre as [|x1 pre]; injection E as <- E.
    { rewrite Pr. cbn [bind]. rewrite Pr. reflexivity. }
    inversion Ab as [|? ? A1 Ab1]; subst. rewrite (exists_file_absent _ _ A1). cbn [bind].
    destruct pre as [|x2 pre]; injection E as <- E.
    { rewrite Pr. cbn [bind]. rewrite Pr. reflexivity. }
    inversion Ab1 as [|? ? A2 Ab2]; subst. rewrite (exists_file_absent _ _ A2). cbn [bind].
    destruct pre as [|x3 pre]; injection E as <- E.
    { rewrite Pr. cbn [bind]. rewrite Pr. reflexivity. }
    inversion Ab2 as [|? ? A3 Ab3]; subst. rewrite (exists_file_absent _ _ A3). cbn [bind].
    destruct pre as [|x4 pre]; injection E as <- E.
    { rewrite Pr. reflexivity. }
    destruct pre; discriminate E.
Qed.

Lemma chosen_none named dk : no_file named dk -> exists p, chosen named dk = Ok (p, false).
Proof.
  intros (l & Pl & Ab). destruct Pl as [(N & ->)|(-> & cwd & q & C & D & I & ->)]; unfold chosen.
  - destruct (String.eqb_spec named ""); [contradiction|]. inversion Ab as [|? ? A _]; subst. cbn [bind].
    rewrite (exists_file_absent _ _ A). eexists. reflexivity.
  - cbn [String.eqb]. unfold searchConfigurationPath. rewrite C. cbn [first_file].
    apply (entry_in_directory _ _ D) in I. rewrite I.
    change (entry_path "/var/lib/swampd" "config.json") with "/var/lib/swampd/config.json".
    change (entry_path "/usr/share/swampd" "config.json") with "/usr/share/swampd/config.json".
    inversion Ab as [|? ? A1 Ab1]; subst. inversion Ab1 as [|? ? A2 Ab2]; subst. inversion Ab2 as [|? ? A3 Ab3]; subst.
    inversion Ab3 as [|? ? A4 _]; subst.
    rewrite (exists_file_absent _ _ A1). cbn [bind]. rewrite (exists_file_absent _ _ A2). cbn [bind].
    rewrite (exists_file_absent _ _ A3). cbn [bind]. rewrite (exists_file_absent _ _ A4). eexists. reflexivity.
Qed.

(** ** Starting all loops *)

Lemma start_zones_ok f zs : forall s s', foldM (start_zone f) zs s = Ok s' ->
  start_zones f zs s = Ok (List.length zs, s').
Proof.
  induction zs as [|e r IH]; intros s s' H; cbn [foldM] in H; cbn [start_zones].
  - injection H as <-. reflexivity.
  - apply bind_ok in H. destruct H as (s1 & H1 & H2). rewrite H1. rewrite (IH _ _ H2). reflexivity.
Qed.

Lemma Forall2_map_l {A B C : Type} (g : A -> B) (R : B -> C -> Prop) l m :
  Forall2 (fun x y => R (g x) y) l m -> Forall2 R (map g l) m.
Proof. induction 1; constructor; auto. Qed.
Lemma Forall2_map_l' {A B C : Type} (g : A -> B) (R : B -> C -> Prop) l : forall m,
  Forall2 R (map g l) m -> Forall2 (fun x y => R (g x) y) l m.
Proof.
  induction l as [|x r IH]; intros m H; cbn in H; inversion H; subst; constructor; auto.
Qed.

(** The zones in starting order, with what they find. *)
Definition with_starts (w : surroundings) (zs : list (Z * zone)) : list (start_in * zone) :=
  map (fun e => (su_start w (fst e), snd e)) zs.
Lemma with_starts_snd w zs : map snd (with_starts w zs) = map snd zs.
Proof. unfold with_starts. rewrite map_map. reflexivity. Qed.

Lemma started_loops f w built zs s s0 :
  (forall id z, In (id, z) built -> z_zoneId z = id /\ fresh z) -> incl zs built ->
  sy_loops s = [] -> foldM (start_zone f) (with_starts w zs) s = Ok s0 -> loops_of (map fst zs) s0.
Proof.
  intros Id In0 E0 H. apply start_rest in H. destruct H as (_ & _ & _ & _ & ls & E & F).
  rewrite E0 in E. cbn in E. unfold loops_of. rewrite E. apply Forall2_map_l. unfold with_starts in F. apply Forall2_map_l' in F.
  cbn [fst snd] in F. clear E E0 s. induction F as [|[id z] l zs ls (env & H) F IH]; constructor.
  - cbn [fst snd] in *. destruct (Id id z) as (Ei & Fr); [apply In0; left; reflexivity|].
    assert (R : reachable f z l). { exists env, (st_tune (su_start w id)), (st_timer (su_start w id)), l, []. split; [exact Fr|]. split; [exact H|reflexivity]. }
    destruct (reachable_inv _ _ _ R) as (C & _). unfold conf in C. injection C. intros. congruence.
  - apply IH. intros x J. apply In0. right. exact J.
Qed.

(** ** C87 *)

(** A reply of the host state that stands for the state. *)
Definition host_reply (b : bool) : option string := Some (if b then ".Running" else "").
Lemma host_reply_says b : host_initial (host_reply b) = b.
Proof. destruct b; reflexivity. Qed.

(** The failures after the redundancy object is there. *)
Definition failures_now (w : surroundings) (s : system) : list string :=
  match su_redundancy w with Some l => l | None => sy_failures s end.

(** The loaded configuration runs. *)
Lemma restart_runs f sf pow10 re named w old s c m built :
  read_configuration sf re named (su_disk w) (su_config w) = Ok (Loaded c) ->
  NoDup (map fst (l_sensors c)) -> NoDup (map fst (l_pids c)) ->
  (forall id pids, In (id, pids) (l_pids c) -> pids_served (l_sensors c) pids) ->
  buildSensors sf pow10 (seen old (su_sensors w)) (l_sensors c) = Ok m ->
  buildZones (su_bus_ok w) (l_pids c) (l_zones c) = Ok built ->
  any_order w -> start_served f (su_sensors w) (l_sensors c) w -> sy_loops s = [] ->
  exists ids s0, restart f sf pow10 re named w old s =
      Ok (BZones ids (List.length ids), (exports (l_sensors c), s0)) /\
    Permutation ids (map fst (l_pids c)) /\ loops_of ids s0 /\ left_alone s s0 /\
    forall evs, Forall (served f (su_sensors w) (l_sensors c)) evs -> returns_or_bad_command (sys_run f sf pow10 evs s0).
Proof.
  intros Er Nc N Sv Em Eb Or St El.
  set (zs := su_order w built). assert (P : Permutation zs built) by apply Or.
  assert (Bf : built_from (su_bus_ok w) (l_pids c) (l_zones c) (with_starts w zs)).
  { split; [exact N|]. exists built. split; [exact Eb|]. rewrite with_starts_snd. apply Permutation_map. exact P. }
  destruct (C63_start_lemma f sf pow10 (seen old (su_sensors w)) (l_sensors c) (failures_now w s) (host_reply (sy_power s)) (sy_devices s) _
    (su_bus_ok w) (l_pids c) (l_zones c) Bf Sv m Nc Em) as (s0 & E0 & R0).
  { rewrite Forall_forall. intros [st z] I. unfold with_starts in I. apply in_map_iff in I. destruct I as ([id z'] & X & _).
    injection X as <- <-. apply St. }
  destruct (C49_structure _ _ _ _ Eb) as (Mf & Zo).
  exists (map fst zs), s0. split; [|split; [|split; [|split]]].
  - unfold restart. rewrite Er, Em, Eb. fold zs. change (map (fun e : Z * zone => (su_start w (fst e), snd e)) zs) with (with_starts w zs).
    unfold sys_start in E0. rewrite host_reply_says in E0. unfold failures_now in E0. destruct s as [ms fs pw ls dv].
    cbn [sy_loops] in El. subst ls. cbn [sy_power sy_devices sy_failures] in E0. unfold set_failures, set_sensors.
    destruct (su_redundancy w); cbn [sy_sensors sy_failures sy_power sy_loops sy_devices];
      rewrite (start_zones_ok _ _ _ _ E0); cbn [bind fst snd]; unfold with_starts; rewrite !map_length; reflexivity.
  - rewrite <- Mf. apply Permutation_map. exact P.
  - refine (started_loops f w built zs _ s0 _ _ _ E0); [|intros x I; apply (Permutation_in _ P), I|reflexivity].
    intros id z I. assert (J : In id (map fst (l_pids c))) by (rewrite <- Mf; apply in_map_iff; exists (id, z); auto).
    apply in_map_iff in J. destruct J as ([id' pids] & X & J). cbn in X. subst id'.
    destruct (Zo N _ _ _ J I) as (zc & _ & Z). split; apply Z.
  - apply start_rest in E0. destruct E0 as (_ & _ & Ep & Ed & _). cbn [sy_power sy_devices] in Ep, Ed.
    rewrite host_reply_says in Ep. split; assumption.
  - intros evs Fe.
    exact (C63_lemma f sf pow10 (seen old (su_sensors w)) (l_sensors c) (failures_now w s) (host_reply (sy_power s)) (sy_devices s) _
      (su_bus_ok w) (l_pids c) (l_zones c) Bf Sv [] s0 evs R0 Fe).
Qed.

Lemma C87_document_lemma f sf pow10 re named w old s p j sensors zones :
  file_used named (su_disk w) p -> dk_content (su_disk w) p = Document j ->
  doc_says j sensors zones -> text_served sensors zones -> bus_serves sf pow10 (seen old (su_sensors w)) (su_bus_ok w) sensors zones ->
  any_order w -> (forall c, as_written c sensors zones -> start_served f (su_sensors w) (l_sensors c) w) -> sy_loops s = [] ->
  exists c ids s0, as_written c sensors zones /\
    restart f sf pow10 re named w old s = Ok (BZones ids (List.length ids), (exports (l_sensors c), s0)) /\
    Permutation ids (map fst (l_pids c)) /\ loops_of ids s0 /\ left_alone s s0 /\
    forall evs, Forall (served f (su_sensors w) (l_sensors c)) evs -> returns_or_bad_command (sys_run f sf pow10 evs s0).
Proof.
  intros Fu Dc D T B Or St El. destruct (C65_lemma _ _ _ D) as (c & E & W).
  destruct (proj2 (C60_fails_lemma sf pow10 (seen old (su_sensors w)) (l_sensors c)) (sensors_buildable _ _ _ _ _ _ _ W B)) as (m & Em).
  destruct (proj2 (buildZones_returns (su_bus_ok w) (l_zones c) (l_pids c)) (zones_buildable _ _ _ _ _ _ _ W B T)) as (built & Eb).
  destruct (restart_runs f sf pow10 re named w old s c m built) as (ids & s0 & H & P & L & K & R).
  - rewrite read_chosen, (chosen_used _ _ _ Fu). cbn [bind fst snd]. unfold load_file. rewrite Dc, E. reflexivity.
  - apply in_order_nodup, W.
  - apply in_order_z_nodup, W.
  - exact (served_config _ _ _ W T).
  - exact Em.
  - exact Eb.
  - exact Or.
  - exact (St c W).
  - exact El.
  - exists c, ids, s0. auto 8.
Qed.

Lemma C87_bad_lemma f sf pow10 re named w old s p :
  file_used named (su_disk w) p -> bad_content (dk_content (su_disk w) p) ->
  restart f sf pow10 re named w old s = Ok (BExit, (old, s)).
Proof.
  intros Fu Bc. unfold restart. rewrite read_chosen, (chosen_used _ _ _ Fu). cbn [bind fst snd]. unfold load_file.
  destruct Bc as [->|[->|(j & -> & Ta & Go)]]; try reflexivity.
  destruct (load_json j) as [c|m|m] eqn:E; [|reflexivity|].
  - elim Go. apply C66_lemma. eauto.
  - elim (C67_lemma _ Ta m E).
Qed.

Lemma C87_only_lemma f sf pow10 re re' named named' w w' old s p p' :
  file_used named (su_disk w) p -> file_used named' (su_disk w') p' ->
  dk_content (su_disk w) p = dk_content (su_disk w') p' -> same_otherwise w w' ->
  restart f sf pow10 re named w old s = restart f sf pow10 re' named' w' old s.
Proof.
  intros Fu Fu' Dc (E1 & E2 & E3 & E4 & E5). unfold restart.
  rewrite !read_chosen, (chosen_used _ _ _ Fu), (chosen_used _ _ _ Fu'). cbn [bind fst snd]. unfold load_file.
  rewrite Dc, E1, E2, E3, E4, E5. reflexivity.
Qed.

Lemma C87_bus_lemma f sf pow10 re named w old s :
  no_file named (su_disk w) -> complete sf re (su_config w) ->
  daemon_served sf re (su_config w) pow10 (seen old (su_sensors w)) (su_bus_ok w) -> any_order w -> sy_loops s = [] ->
  exists b c, dbus_init sf re (su_config w) = Ok (b, c) /\
    ((l_pids c = [] \/ l_zones c = []) /\ restart f sf pow10 re named w old s = Ok (BNotReady, (old, s)) \/
     l_pids c <> [] /\ l_zones c <> [] /\
     (start_served f (su_sensors w) (l_sensors c) w ->
      exists ids s0, restart f sf pow10 re named w old s =
          Ok (BZones ids (List.length ids), (exports (l_sensors c), s0)) /\
        Permutation ids (map fst (l_pids c)) /\ loops_of ids s0 /\ left_alone s s0 /\
        forall evs, Forall (served f (su_sensors w) (l_sensors c)) evs -> returns_or_bad_command (sys_run f sf pow10 evs s0))).
Proof.
  intros Nf C Ds Or El. destruct (chosen_none _ _ Nf) as (p & Ch).
  destruct (C72_lemma f sf pow10 (seen old (su_sensors w)) (su_bus_ok w) [] None [] re (su_config w) C Ds)
    as (b & c & m & built & E & Em & Eb & _).
  destruct (C69_lemma _ _ _ _ _ E) as (resp & bus & objs & number & Sb & Se & Rd & _ & _ & Ac & _).
  destruct Ds as (Bus & D). destruct (D _ _ _ Sb Se Rd) as (Zd & Cs & Fa & Ss).
  destruct (ac_order _ _ _ _ Ac) as (Os & Oz & _).
  exists b, c. split; [exact E|].
  assert (Eb' : b = match l_pids c, l_zones c with [], _ | _, [] => false | _, _ => true end).
  { unfold dbus_init in E. destruct (cb_subtree (su_config w)) as [[|x r]|]; try discriminate E.
    destruct (scan (x :: r)) as (owners & ss). apply bind_ok in E. destruct E as (cf & _ & E).
    apply bind_ok in E. destruct E as (sel & _ & E). apply bind_ok in E. destruct E as (cf' & _ & E).
    apply bind_ok in E. destruct E as (st & _ & E). injection E as <- <-. reflexivity. }
  destruct b.
  - right. split; [intros X; rewrite X in Eb'; discriminate Eb'|].
    split; [intros X; rewrite X in Eb'; destruct (l_pids c); discriminate Eb'|]. intros St.
    eapply restart_runs; eauto.
    + rewrite read_chosen, Ch. cbn [bind fst snd]. rewrite E. reflexivity.
    + apply in_order_nodup, Os.
    + apply in_order_z_nodup, Oz.
    + intros id pids I. eapply (dbus_served sf pow10 (seen old (su_sensors w))); eassumption.
  - left. split.
    + destruct (l_pids c); [left; reflexivity|]. destruct (l_zones c); [right; reflexivity|discriminate Eb'].
    + unfold restart. rewrite read_chosen, Ch. cbn [bind fst snd]. rewrite E. reflexivity.
Qed.

(** Nothing on the bus: tried again later. *)
Lemma C87_bus_fails_lemma f sf pow10 re named w old s m :
  no_file named (su_disk w) -> dbus_init sf re (su_config w) = Throw m ->
  restart f sf pow10 re named w old s = Ok (BThrow, (old, s)).
Proof.
  intros Nf E. destruct (chosen_none _ _ Nf) as (p & Ch). unfold restart. rewrite read_chosen, Ch. cbn [bind fst snd].
  rewrite E. reflexivity.
Qed.

(** ** C88 *)

(** One attempt about to run, nothing else. *)
Record about (s : main_st) : Prop := {
  ab_canceling : m_canceling s = false; ab_zones : m_zones s = []; ab_timers : m_timers s = [];
  ab_armed : m_armed s = []; ab_ready : m_ready s = [ORestart false]; ab_retry : m_rtimer s = false;
  ab_term : m_ttimer s = false; ab_gen : m_gen s = 0; ab_stopped : m_stopped s = false
}.

Lemma about_first : about (main_step main_init EPostRestart).
Proof. constructor; reflexivity. Qed.

Lemma about_again s : about s -> about (main_step (main_step s (ERun true BThrow)) ERetry).
Proof.
  intros [C Z T A R Rt Tt G St]. destruct s as [c z t a r rt tt g st l]. cbn in *. subst. constructor; reflexivity.
Qed.

Lemma start_loops_some zs : forall n s, n <= List.length zs ->
  fst (start_loops zs n s) = (n =? List.length zs)%nat /\
  m_armed (snd (start_loops zs n s)) = (m_armed s ++ firstn n zs)%list /\
  m_ready (snd (start_loops zs n s)) = m_ready s /\
  m_stopped (snd (start_loops zs n s)) = m_stopped s /\ m_rtimer (snd (start_loops zs n s)) = m_rtimer s.
Proof.
  induction zs as [|z r IH]; intros n s L; cbn [start_loops List.length] in *.
  - destruct n; [|lia]. cbn. rewrite app_nil_r. auto.
  - destruct n as [|n]; [cbn; rewrite app_nil_r; auto|].
    destruct (IH n (say (MStarted z)
      (set_armed (m_armed (MainSt (m_canceling s) (m_zones s) (m_timers s ++ [z]) (m_armed s) (m_ready s)
                  (m_rtimer s) (m_ttimer s) (m_gen s) (m_stopped s) (m_log s)) ++ [z])
        (MainSt (m_canceling s) (m_zones s) (m_timers s ++ [z]) (m_armed s) (m_ready s)
                  (m_rtimer s) (m_ttimer s) (m_gen s) (m_stopped s) (m_log s)))) ltac:(lia)) as (A & B & C & D & E).
    split; [exact A|]. split; [|split; [exact C|split; [exact D|exact E]]]. rewrite B. cbn. rewrite <- app_assoc. reflexivity.
Qed.

Lemma tries_state k last : exists s, about s /\ after_tries k last = main_step s (ERun true last).
Proof.
  unfold after_tries, main_run. cbn [fold_left]. generalize about_first. generalize (main_step main_init EPostRestart).
  induction k as [|k IH]; intros s A; cbn [tries fold_left]; [eauto|].
  apply IH, about_again, A.
Qed.

Lemma tries_zones k ids n :
  ids <> [] -> NoDup ids -> n <= List.length ids ->
  let s := after_tries k (BZones ids n) in
  m_stopped s = false /\ live s = map (fun i => (i, 1)) (firstn n ids) /\ m_rtimer s = negb (n =? List.length ids)%nat.
Proof.
  intros Ne Nd L s. subst s. destruct (tries_state k (BZones ids n)) as (s & [C Z T A R Rt Tt G St] & ->).
  destruct s as [c z t a r rt tt g st l]. cbn in C, Z, T, A, R, Rt, Tt, G, St. subst.
  cbn [main_step m_stopped m_ready run_op set_ready m_canceling m_zones m_timers m_armed m_rtimer m_ttimer m_gen m_log].
  unfold restartControlLoops, stopControlLoops, set_ready, say.
  cbn [m_zones m_canceling m_timers m_armed m_ready m_rtimer m_ttimer m_gen m_stopped m_log filter map app].
  rewrite nodup_fixed_point by exact Nd.
  destruct ids as [|i0 r0] eqn:Ei; [contradiction|].
  change ((i0, 1) :: map (fun z : Z => (z, 1)) r0) with (map (fun z : Z => (z, 1)) (i0 :: r0)). rewrite <- Ei in *.
  match goal with |- context [start_loops ?zs ?n ?s] => pose proof (start_loops_some zs n s) as H; rewrite map_length in H;
    specialize (H L); destruct (start_loops zs n s) as (b & s') eqn:Es end.
  cbn [fst snd] in H. destruct H as (-> & Ha & Hr & Hs & Ht). cbn in Ha, Hr, Hs, Ht.
  destruct (n =? List.length ids)%nat.
  - split; [exact Hs|]. split; [|exact Ht]. unfold live. rewrite Ha, Hr. cbn. rewrite app_nil_r. apply firstn_map.
  - unfold arm_retry. rewrite Ht. split; [exact Hs|]. split; [|reflexivity]. unfold live. cbn. rewrite Ha, Hr. cbn.
    rewrite app_nil_r. apply firstn_map.
Qed.

Lemma C88_none_lemma k last :
  (last = BExit \/ (exists n, last = BZones [] n) -> m_stopped (after_tries k last) = true) /\
  (last = BNotReady -> idle (after_tries k last)) /\
  (last = BThrow -> m_stopped (after_tries k last) = false /\ live (after_tries k last) = [] /\
     m_rtimer (after_tries k last) = true).
Proof.
  destruct (tries_state k last) as (s & [C Z T A R Rt Tt G St] & ->).
  destruct s as [c z t a r rt tt g st l]. cbn in C, Z, T, A, R, Rt, Tt, G, St. subst.
  split; [intros [->|(n & ->)]; reflexivity|]. split; intros ->; repeat split.
Qed.

(** What the surroundings can lead to. *)
Lemma load_json_order j c : load_json j = Ok c -> in_order_z (l_pids c).
Proof.
  unfold load_json. intros H. apply bind_ok in H. destruct H as (u & _ & H). apply bind_ok in H. destruct H as (ss & _ & H).
  apply bind_ok in H. destruct H as (zs & Hz & H). injection H as <-. cbn [l_pids].
  unfold buildPIDsFromJson in Hz. apply bind_ok in Hz. destruct Hz as (jz & _ & Hz).
  assert (G : forall l m0 m1, foldM read_zone l m0 = Ok m1 -> in_order_z (fst m0) -> in_order_z (fst m1)).
  { induction l as [|x r IH]; intros m0 m1 E O; cbn [foldM] in E; [injection E as <-; exact O|].
    apply bind_ok in E. destruct E as (m2 & E1 & E2). apply (IH _ _ E2). unfold read_zone in E1.
    repeat (apply bind_ok in E1; destruct E1 as (? & _ & E1)). injection E1 as <-. cbn [fst]. apply in_order_zset. exact O. }
  apply (G _ _ _ Hz). constructor.
Qed.

Lemma read_order sf re named dk cb c :
  read_configuration sf re named dk cb = Ok (Loaded c) -> NoDup (map fst (l_pids c)).
Proof.
  intros H. apply in_order_z_nodup. rewrite read_chosen in H. apply bind_ok in H. destruct H as ((p & b) & _ & H). cbn [fst snd] in H.
  destruct b.
  - destruct (load_file dk p) as [c'|m|m] eqn:E; try discriminate H. injection H as ->. unfold load_file in E.
    destruct (dk_content dk p); try discriminate E. exact (load_json_order _ _ E).
  - apply bind_ok in H. destruct H as ((r & c') & E & H). cbn [fst snd] in H. destruct r; [|discriminate H]. injection H as ->.
    destruct (C69_lemma _ _ _ _ _ E) as (resp & bus & objs & number & _ & _ & _ & _ & _ & Ac & _). apply (ac_order _ _ _ _ Ac).
Qed.

Lemma start_zones_cases f zs : forall s n s', start_zones f zs s = Ok (n, s') ->
  n <= List.length zs /\ foldM (start_zone f) (firstn n zs) s = Ok s'.
Proof.
  induction zs as [|e r IH]; intros s n s' H; cbn [start_zones] in *.
  - injection H as <- <-. split; [apply Nat.le_refl|reflexivity].
  - destruct (start_zone f s e) as [s1|m|m] eqn:E; [|injection H as <- <-; split; [apply Nat.le_0_l|reflexivity]|discriminate H].
    apply bind_ok in H. destruct H as ((n1 & o1) & H1 & H). cbn [fst snd] in H. injection H as <- <-.
    destruct (IH _ _ _ H1) as (L & F). split; [cbn; lia|]. cbn [firstn foldM]. rewrite E. exact F.
Qed.

Lemma firstn_incl {A : Type} n (l : list A) : incl (firstn n l) l.
Proof. intros x I. rewrite <- (firstn_skipn n l). apply in_app_iff. left. exact I. Qed.

(** What a start that has zones comes to, whether or not all loops were started. *)
Lemma restart_zones_inv f sf pow10 re named w old s ids n ex s0 : any_order w ->
  restart f sf pow10 re named w old s = Ok (BZones ids n, (ex, s0)) ->
  exists c m built, let zs := su_order w built in
    read_configuration sf re named (su_disk w) (su_config w) = Ok (Loaded c) /\
    buildSensors sf pow10 (seen old (su_sensors w)) (l_sensors c) = Ok m /\
    buildZones (su_bus_ok w) (l_pids c) (l_zones c) = Ok built /\
    ids = map fst zs /\ NoDup ids /\ n <= List.length ids /\ ex = exports (l_sensors c) /\
    (forall id z, In (id, z) zs -> z_zoneId z = id /\ fresh z) /\
    foldM (start_zone f) (firstn n (with_starts w zs))
      (Sys m (failures_now w s) (sy_power s) (sy_loops s) (sy_devices s)) = Ok s0.
Proof.
  intros Or H. unfold restart in H.
  destruct (read_configuration sf re named (su_disk w) (su_config w)) as [[c| |]|m|m] eqn:Er; try discriminate H.
  destruct (buildSensors sf pow10 (seen old (su_sensors w)) (l_sensors c)) as [m|e|e] eqn:Em; try discriminate H.
  destruct (buildZones (su_bus_ok w) (l_pids c) (l_zones c)) as [built|e|e] eqn:Eb; try discriminate H.
  apply bind_ok in H. destruct H as ((n1 & o1) & H1 & H). cbn [fst snd] in H. injection H as <- <- <- <-.
  apply read_order in Er as Nd. destruct (C49_structure _ _ _ _ Eb) as (Mf & Zo). assert (P := Or built).
  exists c, m, built. cbn zeta. apply start_zones_cases in H1. rewrite map_length in H1. destruct H1 as (L & F).
  split; [reflexivity|]. split; [exact Em|]. split; [exact Eb|]. split; [reflexivity|]. split.
  { apply (Permutation_NoDup (l := map fst built)); [apply Permutation_map; symmetry; exact P|]. rewrite Mf. exact Nd. }
  split; [rewrite map_length; exact L|]. split; [reflexivity|]. split.
  { intros id z I. apply (Permutation_in _ P) in I. assert (J : In id (map fst (l_pids c))) by (rewrite <- Mf; apply in_map_iff; exists (id, z); auto).
    apply in_map_iff in J. destruct J as ([id' pids] & X & J). cbn in X. subst id'.
    destruct (Zo Nd _ _ _ J I) as (zc & _ & Z). split; apply Z. }
  unfold failures_now. destruct s as [ms fs pw ls dv]. unfold set_failures, set_sensors in F. destruct (su_redundancy w); exact F.
Qed.

Lemma with_starts_firstn w n zs : firstn n (with_starts w zs) = with_starts w (firstn n zs).
Proof. apply firstn_map. Qed.

Lemma restart_zones f sf pow10 re named w old s ids n ex s0 : any_order w -> sy_loops s = [] ->
  restart f sf pow10 re named w old s = Ok (BZones ids n, (ex, s0)) ->
  NoDup ids /\ n <= List.length ids /\ loops_of (firstn n ids) s0.
Proof.
  intros Or El H. apply restart_zones_inv in H; [|exact Or]. destruct H as (c & m & built & _ & _ & _ & -> & Nd & L & _ & Z & F).
  split; [exact Nd|]. split; [exact L|]. rewrite with_starts_firstn in F. rewrite firstn_map.
  refine (started_loops f w (su_order w built) _ _ s0 Z _ _ F); [apply firstn_incl|exact El].
Qed.

Lemma C88_lemma f sf pow10 re named k w old s0 ids n ex s1 :
  any_order w -> sy_loops s0 = [] -> restart f sf pow10 re named w old s0 = Ok (BZones ids n, (ex, s1)) -> ids <> [] ->
  let s := after_tries k (BZones ids n) in
  m_stopped s = false /\ live s = map (fun i => (i, 1)) (firstn n ids) /\ loops_of (firstn n ids) s1 /\
  (n = List.length ids /\ m_rtimer s = false \/ n < List.length ids /\ m_rtimer s = true).
Proof.
  intros Or El H Ne s. destruct (restart_zones _ _ _ _ _ _ _ _ _ _ _ _ Or El H) as (Nd & L & Lo).
  destruct (tries_zones k ids n Ne Nd L) as (A & B & D). fold s in A, B, D. split; [exact A|]. split; [exact B|]. split; [exact Lo|].
  rewrite D. destruct (Nat.eqb_spec n (List.length ids)); [left; auto|right; split; [lia|reflexivity]].
Qed.

(** ** C89 *)

Lemma checked_file dk o : checked dk false o = true <-> is_file dk o.
Proof.
  unfold checked, is_file, present. destruct o as [p|]; [|split; [intros _ p X; discriminate X|reflexivity]].
  split.
  - intros H q E. injection E as <-. destruct (dk_exists dk p) as [[]|]; try discriminate H.
    destruct (dk_isdir dk p); [discriminate H|]. auto.
  - intros H. destruct (H p eq_refl) as (-> & ->). reflexivity.
Qed.
Lemma checked_dir dk o : checked dk true o = true <-> is_directory dk o.
Proof.
  unfold checked, is_directory, present. destruct o as [p|]; [|split; [intros _ p X; discriminate X|reflexivity]].
  split.
  - intros H q E. injection E as <-. destruct (dk_exists dk p) as [[]|]; try discriminate H.
    destruct (dk_isdir dk p); [|discriminate H]. auto.
  - intros H. destruct (H p eq_refl) as (-> & ->). reflexivity.
Qed.

Lemma C89_refused_lemma cl dk :
  main_options cl dk = Ok None <-> ~ (is_file dk (cl_conf cl) /\ is_directory dk (cl_log cl)).
Proof.
  rewrite <- checked_file, <- checked_dir. unfold main_options.
  destruct (checked dk false (cl_conf cl)), (checked dk true (cl_log cl)); cbn [andb].
  - split; [|intros H; elim H; auto]. intros H. exfalso.
    apply bind_ok in H. destruct H as (d & _ & H). apply bind_ok in H. destruct H as (g & _ & H).
    apply bind_ok in H. destruct H as (t & _ & H). apply bind_ok in H. destruct H as (b & _ & H).
    apply bind_ok in H. destruct H as (c & _ & H). discriminate H.
  - split; [intros _ (_ & X); discriminate X|reflexivity].
  - split; [intros _ (X & _); discriminate X|reflexivity].
  - split; [intros _ (X & _); discriminate X|reflexivity].
Qed.

Lemma exists_file_iff dk p b : exists_file dk p = Ok b -> (b = true <-> present dk p) /\ (b = false <-> absent dk p).
Proof.
  unfold exists_file, present, absent. destruct (dk_exists dk p) as [x|]; [|discriminate]. intros H. injection H as ->.
  destruct b; intuition (try discriminate; congruence).
Qed.

Lemma C89_lemma cl dk o : cl_log cl <> Some "" -> main_options cl dk = Ok (Some o) ->
  op_configPath o = given (cl_conf cl) /\
  (op_tuningEnabled o = true <-> cl_tuning cl = true \/ present dk tuning_file) /\
  (op_debugEnabled o = true <-> cl_debug cl = true \/ present dk debugging_file) /\
  (op_coreLoggingEnabled o = true <-> cl_corelogging cl = true \/ present dk corelogging_file) /\
  (op_loggingEnabled o = true <-> cl_log cl <> None \/ dk_line dk logging_file <> None) /\
  (op_loggingEnabled o = true -> log_folder cl dk (op_loggingPath o)).
Proof.
  intros Ne H. unfold main_options in H.
  destruct (checked dk false (cl_conf cl) && checked dk true (cl_log cl)); [|discriminate H].
  apply bind_ok in H. destruct H as ((dp & de) & Hd & H). apply bind_ok in H. destruct H as ((lp & le) & Hl & H).
  apply bind_ok in H. destruct H as (t & Ht & H). apply bind_ok in H. destruct H as (b & Hb & H).
  apply bind_ok in H. destruct H as (c & Hc & H). injection H as <-. cbn [op_configPath op_tuningEnabled op_debugEnabled
    op_coreLoggingEnabled op_loggingEnabled op_loggingPath fst snd] in *.
  destruct (exists_file_iff _ _ _ Ht) as (It & _), (exists_file_iff _ _ _ Hb) as (Ib & _), (exists_file_iff _ _ _ Hc) as (Ic & _).
  split; [reflexivity|].
  split; [rewrite orb_true_iff; unfold tuning_file; tauto|]. split; [rewrite orb_true_iff; unfold debugging_file; tauto|].
  split; [rewrite orb_true_iff; unfold corelogging_file; tauto|].
  assert (Hd' : cl_log cl = Some dp /\ de = true \/ cl_log cl = None /\ dk_tmp dk = Some dp /\ de = false).
  { unfold given in Hd. destruct (cl_log cl) as [p|].
    - destruct (String.eqb_spec p ""); [subst; congruence|]. injection Hd as <- <-. auto.
    - cbn [String.eqb] in Hd. destruct (dk_tmp dk); [|discriminate Hd]. injection Hd as <- <-. auto. }
  unfold log_folder, logging_file in *. destruct (dk_line dk "/etc/thermal.d/logging") as [alt|] eqn:El.
  - apply bind_ok in Hl. destruct Hl as (there & He & Hl). injection Hl as <- <-.
    destruct (exists_file_iff _ _ _ He) as (I1 & I2).
    split; [split; [intros _; right; discriminate|reflexivity]|]. intros _. destruct there.
    + left. exists alt. split; [reflexivity|]. split; [apply I1; reflexivity|reflexivity].
    + right. split; [intros p E; injection E as <-; apply I2; reflexivity|].
      destruct Hd' as [(E & _)|(E1 & E2 & _)]; auto.
  - injection Hl as <- <-. cbn [snd]. destruct Hd' as [(E & ->)|(E1 & E2 & ->)].
    + rewrite E. split; [split; [intros _; left; discriminate|reflexivity]|]. intros _. right.
      split; [intros p X; discriminate X|left; reflexivity].
    + rewrite E1. split; [split; [discriminate|intros [X|X]; elim X; reflexivity]|discriminate].
Qed.

Lemma C89_all_lemma cl dk o strict offline : cl_log cl <> Some "" -> main_options cl dk = Ok (Some o) ->
  let f := flags_of strict offline o in
  op_configPath o = given (cl_conf cl) /\ STRICT_FAILSAFE_PWM f = strict /\ OFFLINE_FAILSAFE_PWM f = offline /\
  (tuningEnabled f = true <-> cl_tuning cl = true \/ present dk tuning_file) /\
  (debugEnabled f = true <-> cl_debug cl = true \/ present dk debugging_file) /\
  (coreLoggingEnabled (core_of o) = true <-> cl_corelogging cl = true \/ present dk corelogging_file) /\
  (loggingEnabled f = true <-> cl_log cl <> None \/ dk_line dk logging_file <> None) /\
  (loggingEnabled f = true -> exists folder, log_folder cl dk folder /\ loggingPath (core_of o) = folder /\
     forall zone, zone_log_file o zone = Some (folder ++ "/zone_" ++ to_string zone ++ ".log")) /\
  (loggingEnabled f = false -> forall zone, zone_log_file o zone = None).
Proof.
  intros Ne H. destruct (C89_lemma _ _ _ Ne H) as (A1 & A2 & A3 & A4 & A5 & A6). cbv zeta.
  cbn [flags_of core_of tuningEnabled debugEnabled loggingEnabled STRICT_FAILSAFE_PWM OFFLINE_FAILSAFE_PWM coreLoggingEnabled loggingPath].
  split; [exact A1|]. split; [reflexivity|]. split; [reflexivity|]. split; [exact A2|]. split; [exact A3|]. split; [exact A4|]. split; [exact A5|]. split.
  - intros E. exists (op_loggingPath o). split; [exact (A6 E)|]. split; [reflexivity|]. intros zone. unfold zone_log_file. rewrite E. reflexivity.
  - intros E zone. unfold zone_log_file. rewrite E. reflexivity.
Qed.
