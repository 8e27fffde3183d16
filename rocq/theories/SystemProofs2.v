(** * What a poll of the running daemon sees (C61). *)
From Coq Require Import ZArith Bool List String Lia Reals.
From Coq Require Import Floats.SpecFloat.
From Flocq Require Import Core BinarySingleNaN.
From Verif Require Import Base BaseFacts Dbl DblFacts DblOrder DblBound PidModel ZoneModel LoopModel SpecZone ZoneProofs
  LoopProofs SensorModel SpecSensor SensorProofs WriteModel ConfigModel SystemModel SpecSystem SpecWrite PathProofs SystemProofs.
Import ListNotations.
Local Open Scope string_scope.
Local Open Scope Z_scope.

Lemma dmul_1_eq (x : dbl) : dmul x (D 1) = x.
Proof.
  destruct x as [s|s| |s m e H]; try (destruct s; reflexivity); try reflexivity.
  set (x := B754_finite s m e H). assert (F : dfinite x) by reflexivity.
  assert (F1 : dfinite (D 1)) by reflexivity.
  pose proof (dmul_Rx _ _ F F1) as [N E].
  assert (R1 : Rx (D 1) = 1%R) by (apply DblBound.D_exact; lia).
  rewrite R1, Rmult_1_r, (Rx_finite _ F), clip_RN_B2R in E.
  assert (F2 : dfinite (dmul x (D 1))).
  { unfold dfinite. change (is_finite (dmul x (D 1))) with (disfinite (dmul x (D 1))). rewrite dmul_1. reflexivity. }
  rewrite (Rx_finite _ F2) in E.
  apply B2R_inj; [|reflexivity|exact E].
  unfold dfinite in F2. destruct (dmul x (D 1)) as [b|b| |b m' e' H'] eqn:K; try discriminate; [|reflexivity].
  exfalso. cbn in E. symmetry in E. revert E. apply Float_prop.F2R_neq_0.
  cbn. destruct s; discriminate.
Qed.

Lemma runs_sensor f sf pow10 sb config failures first devices zs evs s name info :
  runs f sf pow10 sb config failures first devices zs evs s ->
  In (name, info) config -> known_type (sc_type info) ->
  exists x0 x, sensor_for sf pow10 sb name info x0 /\ mget name (sy_sensors s) = Some x /\
    foldM (core_after sf pow10 name) evs (core x0) = Ok (core x) /\
    (forall path, In path (sy_failures s) <-> marked_failed failures path evs) /\
    sy_power s = fold_left handleStateChange (host_changes evs) (host_initial first).
Proof.
  intros [Nd Fr (m & s0 & B & St & R)] I K.
  destruct (C60_lemma _ _ _ _ _ B Nd) as (A & _). destruct (A _ _ I K) as (x0 & E0 & S0).
  apply start_rest in St. cbn in St. destruct St as (E1 & E2 & E3 & _).
  pose proof (run_core f sf pow10 name evs s0 s R) as C. rewrite E1, E0 in C.
  destruct C as (x & Ex & Cx). apply run_failures in R. destruct R as (R1 & R2). rewrite E2 in R1. rewrite E3 in R2.
  exists x0, x. repeat (split; [assumption|]). split; [|symmetry; exact R2].
  intros path. apply C47_lemma. exact R1.
Qed.

Lemma create_path sf pow10 now type id b info p :
  createDbusPassive sf pow10 now type id b info = Some p -> sc_readPath info <> "" ->
  p_path p = sc_readPath info.
Proof.
  intros C Ne. apply create_cases in C. destruct C as (_ & [(_ & _ & _ & C & _)|(_ & i & _ & _ & C)]).
  - rewrite C. unfold path_of. destruct (String.eqb_spec (sc_readPath info) ""); congruence.
  - apply (f_equal (fun t => snd (fst (fst (fst (fst t)))))) in C. cbn in C. rewrite C.
    unfold path_of. destruct (String.eqb_spec (sc_readPath info) ""); congruence.
Qed.

Lemma bus_not_others p : bus_path p -> ~ external_path p /\ ~ sysfs_path p /\ p <> "".
Proof.
  unfold bus_path, sysfs_path, no_path. intros (A & B & C). repeat split; try tauto.
Qed.

Lemma runs_passive f sf pow10 sb config failures first devices zs evs s name info :
  runs f sf pow10 sb config failures first devices zs evs s ->
  In (name, info) config -> known_type (sc_type info) -> bus_path (sc_readPath info) ->
  exists p0 p w red,
    createDbusPassive sf pow10 (sb_now sb name) (sc_type info) name (sb_replies sb name) info = Some p0 /\
    passive_run sf pow10 p0 (heard (sc_readPath info) evs) = Ok p /\
    (red = true <-> sc_type info = "fan") /\
    mget name (sy_sensors s) = Some (Pluggable (sc_timeout info) (RPassive p red) w (sc_ignoreFailIfHostOff info)).
Proof.
  intros R I K Bp. destruct (runs_sensor _ _ _ _ _ _ _ _ _ _ _ _ _ R I K) as (x0 & x & S0 & Ex & C & _).
  destruct (bus_not_others _ Bp) as (N1 & N2 & N3).
  destruct S0 as (_ & S0). destruct x0 as [t r w i|t i h]; [|tauto].
  destruct S0 as (_ & -> & -> & Rd & _).
  destruct r as [p0 red|q| |]; cbn in Rd; try tauto.
  destruct Rd as (_ & Cr & Red). cbn [core] in C. apply passive_core in C. destruct C as (p & Cx & Pr).
  rewrite (create_path _ _ _ _ _ _ _ _ Cr N3) in Pr.
  destruct x as [t' r' w' i'|t' i' h']; cbn in Cx; [|discriminate]. injection Cx as -> -> _ ->.
  exists p0, p, w', red. repeat split; auto; tauto.
Qed.

Lemma C61_lemma f sf pow10 sb config failures first devices zs evs s name info files now :
  runs f sf pow10 sb config failures first devices zs evs s ->
  In (name, info) config -> known_type (sc_type info) -> bus_path (sc_readPath info) ->
  exists v, pe_sensor (view_env s files now) name = Some v /\
    sv_timeout v = sc_timeout info /\
    (sv_failed v = true <->
     bus_failed sf pow10 sb failures name info evs /\
     (sc_ignoreFailIfHostOff info = true -> host_on first (host_changes evs))).
Proof.
  intros R I K Bp. destruct (runs_passive _ _ _ _ _ _ _ _ _ _ _ _ _ R I K Bp) as (p0 & p & w & red & Cr & Pr & Red & Ex).
  destruct (runs_sensor _ _ _ _ _ _ _ _ _ _ _ _ _ R I K) as (_ & _ & _ & _ & _ & Fl & Pw).
  cbn [view_env pe_sensor]. rewrite Ex. cbn [sensor_poll reader_read reader_getFailed bind].
  eexists. split; [reflexivity|]. cbn [sv_timeout sv_failed]. split; [reflexivity|].
  rewrite Pw. rewrite C46_pluggable_lemma. rewrite (C29_lemma _ _ _ _ _ _ _ _ _ _ _ Cr Pr).
  destruct (bus_not_others _ Bp) as (_ & _ & N3).
  assert (P : path_of (sc_type info) name info = sc_readPath info).
  { unfold path_of. destruct (String.eqb_spec (sc_readPath info) ""); congruence. }
  rewrite P. unfold bus_failed.
  assert (Eq : (exists l, (if red then Some (sy_failures s) else None) = Some l /\ In (sc_readPath info) l) <->
               sc_type info = "fan" /\ marked_failed failures (sc_readPath info) evs).
  { rewrite <- Red, <- Fl. destruct red; split.
    - intros (l & E & Il). injection E as <-. auto.
    - intros (_ & Il). eauto.
    - intros (l & E & _). discriminate.
    - intros (E & _). discriminate. }
  rewrite Eq. tauto.
Qed.

Lemma C61_value_lemma f sf pow10 sb config failures first devices zs evs s name info files now i :
  runs f sf pow10 sb config failures first devices zs evs s ->
  In (name, info) config -> known_type (sc_type info) -> bus_path (sc_readPath info) ->
  starts sf (sb_now sb name) (sb_replies sb name) info i -> ~ missing (sb_replies sb name) ->
  notnan (dmul (i_min i) (pow10 (i_scale i))) -> notnan (dmul (i_max i) (pow10 (i_scale i))) ->
  exists v, pe_sensor (view_env s files now) name = Some v /\
    let r := latest accepted (i_value i, i_now i) (heard (sc_readPath info) evs) in
    sv_unscaled v = dmul (fst r) (pow10 (i_scale i)) /\
    sv_value v = normalise (dmul (i_min i) (pow10 (i_scale i))) (dmul (i_max i) (pow10 (i_scale i))) (sv_unscaled v) /\
    sv_updated v = snd r.
Proof.
  intros R I K Bp St Nm N1 N2.
  destruct (runs_passive _ _ _ _ _ _ _ _ _ _ _ _ _ R I K Bp) as (p0 & p & w & red & Cr & Pr & Red & Ex).
  cbn [view_env pe_sensor]. rewrite Ex. cbn [sensor_poll reader_read reader_getFailed bind].
  eexists. split; [reflexivity|]. cbn [sv_value sv_unscaled sv_updated].
  pose proof (C30_lemma _ _ _ _ _ _ _ _ _ _ _ Cr St Nm N1 N2 Pr) as V.
  destruct (latest accepted (i_value i, i_now i) (heard (sc_readPath info) evs)) as [v t].
  rewrite V. cbn. auto.
Qed.

Lemma host_run_value now h : hs_value (fold_left host_setValue h (host_createTemp now)) =
  latest (fun e => Some (fst e)) d0 h.
Proof.
  induction h as [|e h IH] using rev_ind.
  - apply dmul_1_eq.
  - rewrite fold_left_app, latest_snoc. cbn [fold_left host_setValue hs_value]. apply dmul_1_eq.
Qed.

Lemma C61_external_lemma f sf pow10 sb config failures first devices zs evs s name info files now :
  runs f sf pow10 sb config failures first devices zs evs s ->
  In (name, info) config -> known_type (sc_type info) -> external_path (sc_readPath info) ->
  sc_type info <> "fan" ->
  exists v, pe_sensor (view_env s files now) name = Some v /\
    let r := latest Some (d0, sb_now sb name) (host_values name evs) in
    sv_timeout v = sc_timeout info /\ sv_value v = fst r /\ sv_unscaled v = fst r /\ sv_updated v = snd r /\
    (sv_failed v = true <-> disfinite (fst r) = false).
Proof.
  intros R I K Ep Nf. destruct (runs_sensor _ _ _ _ _ _ _ _ _ _ _ _ _ R I K) as (x0 & x & S0 & Ex & C & Fl & Pw).
  destruct S0 as (_ & S0). destruct x0 as [t r w i|t i h].
  { destruct S0 as ([?|?] & _); contradiction. }
  destruct S0 as (_ & _ & -> & -> & V & U).
  assert (h = host_createTemp (sb_now sb name)) as -> by (destruct h; cbn in V, U; subst; reflexivity).
  cbn [core] in C. apply host_core in C.
  destruct x as [t' r' w' i'|t' i' h']; cbn in C; [discriminate|]. injection C as -> -> ->.
  cbn [view_env pe_sensor]. rewrite Ex. cbn [sensor_poll].
  eexists. split; [reflexivity|]. cbv zeta.
  assert (L : latest Some (d0, sb_now sb name) (host_values name evs) =
    (latest (fun e => Some (fst e)) d0 (host_values name evs),
     latest (fun e => Some (snd e)) (sb_now sb name) (host_values name evs))).
  { induction (host_values name evs) as [|e h IH] using rev_ind; [reflexivity|].
    rewrite !latest_snoc. destruct e; reflexivity. }
  rewrite L. cbn [fst snd sv_timeout sv_value sv_unscaled sv_updated sv_failed].
  split; [reflexivity|]. split; [apply host_run_value|]. split; [apply host_run_value|].
  split; [apply host_run_updated|].
  rewrite Pw. rewrite C46_host_sensor_lemma. intuition congruence.
Qed.

Lemma runs_resolved f sf pow10 sb config failures first devices zs evs s name info :
  runs f sf pow10 sb config failures first devices zs evs s ->
  In (name, info) config -> known_type (sc_type info) -> sysfs_path (sc_readPath info) ->
  exists path, resolves (sb_dir sb) (sc_readPath info) path.
Proof.
  intros R I K Sp. destruct (runs_sensor _ _ _ _ _ _ _ _ _ _ _ _ _ R I K) as (x0 & x & S0 & _).
  assert (N : ~ bus_path (sc_readPath info) /\ ~ external_path (sc_readPath info)).
  { unfold bus_path, external_path, sysfs_path in *. destruct Sp as (A & B & D). split; [tauto|].
    intros (_ & E). apply B. apply ext_contains. exact E. }
  destruct S0 as (_ & S0). destruct x0 as [t rd w i|t i h]; [|tauto].
  destruct S0 as (_ & _ & _ & Rd & _). destruct rd as [p0 red|q| |]; cbn in Rd; try tauto.
  exists q. apply Rd.
Qed.

Lemma C61_sysfs_lemma f sf pow10 sb config failures first devices zs evs s name info path files now r :
  runs f sf pow10 sb config failures first devices zs evs s ->
  In (name, info) config -> known_type (sc_type info) -> sysfs_path (sc_readPath info) ->
  resolves (sb_dir sb) (sc_readPath info) path -> files path = FileInt r ->
  exists v, pe_sensor (view_env s files now) name = Some v /\
    sv_timeout v = sc_timeout info /\ sv_value v = D r /\ sv_unscaled v = D r /\ sv_updated v = now /\
    sv_failed v = false.
Proof.
  intros R I K Sp Rs Fi. destruct (runs_sensor _ _ _ _ _ _ _ _ _ _ _ _ _ R I K) as (x0 & x & S0 & Ex & C & Fl & Pw).
  assert (N : ~ bus_path (sc_readPath info) /\ ~ external_path (sc_readPath info)).
  { unfold bus_path, external_path, sysfs_path in *. destruct Sp as (A & B & D). split; [tauto|].
    intros (_ & E). apply B. apply ext_contains. exact E. }
  destruct S0 as (_ & S0). destruct x0 as [t rd w i|t i h]; [|tauto].
  destruct S0 as (_ & -> & -> & Rd & _). destruct rd as [p0 red|q| |]; cbn in Rd; try tauto.
  destruct Rd as (_ & Rd). assert (q = path) as -> by (eapply resolves_unique; eassumption).
  cbn [core] in C. apply sysfs_core in C.
  destruct x as [t' r' w' i'|t' i' h']; cbn in C; [|discriminate]. injection C as -> -> _ ->.
  cbn [view_env pe_sensor]. rewrite Ex. cbn [sensor_poll reader_read]. rewrite Fi. cbn.
  eexists. split; [reflexivity|]. cbn. repeat split.
Qed.
