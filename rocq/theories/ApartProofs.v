(** * Proofs for C109: what a zone of the daemon depends on. *)
From Coq Require Import ZArith Bool List String Lia.
From Verif Require Import Base BaseFacts Dbl PidModel ZoneModel LoopModel SpecZone ZoneFrame ZoneFan ZoneProofs LoopProofs
  ReactionProofs SensorModel SpecSensor SensorProofs WriteModel SpecWrite WriteProofs BuilderModel SpecBuilder BuilderProofs
  BuilderRun SystemModel SpecSystem SystemProofs SystemProofs2 SystemProofs3 SpecDaemon SpecLife LifeProofs SpecCool SpecLocal
  LocalProofs SpecApart.
Import ListNotations.
Local Open Scope string_scope.

(** ** Matching the two histories *)
Inductive aligned {A : Type} (c : A -> bool) (R : A -> A -> Prop) : list A -> list A -> Prop :=
| al_nil : aligned c R [] []
| al_left x a b : c x = false -> aligned c R a b -> aligned c R (x :: a) b
| al_right y a b : c y = false -> aligned c R a b -> aligned c R a (y :: b)
| al_both x y a b : c x = true -> c y = true -> R x y -> aligned c R a b -> aligned c R (x :: a) (y :: b).

Lemma aligned_filter {A : Type} (c : A -> bool) (R : A -> A -> Prop) : forall a b,
  Forall2 R (filter c a) (filter c b) -> aligned c R a b.
Proof.
  induction a as [|x a IH]; intros b H.
  - induction b as [|y b IHb]; [constructor|]. cbn [filter] in H. destruct (c y) eqn:E; [inversion H|].
    apply al_right; [exact E|apply IHb, H].
  - cbn [filter] in H. destruct (c x) eqn:Ex; [|apply al_left; [exact Ex|apply IH, H]].
    induction b as [|y b IHb]; [inversion H|]. cbn [filter] in H. destruct (c y) eqn:Ey.
    + inversion H; subst. apply al_both; auto.
    + apply al_right; [exact Ey|apply IHb, H].
Qed.

(** ** Where sensors are read from *)
Definition place_ok (sb : sensor_bus) (info : SensorConfig) (x : sensor) : Prop :=
  match x with
  | Pluggable _ (RPassive p _) _ _ => p_path p = sc_readPath info
  | Pluggable _ (RSysfs q) _ _ => resolves (sb_dir sb) (sc_readPath info) q
  | _ => True
  end.
Definition placed (sb : sensor_bus) (config : smap SensorConfig) (s : system) : Prop :=
  forall n x, cores s n = Some x -> exists info, In (n, info) config /\ place_ok sb info x.

Lemma signal_place sf pow10 sb info path m x x' : sensor_signal sf pow10 path m x = Ok x' -> place_ok sb info x -> place_ok sb info x'.
Proof.
  unfold sensor_signal. destruct x as [t [p red|q| |] w i|t i h]; try (intros H; injection H as <-; auto).
  intros H. destruct (String.eqb (p_path p) path); [|injection H as <-; auto].
  apply bind_ok in H. destruct H as (p1 & Hp & H). injection H as <-. cbn.
  assert (F : fixed p1 = fixed p).
  { apply (run_fixed sf pow10 [m]). unfold passive_run. cbn. rewrite Hp. reflexivity. }
  apply fixed_eq in F. destruct F as (_ & -> & _). auto.
Qed.

Lemma core_place sf pow10 sb info n e x x' : core_after sf pow10 n x e = Ok x' -> place_ok sb info x -> place_ok sb info x'.
Proof.
  destruct e as [path m|n' v t|m|c|j w|j b|j p b]; cbn [core_after]; try (intros H; injection H as <-; auto).
  - apply signal_place.
  - destruct (String.eqb n n'); [|auto]. destruct x; auto.
Qed.

Lemma step_cores f sf pow10 s e s' n : sys_step f sf pow10 s e = Ok s' ->
  match cores s n with
  | Some x => exists x', cores s' n = Some x' /\ core_after sf pow10 n x e = Ok x'
  | None => cores s' n = None
  end.
Proof.
  intros H. apply (step_core _ _ _ _ _ _ n) in H. unfold cores.
  destruct (mget n (sy_sensors s)) as [x|]; cbn [option_map].
  - destruct H as (x' & -> & C). exists (core x'). split; [reflexivity|exact C].
  - rewrite H. reflexivity.
Qed.

Lemma step_placed f sf pow10 sb config s e s' : sys_step f sf pow10 s e = Ok s' -> placed sb config s -> placed sb config s'.
Proof.
  intros H P n x E. apply (step_cores _ _ _ _ _ _ n) in H. destruct (cores s n) as [y|] eqn:Ey.
  - destruct H as (x' & E' & C). assert (x' = x) by congruence. subst x'.
    destruct (P n y Ey) as (info & I & Q). exists info. split; [exact I|]. eapply core_place; eassumption.
  - congruence.
Qed.

(** ** The daemon as the zone sees it *)
Record seen_alike (z : zone) (s1 s2 : system) : Prop := SeenAlike {
  sa_cores : forall n, input_of z n = true -> cores s1 n = cores s2 n;
  sa_failures : sy_failures s1 = sy_failures s2;
  sa_power : sy_power s1 = sy_power s2
}.

Lemma seen_refl z s : seen_alike z s s.
Proof. constructor; reflexivity. Qed.
Lemma seen_sym z a b : seen_alike z a b -> seen_alike z b a.
Proof. intros [A B C]. constructor; [intros n I; symmetry; apply A, I|congruence|congruence]. Qed.
Lemma seen_trans z a b c : seen_alike z a b -> seen_alike z b c -> seen_alike z a c.
Proof. intros [A B C] [A' B' C']. constructor; [intros n I; rewrite A by exact I; apply A', I|congruence|congruence]. Qed.

(** An event that does not concern the zone. *)
Lemma skip_seen f sf pow10 sb config i z s e s' : placed sb config s -> concerns config i z e = false ->
  sys_step f sf pow10 s e = Ok s' -> seen_alike z s s' /\ proj f sf pow10 i [e] s = [].
Proof.
  intros P N H. assert (Fl := step_failures _ _ _ _ _ _ H). split.
  - constructor.
    + intros n I. apply (step_cores _ _ _ _ _ _ n) in H. destruct (cores s n) as [x|] eqn:E; [|congruence].
      destruct H as (x' & E' & C). rewrite E'. f_equal.
      destruct e as [path m|n' v t|m|c|j w|j b|j p b]; cbn [core_after] in C; try (injection C as <-; reflexivity).
      * unfold sensor_signal in C. destruct x as [t [p red|q| |] w ig|t ig h]; try (injection C as <-; reflexivity).
        destruct (String.eqb_spec (p_path p) path) as [Ep|_]; [|injection C as <-; reflexivity].
        exfalso. destruct (P n _ E) as (info & J & Q). cbn in Q. cbn [concerns] in N.
        assert (T : existsb (fun c => (input_of z (fst c) && String.eqb (sc_readPath (snd c)) path)%bool) config = true).
        { apply existsb_exists. exists (n, info). split; [exact J|]. cbn [fst snd]. rewrite I, <- Q, Ep.
          cbn. apply String.eqb_refl. }
        congruence.
      * injection C as <-. destruct (String.eqb_spec n n') as [<-|_]; [|reflexivity].
        cbn [concerns] in N. congruence.
    + destruct Fl as (Fl & _). destruct e; cbn in Fl, N; try discriminate N; injection Fl as Fl; exact Fl.
    + destruct Fl as (_ & Fl). destruct e; cbn in Fl, N; try discriminate N; exact Fl.
  - cbn [proj]. rewrite H, app_nil_r. destruct e; cbn [concerns] in N; try rewrite N; reflexivity.
Qed.

(** What polls show of the zone's sensors. *)
Lemma poll_core failures power files now x :
  sensor_poll failures power files now (core x) = sensor_poll failures power files now x.
Proof. destruct x; reflexivity. Qed.

Lemma view_same sb config z s1 s2 files1 files2 now n : placed sb config s1 -> seen_alike z s1 s2 ->
  same_files sb config z files1 files2 -> input_of z n = true ->
  pe_sensor (view_env s1 files1 now) n = pe_sensor (view_env s2 files2 now) n.
Proof.
  intros P [A B C] F I. cbn [view_env pe_sensor]. specialize (A n I). unfold cores in A.
  destruct (mget n (sy_sensors s1)) as [x|] eqn:E1, (mget n (sy_sensors s2)) as [y|] eqn:E2; cbn [option_map] in A;
    [|discriminate A|discriminate A|reflexivity].
  injection A as A. rewrite <- (poll_core _ _ _ _ x), <- (poll_core _ _ _ _ y), <- A, B, C.
  destruct (P n (core x)) as (info & J & Q). { unfold cores. rewrite E1. reflexivity. }
  destruct (core x) as [t [p red|q| |] w ig|t ig h]; cbn [sensor_poll]; try reflexivity.
  cbn in Q. unfold reader_read. rewrite (F n info q J I Q). reflexivity.
Qed.

Lemma input_fan z n : In n (z_fanInputs z) -> input_of z n = true.
Proof. intros I. unfold input_of. apply smem_In in I. rewrite I. reflexivity. Qed.
Lemma input_thermal z n : In n (z_thermalInputs z) -> input_of z n = true.
Proof. intros I. unfold input_of. apply smem_In in I. rewrite I. apply orb_true_r. Qed.

Lemma views_alike sb config z s1 s2 files1 files2 now names : placed sb config s1 -> seen_alike z s1 s2 ->
  same_files sb config z files1 files2 -> (forall n, In n names -> input_of z n = true) ->
  same_values names (view_env s1 files1 now) (view_env s2 files2 now) /\
  same_health z names (view_env s1 files1 now) (view_env s2 files2 now).
Proof.
  intros P A F I. split.
  - intros n J. rewrite (view_same _ _ _ _ _ _ _ now n P A F (I n J)). split; reflexivity.
  - intros n J _. unfold found_bad. rewrite (view_same _ _ _ _ _ _ _ now n P A F (I n J)). cbn [pe_now view_env]. reflexivity.
Qed.

(** An event that concerns the zone. *)
Lemma same_seen f sf pow10 sb config i z s1 s2 e1 e2 y1 y2 : placed sb config s1 -> seen_alike z s1 s2 ->
  same_event sb config z e1 e2 -> sys_step f sf pow10 s1 e1 = Ok y1 -> sys_step f sf pow10 s2 e2 = Ok y2 ->
  seen_alike z y1 y2 /\
  Forall2 (same_but_other_fans (z_fanInputs z) z) (proj f sf pow10 i [e1] s1) (proj f sf pow10 i [e2] s2).
Proof.
  intros P A S Y1 Y2. split.
  - assert (Ce : forall n x, core_after sf pow10 n x e1 = core_after sf pow10 n x e2).
    { intros n x. destruct e1, e2; cbn in S; try discriminate S; try (rewrite S; reflexivity); reflexivity. }
    destruct A as [A B C]. assert (F1 := step_failures _ _ _ _ _ _ Y1). assert (F2 := step_failures _ _ _ _ _ _ Y2).
    rewrite B, C in F1. constructor.
    + intros n I. apply (step_cores _ _ _ _ _ _ n) in Y1, Y2. rewrite (A n I) in Y1.
      destruct (cores s2 n) as [x|]; [|congruence].
      destruct Y1 as (x1 & -> & C1), Y2 as (x2 & -> & C2). rewrite Ce, C2 in C1. congruence.
    + destruct F1 as (F1 & _), F2 as (F2 & _).
      assert (E : redundancy_news [e1] = redundancy_news [e2]).
      { destruct e1, e2; cbn in S; try discriminate S; try (rewrite S; reflexivity); reflexivity. }
      rewrite E in F1. congruence.
    + destruct F1 as (_ & F1), F2 as (_ & F2).
      assert (E : host_changes [e1] = host_changes [e2]).
      { destruct e1, e2; cbn in S; try discriminate S; try (rewrite S; reflexivity); reflexivity. }
      rewrite E in F1. congruence.
  - cbn [proj]. rewrite Y1, Y2, !app_nil_r.
    destruct e1 as [path1 m1|n1 v1 t1|m1|c1|j1 w1|j1 b1|j1 p1 b1], e2 as [path2 m2|n2 v2 t2|m2|c2|j2 w2|j2 b2|j2 p2 b2];
      cbn in S; try discriminate S; try constructor.
    + destruct S as (<- & N1 & N2 & T & F1 & F2). destruct (Nat.eqb j1 i); [|constructor].
      constructor; [|constructor]. unfold tick_of. cbn [same_but_other_fans tk_fan tk_therm tk_tune]. rewrite N1, N2.
      split. { refine (proj1 (views_alike sb config z _ _ _ _ _ _ P A F1 _)). intros n I. apply in_app_iff in I.
               destruct I as [I|I]; [apply input_fan, I|apply input_thermal, I]. }
      split. { exact (proj1 (views_alike sb config z _ _ _ _ _ _ P A F2 (input_thermal z))). }
      split. { exact (proj2 (views_alike sb config z _ _ _ _ _ _ P A F1 (input_fan z))). }
      split; [exact (proj2 (views_alike sb config z _ _ _ _ _ _ P A F2 (input_thermal z)))|exact T].
    + injection S as -> ->. destruct (Nat.eqb j2 i); constructor; [reflexivity|constructor].
    + injection S as -> -> ->. destruct (Nat.eqb j2 i); constructor; [split; reflexivity|constructor].
Qed.

Lemma runs_alike f sf pow10 sb config i z evs1 evs2 :
  aligned (concerns config i z) (same_event sb config z) evs1 evs2 ->
  forall s1 s2 y1 y2, placed sb config s1 -> placed sb config s2 -> seen_alike z s1 s2 ->
  sys_run f sf pow10 evs1 s1 = Ok y1 -> sys_run f sf pow10 evs2 s2 = Ok y2 ->
  Forall2 (same_but_other_fans (z_fanInputs z) z) (proj f sf pow10 i evs1 s1) (proj f sf pow10 i evs2 s2).
Proof.
  intros H. induction H as [|e a b N H IH|e a b N H IH|e1 e2 a b N1 N2 S H IH]; intros s1 s2 y1 y2 P1 P2 A Y1 Y2.
  - constructor.
  - unfold sys_run in Y1. cbn [foldM] in Y1. apply bind_ok in Y1. destruct Y1 as (x1 & X1 & Y1).
    destruct (skip_seen _ _ _ _ _ _ _ _ _ _ P1 N X1) as (Sk & E).
    rewrite (proj_cons _ _ _ _ _ _ _ _ X1), E. cbn [app].
    apply (IH x1 s2 y1 y2); auto; [eapply step_placed; eassumption|].
    eapply seen_trans; [apply seen_sym, Sk|exact A].
  - unfold sys_run in Y2. cbn [foldM] in Y2. apply bind_ok in Y2. destruct Y2 as (x2 & X2 & Y2).
    destruct (skip_seen _ _ _ _ _ _ _ _ _ _ P2 N X2) as (Sk & E).
    rewrite (proj_cons _ _ _ _ _ _ _ _ X2), E. cbn [app].
    apply (IH s1 x2 y1 y2); auto; [eapply step_placed; eassumption|].
    eapply seen_trans; [exact A|exact Sk].
  - unfold sys_run in Y1, Y2. cbn [foldM] in Y1, Y2. apply bind_ok in Y1, Y2.
    destruct Y1 as (x1 & X1 & Y1), Y2 as (x2 & X2 & Y2).
    destruct (same_seen f sf pow10 sb config i z _ _ _ _ _ _ P1 A S X1 X2) as (A' & F).
    rewrite (proj_cons _ _ _ _ _ _ _ _ X1), (proj_cons _ _ _ _ _ _ _ _ X2). apply Forall2_app; [exact F|].
    apply (IH x1 x2 y1 y2); auto; eapply step_placed; eassumption.
Qed.

(** ** Starting *)
Lemma start_views f zs : forall s s' i st z, foldM (start_zone f) zs s = Ok s' -> nth_error zs i = Some (st, z) ->
  exists l, nth_error (sy_loops s') (List.length (sy_loops s) + i) = Some l /\
    loop_start f (view_env s (st_files st) (st_now st)) (st_tune st) (st_timer st) z = Ok l.
Proof.
  induction zs as [|[st0 z0] r IH]; intros s s' i st z H E; cbn [foldM] in H; [destruct i; discriminate E|].
  apply bind_ok in H. destruct H as (s1 & H1 & H2). unfold start_zone in H1.
  apply bind_ok in H1. destruct H1 as ([] & _ & H1). apply bind_ok in H1. destruct H1 as (l & Hl & H1). injection H1 as <-.
  destruct i as [|i]; cbn in E.
  - injection E as -> ->. exists l. split; [|exact Hl].
    apply start_rest in H2. destruct H2 as (_ & _ & _ & _ & ls & E & _). rewrite E. cbn [sy_loops set_loops].
    rewrite <- app_assoc, nth_error_app2 by lia. replace (_ + 0 - _)%nat with O by lia. reflexivity.
  - destruct (IH _ _ _ _ _ H2 E) as (l' & E' & L). exists l'. split; [|exact L].
    cbn [sy_loops set_loops] in E'. rewrite app_length in E'. cbn [List.length] in E'.
    replace (List.length (sy_loops s) + S i)%nat with (List.length (sy_loops s) + 1 + i)%nat by lia. exact E'.
Qed.

Lemma built_placed sf pow10 sb config m failures power devices : buildSensors sf pow10 sb config = Ok m -> NoDup (map fst config) ->
  placed sb config (Sys m failures power [] devices).
Proof.
  intros B Nd n x E. unfold cores in E. cbn [sy_sensors] in E. destruct (mget n m) as [y|] eqn:Ey; [|discriminate E].
  injection E as <-. destruct (proj2 (C60_lemma _ _ _ _ _ B Nd) n y Ey) as (info & I & (_ & Q)). exists info. split; [exact I|].
  destruct y as [t r w ig|t ig h]; [|exact Logic.I]. destruct Q as (_ & _ & _ & Rd & _).
  destruct r as [p red|q| |]; cbn in Rd |- *; try exact Logic.I.
  - destruct Rd as (Bp & Cr & _). eapply create_path; [exact Cr|]. apply bus_not_others, Bp.
  - apply Rd.
Qed.

(** ** A zone writes to its own fans only *)
Lemma run_writes_listed f names evs : forall l l', loop_run f evs l = Ok l' ->
  (forall n, lists_fan l n -> In n names) -> (forall w, In w (writes_in (z_trace (l_zone l))) -> In (fst (fst w)) names) ->
  forall w, In w (writes_in (z_trace (l_zone l'))) -> In (fst (fst w)) names.
Proof.
  unfold loop_run. induction evs as [|e r IH]; intros l l' H Li W; cbn [foldM] in H.
  - injection H as <-. exact W.
  - apply bind_ok in H. destruct H as (l1 & H1 & H2). apply (IH _ _ H2).
    + intros n L. apply Li. eapply step_lists; eassumption.
    + destruct e as [e|b|p b].
      * assert (Tw := fun w => tick_writes f e l l1 w H1). destruct (z_manualMode (l_zone l)) eqn:M.
        { cbn [loop_step] in H1. unfold loop_tick in H1. rewrite M in H1. injection H1 as <-. exact W. }
        cbn [loop_step] in H1. destruct (tick_step f e l l1 H1 M) as (z1 & z2 & ev & _ & T).
        assert (Et := tf_trace _ _ _ _ _ _ T). rewrite (new_writes_eq _ _ _ Et) in Tw.
        rewrite Et, writes_app. intros w I. apply in_app_iff in I. destruct I as [I|I]; [apply W, I|].
        apply Li. apply Tw, I.
      * cbn in H1. injection H1 as <-. destruct b; exact W.
      * cbn in H1. injection H1 as <-. cbn [l_zone with_zone]. unfold setProcessEnabled. destruct (mget p _); exact W.
Qed.

Lemma commands_all names tr : (forall w, In w (writes_in tr) -> In (fst (fst w)) names) -> commands_to names tr = writes_in tr.
Proof.
  intros H. unfold commands_to. induction (writes_in tr) as [|w r IH]; [reflexivity|]. cbn [filter].
  rewrite (proj2 (smem_In (fst (fst w)) names) (H w (or_introl eq_refl))).
  rewrite IH; [reflexivity|]. intros x I. apply H. right. exact I.
Qed.

Lemma built_fans id pids c z : zone_of id pids c z -> forall k n, In (Some k) (z_fans z) -> In n (fan_inputs k) -> In n (z_fanInputs z).
Proof.
  intros [_ _ _ _ _ _ _ Fa _ Fi _ _ _ _] k n J K. destruct (Forall2_In_r _ _ _ _ Fa J) as (e & I & (_ & _ & E & _)).
  rewrite Fi. apply in_flat_map. exists e. split; [exact I|]. congruence.
Qed.

Lemma start_listed f e te now z l id pids c : zone_of id pids c z -> loop_start f e te now z = Ok l ->
  (forall n, lists_fan l n -> In n (z_fanInputs z)) /\ writes_in (z_trace (l_zone l)) = [].
Proof.
  intros Z H.
  destruct (loop_start_frame _ _ _ _ _ _ H) as (_ & _ & Ef & _ & _ & _ & _ & (ev & T & _ & W & _)).
  assert (Fr := zo_fresh _ _ _ _ Z). destruct Fr as (_ & Ft & _). split.
  - intros n (k & I & J). rewrite Ef in I. eapply built_fans; eassumption.
  - rewrite T, Ft, app_nil_r. exact W.
Qed.

Lemma C109_lemma bus_ok zp confs built id pids z f sf pow10 sb config failures first devices1 devices2 zs1 zs2 i st1 st2
    evs1 evs2 s1 s2 l1 l2 :
  buildZones bus_ok zp confs = Ok built -> NoDup (map fst zp) -> In (id, pids) zp -> In (id, z) built ->
  runs f sf pow10 sb config failures first devices1 zs1 evs1 s1 ->
  runs f sf pow10 sb config failures first devices2 zs2 evs2 s2 ->
  nth_error zs1 i = Some (st1, z) -> nth_error zs2 i = Some (st2, z) -> same_start sb config z st1 st2 ->
  Forall2 (same_event sb config z) (filter (concerns config i z) evs1) (filter (concerns config i z) evs2) ->
  nth_error (sy_loops s1) i = Some l1 -> nth_error (sy_loops s2) i = Some l2 ->
  writes_in (z_trace (l_zone l1)) = writes_in (z_trace (l_zone l2)).
Proof.
  intros B Nd J Jz [Nc _ (m & a0 & Bm & A0 & A)] [_ _ (m' & b0 & Bm' & B0 & B')] I1 I2 (Sn & St & Sf) H L1 L2.
  assert (m' = m) by congruence. subst m'.
  destruct (proj2 (C49_structure _ _ _ _ B) Nd _ _ _ J Jz) as (c & _ & Z).
  unfold sys_start in A0, B0.
  assert (P1 := built_placed _ _ _ _ _ failures (host_initial first) devices1 Bm Nc).
  assert (P2 := built_placed _ _ _ _ _ failures (host_initial first) devices2 Bm Nc).
  destruct (start_views _ _ _ _ _ _ _ A0 I1) as (x1 & X1 & Y1). destruct (start_views _ _ _ _ _ _ _ B0 I2) as (x2 & X2 & Y2).
  cbn [sy_loops List.length Nat.add] in X1, X2.
  assert (Sa : seen_alike z (Sys m failures (host_initial first) [] devices1) (Sys m failures (host_initial first) [] devices2))
    by (constructor; reflexivity).
  rewrite <- Sn, <- St in Y2.
  destruct (views_alike sb config z _ _ _ _ (st_now st1) _ P1 Sa Sf (input_thermal z)) as (V & Hh).
  apply start_rest in A0, B0. destruct A0 as (Ea1 & Ea2 & Ea3 & _), B0 as (Eb1 & Eb2 & Eb3 & _).
  cbn [sy_sensors sy_failures sy_power] in *.
  assert (Q1 : placed sb config a0) by (intros n x E; apply (P1 n x); unfold cores in *; rewrite <- Ea1; exact E).
  assert (Q2 : placed sb config b0) by (intros n x E; apply (P2 n x); unfold cores in *; rewrite <- Eb1; exact E).
  assert (Qa : seen_alike z a0 b0) by (constructor; [intros n _; unfold cores; rewrite Ea1, Eb1; reflexivity|congruence|congruence]).
  assert (F := runs_alike _ _ _ _ _ _ _ _ _ (aligned_filter _ _ _ _ H) _ _ _ _ Q1 Q2 Qa A B').
  destruct (run_loops _ _ _ _ _ _ _ _ A X1) as (u1 & U1 & R1). destruct (run_loops _ _ _ _ _ _ _ _ B' X2) as (u2 & U2 & R2).
  assert (u1 = l1) by congruence. assert (u2 = l2) by congruence. subst u1 u2.
  assert (G : fan_group (z_fanInputs z) z) by (intros k Ik; left; intros n In_; exact (built_fans _ _ _ _ Z k n Ik In_)).
  assert (E := C108_lemma _ _ _ _ _ _ _ _ _ _ _ _ _ _ _ _ _ _ _ _ B Nd J Jz G V Hh F Y1 R1 Y2 R2).
  destruct (start_listed _ _ _ _ _ _ _ _ _ Z Y1) as (Li1 & W1). destruct (start_listed _ _ _ _ _ _ _ _ _ Z Y2) as (Li2 & W2).
  rewrite (commands_all (z_fanInputs z) (z_trace (l_zone l1))) in E.
  - rewrite (commands_all (z_fanInputs z) (z_trace (l_zone l2))) in E; [exact E|].
    apply (run_writes_listed _ _ _ _ _ R2 Li2). rewrite W2. intros w [].
  - apply (run_writes_listed _ _ _ _ _ R1 Li1). rewrite W1. intros w [].
Qed.
