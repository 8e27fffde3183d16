(** * The daemon keeps running (C63). *)
From Coq Require Import ZArith Bool List String Lia Permutation.
From Flocq Require Import IEEE754.BinarySingleNaN.
From Verif Require Import Base BaseFacts Dbl DblFacts DblOrder PidModel ZoneModel LoopModel SpecZone
  ZoneFrame ZoneThermal ZoneFan ZoneProofs LoopProofs LoopProofs2 ConfigModel SensorModel SpecSensor WriteModel SpecWrite BuilderModel SpecBuilder BuilderProofs BuilderRun
  SystemModel SpecSystem SpecWrite PathProofs SystemProofs SystemProofs2 SystemProofs3.
Import ListNotations.
Local Open Scope string_scope.
Local Open Scope Z_scope.

Definition conv : string := "floating-integral conversion".
Notation rob := returns_or_bad_command.

Lemma rob_bind {A B : Type} (o : outcome A) (k : A -> outcome B) :
  rob o -> (forall a, o = Ok a -> rob (k a)) -> rob (bind o k).
Proof. intros [(a & ->)| ->] H; cbn; [apply H; reflexivity|right; reflexivity]. Qed.
Lemma rob_ok {A : Type} (a : A) : rob (Ok a). Proof. left. eauto. Qed.

(** ** A writer that never fails *)
Definition like {A : Type} (o o' : outcome A) : Prop := o = UB conv \/ o = o'.
Lemma like_refl {A : Type} (o : outcome A) : like o o. Proof. right. reflexivity. Qed.
Lemma like_bind {A B : Type} (o o' : outcome A) (k k' : A -> outcome B) :
  like o o' -> (forall a, like (k a) (k' a)) -> like (bind o k) (bind o' k').
Proof. intros [-> | ->] H; [left; reflexivity|]. destruct o'; cbn; [apply H|apply like_refl|apply like_refl]. Qed.
Lemma like_foldM {A S : Type} (g g' : S -> A -> outcome S) l : (forall s x, like (g s x) (g' s x)) ->
  forall s, like (foldM g l s) (foldM g' l s).
Proof.
  intros H. induction l as [|x r IH]; intros s; cbn [foldM]; [apply like_refl|]. apply like_bind; auto.
Qed.
Lemma like_rob {A : Type} (o o' : outcome A) : like o o' -> returns o' -> rob o.
Proof. intros [-> | ->] H; [right; reflexivity|left; exact H]. Qed.

Definition soften {A : Type} (d : A) (o : outcome A) : outcome A :=
  match o with UB m => if String.eqb m conv then Ok d else UB m | _ => o end.
Lemma like_soften {A : Type} (d : A) o : like o (soften d o).
Proof.
  unfold soften. destruct o as [a|m|m]; try apply like_refl.
  destruct (String.eqb_spec m conv) as [-> |]; [left; reflexivity|apply like_refl].
Qed.
Definition soft (w : write_env) : write_env :=
  fun n => option_map (fun g v force => soften None (g v force)) (w n).

Lemma write_fan_like w v d z n : like (write_fan w v d z n) (write_fan (soft w) v d z n).
Proof.
  unfold write_fan, soft. destruct (w n) as [g|]; cbn [option_map]; [|apply like_refl].
  apply like_bind; [apply like_soften|]. intros r. apply like_refl.
Qed.
Lemma fan_process_like f w c z : like (fan_process f w c z) (fan_process f (soft w) c z).
Proof.
  unfold fan_process. destruct (fan_setptProc c z) as [c1 sp]. apply like_bind; [apply like_refl|]. intros x.
  destruct (pid_process (fan_pid c1) sp x) as [p o]. unfold fan_outputProc. cbv zeta.
  apply like_bind; [|intros; apply like_refl]. apply like_foldM. intros s n. apply write_fan_like.
Qed.
Lemma run_fans_like f w l : forall z, like (run_all (opt_fan_process f w) l z) (run_all (opt_fan_process f (soft w)) l z).
Proof.
  induction l as [|c r IH]; intros z; cbn [run_all]; [apply like_refl|].
  apply like_bind.
  - destruct c as [c|]; [|apply like_refl]. cbn [opt_fan_process].
    apply like_bind; [apply fan_process_like|intros [a b]; apply like_refl].
  - intros [c' z']. apply like_bind; [apply IH|intros [a b]; apply like_refl].
Qed.
Definition soft_tick (e : tick_env) : tick_env := TickEnv (tk_fan e) (tk_therm e) (soft (tk_write e)) (tk_tune e).
Lemma tick_like f e l : like (loop_step f l (LTick e)) (loop_step f l (LTick (soft_tick e))).
Proof.
  cbn [loop_step]. unfold loop_tick. destruct (z_manualMode (l_zone l)); [apply like_refl|]. cbv zeta.
  apply like_bind; [apply like_refl|]. intros z. apply like_bind; [apply like_refl|]. intros [z1 cnt].
  cbn [soft_tick tk_write]. apply like_bind; [|intros; apply like_refl].
  unfold processFans. apply like_bind; [apply run_fans_like|intros [a b]; apply like_refl].
Qed.

(** ** Reading and writing *)
(** Some of the built zones. *)
Definition some_of (bus_ok : string -> bool) (zp : list (Z * PIDConf)) (confs : list (Z * ZoneConfig))
    (zs : list (start_in * zone)) : Prop :=
  NoDup (map fst zp) /\ exists built, buildZones bus_ok zp confs = Ok built /\ incl (map snd zs) (map snd built).
Lemma built_some bus_ok zp confs zs rest : built_from bus_ok zp confs (zs ++ rest)%list -> some_of bus_ok zp confs zs.
Proof.
  intros (N & built & B & P). split; [exact N|]. exists built. split; [exact B|]. intros z I.
  apply (Permutation_in _ P). rewrite map_app. apply in_or_app. left. exact I.
Qed.
Lemma built_some_all bus_ok zp confs zs : built_from bus_ok zp confs zs -> some_of bus_ok zp confs zs.
Proof. intros H. apply (built_some _ _ _ zs []). rewrite app_nil_r. exact H. Qed.

Section Run.
  Context (f : flags) (sf : sflags) (pow10 : Z -> dbl) (sb : sensor_bus) (config : smap SensorConfig)
    (failures : list string) (first : option string) (devices : smap Z) (zs : list (start_in * zone)).

  Lemma readable_view evs s files now n :
    runs f sf pow10 sb config failures first devices zs evs s -> files_ok sb config files -> readable config n ->
    exists v, pe_sensor (view_env s files now) n = Some v.
  Proof.
    intros R Fo (info & I & K & [Bp|[(Ep & Nf)|Sp]]).
    - destruct (C61_lemma _ _ _ _ _ _ _ _ _ _ _ _ _ files now R I K Bp) as (v & E & _). eauto.
    - destruct (C61_external_lemma _ _ _ _ _ _ _ _ _ _ _ _ _ files now R I K Ep Nf) as (v & E & _). eauto.
    - destruct (runs_resolved _ _ _ _ _ _ _ _ _ _ _ _ _ R I K Sp) as (path & Rs).
      destruct (Fo _ _ _ I Sp Rs) as (x & Fx).
      destruct (C61_sysfs_lemma _ _ _ _ _ _ _ _ _ _ _ _ _ _ files now _ R I K Sp Rs Fx) as (v & E & _). eauto.
  Qed.

  Lemma poll_check_ok s files now names :
    (forall n, In n names -> exists v, pe_sensor (view_env s files now) n = Some v) ->
    poll_check s files now names = Ok tt.
  Proof.
    unfold poll_check. induction names as [|n r IH]; intros H; cbn [foldM]; [reflexivity|].
    destruct (H n (or_introl eq_refl)) as (v & E). cbn [view_env pe_sensor] in E.
    destruct (mget n (sy_sensors s)) as [x|]; [|discriminate].
    destruct (sensor_poll (sy_failures s) (sy_power s) files now x); try discriminate. cbn [bind].
    apply IH. intros m Hm. apply H. right. exact Hm.
  Qed.

  Lemma sensor_write_soft t r w i v force : exists x, soften None (sensor_write (Pluggable t r w i) v force) = Ok x.
  Proof.
    cbn [sensor_write]. destruct w as [path d|path pc mn mx|]; [| |eexists; reflexivity].
    - unfold dbus_write. cbv zeta. destruct (to_int64 (dw_target d v)) as [raw|]; [|eexists; reflexivity].
      destruct ((dw_oldValue d =? raw) && negb force); [eexists; reflexivity|].
      destruct (to_uint64 (dw_target d v)); eexists; reflexivity.
    - unfold sysfs_write. destruct (to_int64 (if pc then _ else _)); eexists; reflexivity.
  Qed.

  Lemma writable_soft evs s n :
    runs f sf pow10 sb config failures first devices zs evs s -> writable config n ->
    exists wr, soft (sensors_write_env (sy_sensors s)) n = Some wr /\ forall v force, exists r, wr v force = Ok r.
  Proof.
    intros R (info & I & Ty).
    destruct (runs_sensor _ _ _ _ _ _ _ _ _ _ _ _ _ R I (or_introl Ty)) as (x0 & x & S0 & Ex & C & _).
    destruct S0 as (_ & S0). destruct x0 as [t r w i|t i h]; [|destruct S0; contradiction].
    assert (K : exists t r w i, x = Pluggable t r w i).
    { clear - C. cbn [core] in C. revert t r w i C. induction evs as [|e q IH]; intros t r w i C; cbn [foldM] in C.
      - injection C as C. destruct x; [eauto|discriminate].
      - apply bind_ok in C. destruct C as (x1 & C1 & C2). apply core_after_writer in C1.
        destruct x1 as [t1 r1 w1 i1|t1 i1 h1]; [|contradiction].
        assert (W1 : wcore w1 = w1) by (subst w1; destruct w; reflexivity).
        apply (IH t1 r1 w1 i1). rewrite W1. exact C2. }
    destruct K as (t' & r' & w' & i' & ->).
    unfold soft, sensors_write_env. rewrite Ex. cbn [option_map]. eexists. split; [reflexivity|].
    intros v force. apply sensor_write_soft.
  Qed.

  Lemma soft_defined s : writers_defined (soft (sensors_write_env (sy_sensors s))).
  Proof.
    intros n wr v force m H. unfold soft, sensors_write_env in H.
    destruct (mget n (sy_sensors s)) as [[t r w i|t i h]|]; cbn [option_map] in H; try discriminate; injection H as <-.
    - destruct (sensor_write_soft t r w i v force) as (x & E). intros K.
      change (soften None (sensor_write (Pluggable t r w i) v force) = UB m) in K. congruence.
    - discriminate.
  Qed.

  Lemma apply_write_rob ok ks ev : rob (apply_write ok ks ev).
  Proof.
    destruct ks as [k s], ev as [[n v] force]. unfold apply_write.
    destruct (mget n (sy_sensors s)) as [[t r [path d|path pc mn mx|] i|t i h]|]; try apply rob_ok.
    - apply rob_bind; [|intros; apply rob_ok]. unfold dbus_write. cbv zeta.
      destruct (to_int64 (dw_target d v)) as [raw|]; [|right; reflexivity].
      destruct (_ && _); [apply rob_ok|]. destruct (to_uint64 _); [apply rob_ok|right; reflexivity].
    - apply rob_bind; [|intros; apply rob_ok]. unfold sysfs_write.
      destruct (to_int64 _); [apply rob_ok|right; reflexivity].
  Qed.
  Lemma rob_foldM {A S : Type} (g : S -> A -> outcome S) l : (forall s x, rob (g s x)) -> forall s, rob (foldM g l s).
  Proof.
    intros H. induction l as [|x r IH]; intros s; cbn [foldM]; [apply rob_ok|]. apply rob_bind; auto.
  Qed.

  Lemma handle_ok p m : well_typed m -> exists p', handleSensorValue sf pow10 p m = Ok p'.
  Proof.
    intros (V & B). unfold handleSensorValue.
    assert (G : forall i k v, String.eqb (m_intf m) i = true ->
      In (i, k) [(critical_intf, "CriticalAlarmLow"); (critical_intf, "CriticalAlarmHigh");
                 (warning_intf, "WarningAlarmHigh"); (available_intf, "Available");
                 (functional_intf, "Functional")] ->
      mget k (m_props m) = Some v -> exists b, v = VBool b).
    { intros i k v E I Mv. apply (B i k v I). unfold says. rewrite E. exact Mv. }
    destruct (String.eqb (m_intf m) value_intf) eqn:E1.
    { destruct (mget "Value" (m_props m)) as [v|] eqn:E; [|eexists; reflexivity].
      destruct v as [z|d|t|b]; cbn; try (eexists; reflexivity).
      exfalso. apply (V t). unfold says. rewrite E1. exact E. }
    destruct (String.eqb (m_intf m) critical_intf) eqn:E2.
    { assert (L : forall v, mget "CriticalAlarmLow" (m_props m) = Some v -> exists b, v = VBool b)
        by (intros v; apply (G critical_intf); [exact E2|cbn; auto]).
      assert (H : forall v, mget "CriticalAlarmHigh" (m_props m) = Some v -> exists b, v = VBool b)
        by (intros v; apply (G critical_intf); [exact E2|cbn; auto]).
      destruct (mget "CriticalAlarmLow" (m_props m)) as [v|], (mget "CriticalAlarmHigh" (m_props m)) as [v'|].
      - destruct (L _ eq_refl) as ([] & ->), (H _ eq_refl) as (b' & ->); cbn; eexists; reflexivity.
      - destruct (L _ eq_refl) as ([] & ->); cbn; eexists; reflexivity.
      - destruct (H _ eq_refl) as (b' & ->); cbn; eexists; reflexivity.
      - eexists; reflexivity. }
    destruct (UNC_FAILSAFE sf && String.eqb (m_intf m) warning_intf) eqn:E3.
    { apply andb_true_iff in E3. destruct E3 as (_ & E3).
      destruct (mget "WarningAlarmHigh" (m_props m)) as [v|] eqn:E; [|eexists; reflexivity].
      destruct (fun I => G warning_intf "WarningAlarmHigh" v E3 I E) as (b & ->); [cbn; auto|]. cbn. eexists. reflexivity. }
    destruct (String.eqb (m_intf m) available_intf) eqn:E4.
    { destruct (mget "Available" (m_props m)) as [v|] eqn:E; [|eexists; reflexivity].
      destruct (fun I => G available_intf "Available" v E4 I E) as (b & ->); [cbn; auto 6|]. cbn. eexists. reflexivity. }
    destruct (String.eqb (m_intf m) functional_intf) eqn:E5; [|eexists; reflexivity].
    destruct (mget "Functional" (m_props m)) as [v|] eqn:E; [|eexists; reflexivity].
    destruct (fun I => G functional_intf "Functional" v E5 I E) as (b & ->); [cbn; auto 7|]. cbn. eexists. reflexivity.
  Qed.

  Lemma signal_all_ok path m l : well_typed m -> exists l', signal_all sf pow10 path m l = Ok l'.
  Proof.
    intros W. induction l as [|[n x] r (r' & IH)]; cbn [signal_all]; [eexists; reflexivity|].
    assert (X : exists x', sensor_signal sf pow10 path m x = Ok x').
    { unfold sensor_signal. destruct x as [t [p red|q| |] w i|t i h]; try (eexists; reflexivity).
      destruct (String.eqb (p_path p) path); [|eexists; reflexivity].
      destruct (handle_ok p m W) as (p' & ->). cbn. eexists. reflexivity. }
    destruct X as (x' & ->). rewrite IH. cbn. eexists. reflexivity.
  Qed.

  Lemma update_nth_rob {A : Type} j (g : A -> outcome A) l :
    (forall x, nth_error l j = Some x -> rob (g x)) -> rob (update_nth j g l).
  Proof.
    revert j. induction l as [|x r IH]; intros [|j] H; cbn [update_nth]; try apply rob_ok.
    - apply rob_bind; [apply H; reflexivity|intros; apply rob_ok].
    - apply rob_bind; [apply IH; exact H|intros; apply rob_ok].
  Qed.

  Context (bus_ok : string -> bool) (zp : list (Z * PIDConf)) (confs : list (Z * ZoneConfig)).
  Hypothesis (Bf : some_of bus_ok zp confs zs).
  Hypothesis (Ps : forall id pids, In (id, pids) zp -> pids_served config pids).

  Lemma zone_source i st z : nth_error zs i = Some (st, z) ->
    exists built id pids, buildZones bus_ok zp confs = Ok built /\ In (id, pids) zp /\ In (id, z) built.
  Proof.
    intros E. destruct Bf as (Nd & built & B & M).
    assert (I : In z (map snd built)).
    { apply M. apply in_map_iff. exists (st, z). split; [reflexivity|]. eapply nth_error_In; eauto. }
    apply in_map_iff in I. destruct I as ([id z'] & Ez & I). cbn in Ez. subst z'.
    destruct (C49_structure _ _ _ _ B) as (Mf & _).
    assert (J : In id (map fst zp)) by (rewrite <- Mf; apply in_map_iff; exists (id, z); auto).
    apply in_map_iff in J. destruct J as ([id' pids] & Eq & J). cbn in Eq. subst id'. eauto 6.
  Qed.

  Lemma listed_of pids fam n : In n (flat_map names_of (filter fam pids)) -> listed_by fam pids n.
  Proof.
    intros I. apply in_flat_map in I. destruct I as (e & I & J). apply filter_In in I. destruct I as (I1 & I2).
    exists e. auto.
  Qed.

  Lemma loop_source evs s i l :
    runs f sf pow10 sb config failures first devices zs evs s -> nth_error (sy_loops s) i = Some l ->
    exists st z0, nth_error zs i = Some (st, z0) /\ reachable f z0 l.
  Proof.
    intros R El.
    assert (Ez : exists st z0, nth_error zs i = Some (st, z0)).
    { destruct R as [Nd Fr (m & s0 & B & St & R)]. apply start_rest in St. cbn in St.
      destruct St as (_ & _ & _ & _ & ls & E0 & F).
      assert (Ln : List.length (sy_loops s) = List.length ls).
      { rewrite <- E0. clear - R. revert s0 R. unfold sys_run. induction evs as [|e r IH]; intros s0 R; cbn [foldM] in R.
        - injection R as <-. reflexivity.
        - apply bind_ok in R. destruct R as (s1 & H1 & H2). rewrite (IH _ H2).
          assert (Up : forall j g ls', update_nth j g (sy_loops s0) = Ok ls' -> List.length ls' = List.length (sy_loops s0)).
          { intros j g ls' U. apply update_nth_spec in U. apply U. }
          destruct e as [path x|n' v t|x|c|j wk|j b|j p b]; cbn [sys_step] in H1.
          + apply bind_ok in H1. destruct H1 as (y & _ & H1). injection H1 as <-. reflexivity.
          + injection H1 as <-. reflexivity.
          + apply bind_ok in H1. destruct H1 as (y & _ & H1). injection H1 as <-. reflexivity.
          + injection H1 as <-. reflexivity.
          + unfold sys_tick in H1. destruct (nth_error (sy_loops s0) j); [|injection H1 as <-; reflexivity].
            apply bind_ok in H1. destruct H1 as (? & _ & H1). apply bind_ok in H1. destruct H1 as (ls' & U & H1).
            apply bind_ok in H1. destruct H1 as (ks & W & H1). injection H1 as <-. apply Up in U. rewrite <- U.
            destruct (nth_error ls' j).
            * apply writes_rest in W. destruct W as (_ & _ & _ & ->). reflexivity.
            * injection W as <-. reflexivity.
          + apply bind_ok in H1. destruct H1 as (y & U & H1). injection H1 as <-. apply Up in U. exact U.
          + apply bind_ok in H1. destruct H1 as (y & U & H1). injection H1 as <-. apply Up in U. exact U. }
      assert (L2 : (i < List.length zs)%nat).
      { assert (F3 : List.length zs = List.length ls) by (clear - F; induction F; cbn; auto). rewrite F3, <- Ln. apply nth_error_Some. congruence. }
      apply nth_error_Some in L2. destruct (nth_error zs i) as [[st z0]|]; [eauto|congruence]. }
    destruct Ez as (st & z0 & Ez).
    destruct (runs_zone _ _ _ _ _ _ _ _ _ _ _ _ _ _ R Ez) as (l' & El' & Rl & _).
    assert (l' = l) by congruence. subst l'. eauto.
  Qed.

  (** The checks of a wake-up pass, and with the tolerant writer the zone's part returns. *)
  Lemma tick_parts evs s i w l :
    runs f sf pow10 sb config failures first devices zs evs s ->
    nth_error (sy_loops s) i = Some l -> served f sb config (STick i w) ->
    (if z_manualMode (l_zone l) then Ok tt
     else bind (poll_check s (wk_fan_files w) (wk_fan_now w) (z_fanInputs (l_zone l)))
            (fun _ => if z_updateThermalsTimeMS (l_zone l) <=? l_cycleCnt l
                      then poll_check s (wk_therm_files w) (wk_therm_now w) (z_thermalInputs (l_zone l))
                      else Ok tt)) = Ok tt /\
    exists l', loop_step f l (LTick (soft_tick (tick_of s w))) = Ok l'.
  Proof.
    intros R El (F1 & F2 & Tr). destruct (loop_source _ _ _ _ R El) as (st & z0 & Ez & Rl).
    destruct (zone_source _ _ _ Ez) as (built & id & pids & B & J & Jz).
    destruct (Ps _ _ J) as (P1 & P2 & P3 & P4). destruct Bf as (Nd & _).
    destruct (C49_structure _ _ _ _ B) as (_ & Zo). destruct (Zo Nd _ _ _ J Jz) as (c & _ & Z).
    assert (Inp : z_fanInputs (l_zone l) = z_fanInputs z0 /\ z_thermalInputs (l_zone l) = z_thermalInputs z0).
    { destruct (reachable_inv _ _ _ Rl) as (C & _). use_conf C; split; reflexivity. }
    destruct Inp as (I1 & I2).
    assert (K1 : all_known (view_env s (wk_fan_files w) (wk_fan_now w)) (flat_map names_of (filter is_fan_pid pids))).
    { intros n Hn. eapply readable_view; eauto. apply P4. apply listed_of. exact Hn. }
    assert (K2 : all_known (view_env s (wk_therm_files w) (wk_therm_now w)) (flat_map names_of (filter is_thermal_pid pids))).
    { intros n Hn. eapply readable_view; eauto. apply P3. apply listed_of. exact Hn. }
    assert (K3 : all_writable (soft (sensors_write_env (sy_sensors s))) (flat_map names_of (filter is_fan_pid pids))).
    { intros n Hn. eapply writable_soft; eauto. apply P4. apply listed_of. exact Hn. }
    split.
    - destruct (z_manualMode (l_zone l)); [reflexivity|]. rewrite poll_check_ok.
      2: { intros n Hn. apply K1. rewrite I1, (zo_fanInputs _ _ _ _ Z) in Hn. exact Hn. }
      cbn [bind]. destruct (_ <=? _); [|reflexivity]. rewrite poll_check_ok; [reflexivity|].
      intros n Hn. rewrite I2 in Hn. apply (zo_thermalInputs _ _ _ _ Z) in Hn. eapply readable_view; eauto.
    - apply (proj2 (C49_returns _ _ _ _ _ _ _ f B Nd J Jz P1 P2)); [exact Rl| |].
      + split; [apply soft_defined|exact Tr].
      + split; [exact K1|]. split; [exact K2|exact K3].
  Qed.

  Lemma tick_rob evs s i w l :
    runs f sf pow10 sb config failures first devices zs evs s ->
    nth_error (sy_loops s) i = Some l -> served f sb config (STick i w) -> rob (sys_tick f i w s).
  Proof.
    intros R El Se. destruct (tick_parts _ _ _ _ _ R El Se) as (Ck & Sl).
    unfold sys_tick. rewrite El. cbv zeta. rewrite Ck. cbn [bind]. apply rob_bind.
    { apply update_nth_rob. intros x Ex. assert (x = l) by congruence. subst x.
      exact (like_rob _ _ (tick_like f (tick_of s w) l) Sl). }
    intros ls U. apply update_nth_spec in U. destruct U as (_ & _ & U). destruct (U _ El) as (l' & El2 & _).
    rewrite El2. apply rob_bind; [|intros; apply rob_ok]. apply rob_foldM. intros ks ev. apply apply_write_rob.
  Qed.

  Lemma C63_step evs s e :
    runs f sf pow10 sb config failures first devices zs evs s -> served f sb config e ->
    rob (sys_step f sf pow10 s e).
  Proof.
    intros R Se. destruct e as [path m|n' v t|m|c|i w|i b|i p b]; cbn [sys_step].
    - destruct (signal_all_ok path m (sy_sensors s) Se) as (l & ->). apply rob_ok.
    - apply rob_ok.
    - cbn in Se. unfold handleRedundancy. destruct (rm_status m); [apply rob_ok|congruence|].
      destruct (rm_collection m); apply rob_ok.
    - apply rob_ok.
    - destruct (nth_error (sy_loops s) i) as [l|] eqn:E.
      + eapply tick_rob; eauto.
      + unfold sys_tick. rewrite E. apply rob_ok.
    - apply rob_bind; [|intros; apply rob_ok]. apply update_nth_rob. intros; apply rob_ok.
    - apply rob_bind; [|intros; apply rob_ok]. apply update_nth_rob. intros; apply rob_ok.
  Qed.

  Lemma C63_some evs s more :
    runs f sf pow10 sb config failures first devices zs evs s -> Forall (served f sb config) more ->
    rob (sys_run f sf pow10 more s).
  Proof.
    revert evs s. unfold sys_run. induction more as [|e r IH]; intros evs s R F; cbn [foldM]; [apply rob_ok|].
    apply Forall_cons_iff in F. destruct F as (F1 & F2).
    apply rob_bind; [eapply C63_step; eauto|]. intros s1 H1.
    apply (IH (evs ++ [e])%list); [|exact F2]. eapply runs_more; [exact R|].
    unfold sys_run. cbn [foldM]. rewrite H1. reflexivity.
  Qed.

  Lemma C63_start_some m :
    NoDup (map fst config) -> buildSensors sf pow10 sb config = Ok m ->
    Forall (fun e => files_ok sb config (st_files (fst e)) /\ tuning_readable f (st_tune (fst e))) zs ->
    exists s0, sys_start f m failures (host_initial first) devices zs = Ok s0 /\
      runs f sf pow10 sb config failures first devices zs [] s0.
  Proof.
    intros Nd B Hs.
    assert (Fr : Forall (fun e : start_in * zone => fresh (snd e)) zs).
    { rewrite Forall_forall. intros [st z] I. apply In_nth_error in I. destruct I as (i & I).
      destruct (zone_source _ _ _ I) as (built & id & pids & Bz & J & Jz). destruct Bf as (Nz & _).
      destruct (C49_structure _ _ _ _ Bz) as (_ & Zo). destruct (Zo Nz _ _ _ J Jz) as (c & _ & Z). apply Z. }
    assert (G : exists s0, sys_start f m failures (host_initial first) devices zs = Ok s0).
    2: { destruct G as (s0 & G). exists s0. split; [exact G|]. constructor; auto. exists m, s0. auto. }
    unfold sys_start.
    assert (Zs : forall e, In e zs -> exists built id pids, buildZones bus_ok zp confs = Ok built /\
        In (id, pids) zp /\ In (id, snd e) built).
    { intros [st z] I. apply In_nth_error in I. destruct I as (i & I). eapply zone_source; eauto. }
    revert Hs Zs. clear Fr. destruct Bf as (Nz & _). clear Bf.
    assert (R0 : runs f sf pow10 sb config failures first devices [] [] (Sys m failures (host_initial first) [] devices)).
    { constructor; [exact Nd|constructor|]. exists m, (Sys m failures (host_initial first) [] devices). auto. }
    assert (V : forall ls files now n, files_ok sb config files -> readable config n ->
      exists v, pe_sensor (view_env (Sys m failures (host_initial first) ls devices) files now) n = Some v).
    { intros ls files now n Fo Rd. cbn [view_env pe_sensor sy_sensors sy_failures sy_power].
      clear - R0 Fo Rd.
      destruct Rd as (info & I & K & [Bp|[(Ep & Nf)|Sp]]).
      - destruct (C61_lemma _ _ _ _ _ _ _ _ _ _ _ _ _ files now R0 I K Bp) as (v & E & _). eauto.
      - destruct (C61_external_lemma _ _ _ _ _ _ _ _ _ _ _ _ _ files now R0 I K Ep Nf) as (v & E & _). eauto.
      - destruct (runs_resolved _ _ _ _ _ _ _ _ _ _ _ _ _ R0 I K Sp) as (path & Rs).
        destruct (Fo _ _ _ I Sp Rs) as (x & Fx).
        destruct (C61_sysfs_lemma _ _ _ _ _ _ _ _ _ _ _ _ _ _ files now _ R0 I K Sp Rs Fx) as (v & E & _). eauto. }
    clear R0. generalize (@nil loop). induction zs as [|[st z] r IH]; intros ls Hs Zs; cbn [foldM]; [eexists; reflexivity|].
    apply Forall_cons_iff in Hs. destruct Hs as ((Fo & Tr) & Hs). cbn [fst] in Fo, Tr.
    destruct (Zs _ (or_introl eq_refl)) as (built & id & pids & Bz & J & Jz). cbn [snd] in Jz.
    destruct (Ps _ _ J) as (P1 & P2 & P3 & P4).
    destruct (C49_structure _ _ _ _ Bz) as (_ & Zo). destruct (Zo Nz _ _ _ J Jz) as (c & _ & Z).
    unfold start_zone at 1. rewrite poll_check_ok.
    2: { intros n Hn. apply V; [exact Fo|]. apply P3. apply (zo_thermalInputs _ _ _ _ Z). exact Hn. }
    cbn [bind].
    destruct (proj1 (C49_returns _ _ _ _ _ _ _ f Bz Nz J Jz P1 P2)
      (view_env (Sys m failures (host_initial first) ls devices) (st_files st) (st_now st)) (st_tune st) (st_timer st) Tr) as (l & ->).
    { intros n Hn. apply V; [exact Fo|]. apply P3. apply listed_of. exact Hn. }
    cbn [bind]. apply IH; [exact Hs|]. intros e I. apply Zs. right. exact I.
  Qed.
End Run.

Lemma C63_lemma f sf pow10 sb config failures first devices zs bus_ok zp confs :
  built_from bus_ok zp confs zs -> (forall id pids, In (id, pids) zp -> pids_served config pids) ->
  forall evs s more, runs f sf pow10 sb config failures first devices zs evs s -> Forall (served f sb config) more ->
  rob (sys_run f sf pow10 more s).
Proof. intros Bf Ps evs s more. exact (C63_some _ _ _ _ _ _ _ _ _ _ _ _ (built_some_all _ _ _ _ Bf) Ps evs s more). Qed.
Lemma C63_start_lemma f sf pow10 sb config failures first devices zs bus_ok zp confs :
  built_from bus_ok zp confs zs -> (forall id pids, In (id, pids) zp -> pids_served config pids) ->
  forall m, NoDup (map fst config) -> buildSensors sf pow10 sb config = Ok m ->
  Forall (fun e => files_ok sb config (st_files (fst e)) /\ tuning_readable f (st_tune (fst e))) zs ->
  exists s0, sys_start f m failures (host_initial first) devices zs = Ok s0 /\
    runs f sf pow10 sb config failures first devices zs [] s0.
Proof. intros Bf Ps m. exact (C63_start_some _ _ _ _ _ _ _ _ _ _ _ _ (built_some_all _ _ _ _ Bf) Ps m). Qed.

(** ** C62 from the configuration *)
Lemma own_percent_bound bus_ok zp confs built id pids z c :
  buildZones bus_ok zp confs = Ok built -> NoDup (map fst zp) -> In (id, pids) zp -> In (id, z) built ->
  zget id confs = Some c -> dle d0 (zc_failsafePercent c) ->
  (forall e, In e pids -> dle d0 (ci_failSafePercent (snd e))) ->
  percents_ok z /\
  forall n v, is_max_of v (percents_for pids n) ->
    own_percent z n = zc_failsafePercent c /\ deq v d0 \/ deq (own_percent z n) v /\ ~ deq v d0.
Proof.
  intros B Nd J Jz Zc Pz Pp.
  destruct (C58_lemma _ _ _ _ _ _ _ B Nd J Jz) as (c' & Zc' & H). assert (c' = c) by congruence. subst c'.
  assert (Nn : forall n, Forall (dle d0) (percents_for pids n)).
  { intros n. unfold percents_for. rewrite Forall_forall. intros x I. apply in_map_iff in I.
    destruct I as (e & <- & I). apply filter_In in I. apply Pp. apply I. }
  assert (Nn' : forall n, Forall notnan (percents_for pids n)).
  { intros n. eapply Forall_impl; [|apply Nn]. intros a L. apply dle_notnan in L. tauto. }
  assert (M : forall n v, is_max_of v (percents_for pids n) ->
    own_percent z n = zc_failsafePercent c /\ deq v d0 \/ deq (own_percent z n) v /\ ~ deq v d0).
  { intros n v Mv. destruct (H n (Nn' n)) as (_ & H2). destruct (H2 v Mv) as (H3 & H4).
    destruct (deqb v d0) eqn:E; [left|right].
    - split; [apply H3|]; exact E.
    - assert (N : ~ deq v d0) by (unfold deq; rewrite E; discriminate). auto. }
  split; [|exact M].
  intros n. destruct (percents_for pids n) as [|a r] eqn:E.
  - destruct (H n (Nn' n)) as (H1 & _). rewrite (H1 E). exact Pz.
  - destruct (maxopt (percents_for pids n)) as [v|] eqn:Mo.
    + assert (Mx := maxopt_is_max _ _ Mo (Nn' n)). destruct (M n v Mx) as [(-> & _)|(Q & _)]; [exact Pz|].
      destruct Mx as ((x & Ix & Ex) & _). assert (Lx := Nn n). rewrite Forall_forall in Lx.
      apply (dle_trans _ x); [apply Lx; exact Ix|]. apply (dle_trans _ v); apply deq_le; apply deq_sym; assumption.
    + rewrite E in Mo. discriminate.
Qed.

Lemma deq_same (x y : dbl) : deq x y -> ~ deq x d0 -> dle d0 y -> dle y (D 100) -> x = y.
Proof.
  intros E N L0 L1.
  assert (Fy : dfinite y).
  { destruct y as [b|b| |b m e H]; [reflexivity| | |reflexivity].
    - destruct b; [vm_compute in L0|vm_compute in L1]; discriminate.
    - vm_compute in L1. discriminate. }
  assert (Fx : dfinite x).
  { destruct x as [b|b| |b m e H]; [reflexivity| | |reflexivity];
      destruct y as [c|c| |c m' e' H']; try discriminate Fy; try destruct b; try destruct c;
      unfold deq in E; cbn in E; discriminate. }
  apply deq_iff in E. destruct E as (_ & _ & E).
  assert (Nz : forall z : dbl, dfinite z -> Rx z = Rx x -> is_finite_strict z = true).
  { intros [b|b| |b m e H] Fz Ez; try discriminate; [|reflexivity].
    exfalso. apply N. apply deq_iff. split; [destruct x; try discriminate; reflexivity|]. split; [reflexivity|].
    rewrite <- Ez. destruct b; vm_compute; reflexivity. }
  apply B2R_inj; [apply Nz; auto|apply Nz; auto|]. rewrite <- !Rx_finite by assumption. exact E.
Qed.

Lemma C62_configured_lemma f sf pow10 sb config failures first devices zs evs s mid s1 i w s2
    bus_ok zp confs built id pids c st z0 name info fan finfo path e v r :
  runs f sf pow10 sb config failures first devices zs evs s ->
  sys_run f sf pow10 mid s = Ok s1 -> sys_step f sf pow10 s1 (STick i w) = Ok s2 ->
  NoDup (map fst zp) -> buildZones bus_ok zp confs = Ok built ->
  nth_error zs i = Some (st, z0) -> In (id, z0) built -> In (id, pids) zp -> zget id confs = Some c ->
  is_manual i evs = false -> ~ In (SManual i true) mid ->
  1 <= zc_cycleIntervalTimeMS c <= zc_updateThermalsTimeMS c ->
  zc_updateThermalsTimeMS c + zc_cycleIntervalTimeMS c < uint64_mod ->
  zc_updateThermalsTimeMS c <= Z.of_nat (wakes i mid) * zc_cycleIntervalTimeMS c ->
  tuningEnabled f = false ->
  dle d0 (zc_failsafePercent c) ->
  (forall x, In x pids -> dle d0 (ci_failSafePercent (snd x)) /\ dle (ci_failSafePercent (snd x)) (D 100)) ->
  In (name, info) config -> known_type (sc_type info) ->
  listed_by is_fan_pid pids name \/ listed_by is_thermal_pid pids name -> ~ acceptable_in pids name ->
  (forall pre w' post, (mid ++ [STick i w])%list = (pre ++ STick i w' :: post)%list ->
     bad_at sf pow10 sb failures first name info (evs ++ pre) (wk_fan_now w') /\
     bad_at sf pow10 sb failures first name info (evs ++ pre) (wk_therm_now w')) ->
  In (fan, finfo) config -> sc_type finfo = "fan" -> In e pids -> is_fan_pid e = true -> In fan (names_of e) ->
  drives sb finfo path -> own_device sb config fan path ->
  (0 < sc_max finfo -> usable_range (sc_min finfo) (sc_max finfo)) ->
  all_writes_ok (evs ++ mid ++ [STick i w]) ->
  is_max_of v (percents_for pids name) ->
  raw_for finfo (ddiv (if deqb v d0 then zc_failsafePercent c else v) (D 100)) = Some r -> 0 <= r ->
  exists d, mget path (sy_devices s2) = Some d /\ r <= d.
Proof.
  intros R M T Nd B Ez Jz J Zc Mi Mm Cy Up Wk Tu Pz Pp Inm Kn Li Ac Bad If Tf Ie Fe Fn Bo Ow Ur Wo Mx Rf R0.
  destruct (C49_structure _ _ _ _ B) as (_ & Zo). destruct (Zo Nd _ _ _ J Jz) as (c' & Zc' & Z).
  assert (c' = c) by congruence. subst c'.
  destruct (own_percent_bound _ _ _ _ _ _ _ _ B Nd J Jz Zc Pz (fun x I => proj1 (Pp x I))) as (Po & Pm).
  assert (Fc : exists fc, In fc (fan_ctls z0) /\ In fan (fan_inputs fc)).
  { assert (F := zo_fans _ _ _ _ Z). assert (Ie' : In e (filter is_fan_pid pids)) by (apply filter_In; auto).
    clear - F Ie' Fn. unfold fan_ctls. revert F Ie'. generalize (z_fans z0) (filter is_fan_pid pids).
    intros zf fp F Ie'. induction F as [|x o l ol H F IH]; [contradiction|].
    destruct Ie' as [->|Ie'].
    - destruct o as [fc|].
      + destruct H as (_ & _ & H & _). exists fc. split; [|rewrite H; exact Fn].
        cbn [flat_map]. left. reflexivity.
      + cbn in H. unfold names_of in Fn. rewrite H in Fn. destruct Fn.
    - destruct (IH Ie') as (fc & I1 & I2). exists fc. split; [|exact I2].
      cbn [flat_map]. apply in_or_app. right. exact I1. }
  destruct Fc as (fc & Fc1 & Fc2).
  apply (C62_lemma f sf pow10 sb config failures first devices zs evs s mid s1 i w s2 st z0 name info fan finfo path fc r);
    try assumption.
  - rewrite (zo_cycle _ _ _ _ Z), (zo_update _ _ _ _ Z). exact Cy.
  - rewrite (zo_cycle _ _ _ _ Z), (zo_update _ _ _ _ Z). exact Up.
  - rewrite (zo_cycle _ _ _ _ Z), (zo_update _ _ _ _ Z). exact Wk.
  - destruct Li as [(x & I1 & I2 & I3)|Li].
    + left. rewrite (zo_fanInputs _ _ _ _ Z). apply in_flat_map. exists x. split; [apply filter_In; auto|exact I3].
    + right. apply (zo_thermalInputs _ _ _ _ Z). exact Li.
  - intros A. apply Ac. apply (C59_lemma _ _ _ _ _ _ _ _ B Nd J Jz). exact A.
  - destruct (Pm name v Mx) as [(-> & D)|(D & N)].
    + unfold deq in D. rewrite D in Rf. exact Rf.
    + destruct (deqb v d0) eqn:E; [exfalso; apply N; exact E|].
      rewrite (deq_same (own_percent z0 name) v); [exact Rf|exact D| | |].
      * intros K. apply N. eapply deq_trans; [apply deq_sym; exact D|exact K].
      * destruct Mx as ((x & Ix & Ex) & _). unfold percents_for in Ix. apply in_map_iff in Ix.
        destruct Ix as (y & <- & Iy). apply filter_In in Iy. destruct (Pp y (proj1 Iy)) as (P1 & P2).
        eapply dle_trans; [exact P1|]. apply deq_le. apply deq_sym. exact Ex.
      * destruct Mx as ((x & Ix & Ex) & _). unfold percents_for in Ix. apply in_map_iff in Ix.
        destruct Ix as (y & <- & Iy). apply filter_In in Iy. destruct (Pp y (proj1 Iy)) as (P1 & P2).
        eapply dle_trans; [|exact P2]. apply deq_le. exact Ex.
Qed.

Lemma C64_quiet_lemma f sf pow10 s e s' :
  sys_step f sf pow10 s e = Ok s' -> (forall i w, e <> STick i w) -> sy_devices s' = sy_devices s.
Proof.
  intros H N. apply (step_quiet f sf pow10 s e s' H). destruct e; cbn; try tauto. exfalso. eapply N. reflexivity.
Qed.

Lemma read_external p : external_path p -> getReadInterfaceType p = IoEXTERNAL.
Proof.
  intros E. assert (H := read_type p). destruct (getReadInterfaceType p); try reflexivity; exfalso; try tauto.
  - destruct H as (_ & H & _). tauto.
  - destruct H as (_ & H & _). apply H. apply ext_contains. apply E.
Qed.

Lemma C60_external_option sf pow10 sb name type path min max timeout a b :
  external_path path -> In type ["temp"; "margin"; "power"; "powersum"] ->
  buildSensors sf pow10 sb [(name, MkSensorConfig type path "" min max timeout a b true)] =
  buildSensors sf pow10 sb [(name, MkSensorConfig type path "" min max timeout a b false)].
Proof.
  intros E T. unfold buildSensors, build_sensor, make_reader, exports, exported. cbn [flat_map snd foldM sc_readPath sc_type].
  assert (X : getReadInterfaceType path = IoEXTERNAL) by (apply read_external; exact E). rewrite X. cbn [bind].
  assert (F : String.eqb type "fan" = false) by (repeat destruct T as [<-|T]; try contradiction; reflexivity).
  rewrite F. destruct (smem type _); reflexivity.
Qed.

(** ** Devices change only by commands that were delivered (C64) *)
Lemma sent_cases v force ok w r raw : dbus_write v force ok w = Ok r -> sent w (fst r) = Some raw ->
  ok = true /\ to_int64 (dw_target w v) = Some raw.
Proof.
  unfold dbus_write. cbv zeta. destruct (to_int64 (dw_target w v)) as [x|] eqn:T; [|discriminate].
  destruct ((dw_oldValue w =? x) && negb force).
  - intros H. injection H as <-. unfold sent. cbn [fst]. rewrite Nat.ltb_irrefl. discriminate.
  - destruct (to_uint64 (dw_target w v)) as [u|] eqn:U; [|discriminate]. intros H. injection H as <-.
    unfold sent. cbn [fst dw_calls List.length].
    destruct (Nat.ltb_spec (List.length (dw_calls w)) (S (List.length (dw_calls w)))); [|lia].
    destruct ok; [|discriminate]. intros X. injection X as <-. split; [reflexivity|].
    destruct (to_uint64_nonneg _ _ _ T U) as (-> & _). reflexivity.
Qed.
Lemma apply_write_change ok k s n v force k' s' path :
  apply_write ok (k, s) (n, v, force) = Ok (k', s') ->
  k' = S k /\
  (mget path (sy_devices s') <> mget path (sy_devices s) ->
   ok k = true /\ exists w raw, wcoref s n = Some w /\ out_path w = Some path /\ wraw w v = Some raw /\
     mget path (sy_devices s') = Some raw).
Proof.
  unfold apply_write, wcoref. intros H.
  destruct (mget n (sy_sensors s)) as [[t r [p d|p pc mn mx|] i|t i h]|] eqn:E;
    try (injection H as <- <-; split; [reflexivity|intros X; destruct X; reflexivity]).
  - apply bind_ok in H. destruct H as (rw & H1 & H). injection H as <- <-. split; [reflexivity|].
    destruct (sent d (fst rw)) as [raw|] eqn:Sn; cbn [sy_devices set_sensors set_devices]; [|congruence].
    destruct (sent_cases _ _ _ _ _ _ H1 Sn) as (O & T). rewrite mget_mset.
    destruct (String.eqb_spec path p) as [->|N]; [|congruence]. intros _. split; [exact O|].
    eexists. exists raw. split; [reflexivity|]. split; [reflexivity|]. rewrite wraw_core. auto.
  - apply bind_ok in H. destruct H as (rw & H1 & H). injection H as <- <-. split; [reflexivity|].
    unfold sysfs_write in H1. destruct (to_int64 (if pc then percent_ovalue mn mx v else v)) as [raw|] eqn:T; [|discriminate].
    injection H1 as <-. destruct (ok k).
    + cbn [sy_devices set_devices]. rewrite mget_mset. destruct (String.eqb_spec path p) as [->|N]; [|congruence].
      intros _. split; [reflexivity|]. eexists. exists raw. split; [reflexivity|]. split; [reflexivity|]. auto.
    + destruct (mget p (sy_devices s)) as [x|] eqn:X; [|congruence]. cbn [sy_devices set_devices]. rewrite mget_mset.
      destruct (String.eqb_spec path p) as [->|N]; congruence.
Qed.
Lemma writes_change ok path ws : forall k s ks',
  foldM (apply_write ok) ws (k, s) = Ok ks' ->
  mget path (sy_devices (snd ks')) <> mget path (sy_devices s) ->
  exists j n v force w raw, nth_error ws j = Some (n, v, force) /\ ok (k + j)%nat = true /\
    wcoref s n = Some w /\ out_path w = Some path /\ wraw w v = Some raw /\
    mget path (sy_devices (snd ks')) = Some raw.
Proof.
  induction ws as [|[[n v] force] ws IH]; intros k s ks' H C.
  - injection H as <-. destruct C. reflexivity.
  - cbn [foldM] in H. apply bind_ok in H. destruct H as ([k1 s1] & H1 & H2).
    destruct (apply_write_change _ _ _ _ _ _ _ _ path H1) as (-> & A).
    destruct (apply_write_rest _ _ _ _ _ _ H1) as (Rs & _).
    assert (D : mget path (sy_devices (snd ks')) = mget path (sy_devices s1) \/
                mget path (sy_devices (snd ks')) <> mget path (sy_devices s1)).
    { destruct (mget path (sy_devices (snd ks'))), (mget path (sy_devices s1)); try (right; congruence); auto.
      destruct (Z.eq_dec z z0); [left|right]; congruence. }
    destruct D as [D|D].
    + rewrite D in C |- *. destruct (A C) as (Oh & w & raw & A1 & A2 & A3 & A4).
      exists 0%nat, n, v, force, w, raw. rewrite Nat.add_0_r. repeat split; auto.
    + destruct (IH _ _ _ H2 D) as (j & n' & v' & f' & w & raw & B1 & B2 & B3 & B4).
      exists (S j), n', v', f', w, raw. split; [exact B1|]. split; [rewrite <- B2; f_equal; lia|].
      split; [|exact B4]. rewrite <- B3. symmetry. apply cores_wcoref. exact Rs.
Qed.
Lemma runs_writers f sf pow10 sb config failures first devices zs evs s n w path :
  runs f sf pow10 sb config failures first devices zs evs s ->
  wcoref s n = Some w -> out_path w = Some path ->
  exists info, In (n, info) config /\ sc_type info = "fan" /\ drives sb info path /\
    forall v, wraw w v = raw_for info v.
Proof.
  intros [Nd Fr (m & s0 & B & St & R)] W Op.
  destruct (C60_lemma _ _ _ _ _ B Nd) as (_ & A2). apply start_rest in St. cbn in St. destruct St as (E1 & _).
  rewrite (run_wcoref _ _ _ _ n _ _ R) in W. unfold wcoref in W. rewrite E1 in W.
  destruct (mget n m) as [[t r w0 i|t i h]|] eqn:E; try discriminate. injection W as <-.
  destruct (A2 _ _ E) as (info & I & _ & _ & _ & _ & _ & Wr). exists info. split; [exact I|].
  assert (P0 : forall v, percent_ovalue (sc_min info) (sc_max info) v =
                 dadd (dmul (dsub (D (sc_max info)) (D (sc_min info))) v) (D (sc_min info))) by reflexivity.
  destruct w0 as [p d|p a b c|]; cbn in Wr, Op; [| |discriminate]; injection Op as <-.
  - destruct Wr as (Ty & Wo & -> & _ & W1 & W2 & W3 & _). split; [exact Ty|]. split; [left; auto|].
    intros v. rewrite wraw_core. cbn [wraw]. unfold dw_target, raw_for. rewrite W2, W3, P0.
    destruct (Z.ltb_spec 0 (sc_max info)), (dw_percent d); try reflexivity; intuition (congruence || lia).
  - destruct Wr as (Ty & Wo & Rs & W1 & -> & ->). split; [exact Ty|]. split; [right; auto|].
    intros v. cbn [wcore wraw]. unfold raw_for. rewrite P0.
    destruct (Z.ltb_spec 0 (sc_max info)), a; try reflexivity; intuition (congruence || lia).
Qed.
Lemma C64_delivered_lemma f sf pow10 sb config failures first devices zs evs s i w s' l l' new path :
  runs f sf pow10 sb config failures first devices zs evs s ->
  sys_step f sf pow10 s (STick i w) = Ok s' ->
  nth_error (sy_loops s) i = Some l -> nth_error (sy_loops s') i = Some l' ->
  new_events (l_zone l) (l_zone l') new ->
  mget path (sy_devices s') <> mget path (sy_devices s) ->
  exists k name info v force raw,
    nth_error (writes_in new) k = Some (name, v, force) /\ wk_write_ok w k = true /\
    In (name, info) config /\ sc_type info = "fan" /\ drives sb info path /\
    raw_for info v = Some raw /\ mget path (sy_devices s') = Some raw.
Proof.
  intros R H El El' Nw C. cbn [sys_step] in H. apply tick_split in H.
  destruct H as [(N & _)|(l0 & l1 & ls & k' & E0 & Hl & E1 & _ & H & Es)]; [congruence|].
  assert (l0 = l) by congruence. subst l0. rewrite Es in El'. assert (l1 = l') by congruence. subst l1.
  rewrite (new_writes_eq _ _ _ Nw) in H.
  destruct (writes_change _ path _ _ _ _ H C) as (j & n & v & force & wr & raw & A1 & A2 & A3 & A4 & A5 & A6).
  destruct (runs_writers _ _ _ _ _ _ _ _ _ _ _ _ _ _ R A3 A4) as (info & B1 & B2 & B3 & B4).
  exists j, n, info, v, force, raw. rewrite <- B4. repeat split; auto.
Qed.
