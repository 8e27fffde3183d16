(** * Proofs for C111: a daemon whose sensors stay the same. *)
From Coq Require Import ZArith Bool List String Lia.
From Coq Require Import Floats.SpecFloat.
From Coq Require Import Reals Lra.
From Flocq Require Import Core IEEE754.BinarySingleNaN.
From Verif Require Import Base BaseFacts Dbl DblFacts DblBound DblOrder PidModel SpecPid PidProofs ZoneModel LoopModel SpecZone
  ZoneFrame ZoneThermal ZoneFan ZoneProofs LoopProofs ConfigModel SensorModel SpecSensor SensorProofs WriteModel SpecWrite
  WriteProofs BuilderModel SpecBuilder BuilderProofs BuilderRun SystemModel SpecHeat SpecSettle SettleZone SpecSystem SystemProofs SystemProofs2
  SystemProofs3 SystemProofs4 SpecRange RangeProofs RangeSystem SpecDaemon LifeProofs ApartProofs SpecQuiet.
Import ListNotations.
Local Open Scope string_scope.
Local Open Scope list_scope.

(** ** Rounds *)
Lemma rounds_S i ws between n : rounds i ws between (S n) = rounds i ws between n ++ STick i (ws n) :: between n.
Proof. unfold rounds. rewrite seq_S, flat_map_app. cbn. rewrite app_nil_r. reflexivity. Qed.

Lemma sys_run_app f sf pow10 a b s : sys_run f sf pow10 (a ++ b) s = bind (sys_run f sf pow10 a s) (sys_run f sf pow10 b).
Proof. unfold sys_run. apply foldM_app. Qed.

Lemma proj_app f sf pow10 i a : forall b s s', sys_run f sf pow10 a s = Ok s' ->
  proj f sf pow10 i (a ++ b) s = proj f sf pow10 i a s ++ proj f sf pow10 i b s'.
Proof.
  induction a as [|e r IH]; intros b s s' H.
  - unfold sys_run in H. cbn [foldM] in H. injection H as <-. reflexivity.
  - unfold sys_run in H. cbn [foldM] in H. apply bind_ok in H. destruct H as (s1 & H1 & H2).
    cbn [app]. rewrite (proj_cons _ _ _ _ e (r ++ b) _ _ H1), (proj_cons _ _ _ _ e r _ _ H1), (IH b s1 s' H2), app_assoc. reflexivity.
Qed.
Lemma proj_not_for f sf pow10 i evs : Forall (not_for i) evs -> forall s, proj f sf pow10 i evs s = [].
Proof.
  intros F. induction F as [|e r N _ IH]; intros s; [reflexivity|]. cbn [proj].
  assert (R : match sys_step f sf pow10 s e with Ok s' => proj f sf pow10 i r s' | _ => [] end = [])
    by (destruct (sys_step f sf pow10 s e); auto).
  rewrite R, app_nil_r. destruct e; try reflexivity; cbn in N; destruct (Nat.eqb_spec i0 i); try reflexivity; contradiction.
Qed.

(** ** Writers *)
Lemma wex_calls s n : set_calls s n = match wex s n with Some (WDbus _ w) => dw_calls w | _ => [] end.
Proof. unfold set_calls, wex. destruct (mget n (sy_sensors s)) as [[t r [p w|p pc mn mx|] i|t i h]|]; reflexivity. Qed.

Lemma apply_wex_other ok k s m v b k' s' n : apply_write ok (k, s) (m, v, b) = Ok (k', s') -> m <> n -> wex s' n = wex s n.
Proof.
  intros H N. unfold apply_write in H. destruct (mget m (sy_sensors s)) as [[t r [p w|p pc mn mx|] i|t i h]|] eqn:E; try (injection H as _ <-; reflexivity).
  - apply bind_ok in H. destruct H as (rw & _ & H). injection H as _ <-.
    assert (Q : wex (set_sensors (mset m (Pluggable t r (WDbus p (fst rw)) i) (sy_sensors s)) s) n = wex s n).
    { unfold wex. cbn [sy_sensors set_sensors]. rewrite mget_mset. destruct (String.eqb_spec n m) as [->|_]; [congruence|reflexivity]. }
    destruct (sent w (fst rw)); exact Q.
  - apply bind_ok in H. destruct H as (v' & _ & H). injection H as _ <-. destruct v'; reflexivity.
Qed.

Lemma apply_wex_self ok k s n v b k' s' : apply_write ok (k, s) (n, v, b) = Ok (k', s') ->
  match wex s n with
  | Some (WDbus p d) => exists d' raw, dbus_write v b (ok k) d = Ok (d', raw) /\ wex s' n = Some (WDbus p d')
  | o => wex s' n = o
  end.
Proof.
  intros H. unfold apply_write in H. unfold wex at 1.
  destruct (mget n (sy_sensors s)) as [[t r [p w|p pc mn mx|] i|t i h]|] eqn:E.
  - apply bind_ok in H. destruct H as ((d' & raw) & Hd & H). injection H as _ <-. exists d', raw. split; [exact Hd|]. cbn [fst].
    assert (Q : wex (set_sensors (mset n (Pluggable t r (WDbus p d') i) (sy_sensors s)) s) n = Some (WDbus p d')).
    { unfold wex. cbn [sy_sensors set_sensors]. rewrite mget_mset, String.eqb_refl. reflexivity. }
    destruct (sent w d'); exact Q.
  - apply bind_ok in H. destruct H as (v' & _ & H). injection H as _ <-. unfold wex. destruct v'; cbn [sy_sensors set_devices]; rewrite E; reflexivity.
  - injection H as _ <-. unfold wex. rewrite E. reflexivity.
  - injection H as _ <-. unfold wex. rewrite E. reflexivity.
  - injection H as _ <-. unfold wex. rewrite E. reflexivity.
Qed.

Definition wname (w : string * dbl * bool) : string := fst (fst w).
Lemma applies_wex_other ok n ws : forall k s k' s', foldM (apply_write ok) ws (k, s) = Ok (k', s') ->
  ~ In n (map wname ws) -> wex s' n = wex s n.
Proof.
  induction ws as [|((m & v) & b) r IH]; intros k s k' s' H N; cbn [foldM] in H; [injection H as _ <-; reflexivity|].
  apply bind_ok in H. destruct H as ((k1 & s1) & H1 & H). cbn [map] in N. rewrite (IH _ _ _ _ H).
  - apply (apply_wex_other _ _ _ _ _ _ _ _ _ H1). intros E. apply N. left. exact E.
  - intros I. apply N. right. exact I.
Qed.
Lemma applies_wex ok n ws : forall k s k' s', foldM (apply_write ok) ws (k, s) = Ok (k', s') -> NoDup (map wname ws) ->
  (~ In n (map wname ws) /\ wex s' n = wex s n) \/
  exists v b ka sa kb sb, In (n, v, b) ws /\ wex sa n = wex s n /\ apply_write ok (ka, sa) (n, v, b) = Ok (kb, sb) /\ wex s' n = wex sb n.
Proof.
  induction ws as [|((m & v) & b) r IH]; intros k s k' s' H N; cbn [foldM] in H.
  - left. injection H as _ <-. split; [intros []|reflexivity].
  - apply bind_ok in H. destruct H as ((k1 & s1) & H1 & H). cbn [map] in N. inversion N as [|? ? N1 N2]; subst.
    destruct (string_dec m n) as [->|Ne].
    + right. exists v, b, k, s, k1, s1. split; [left; reflexivity|]. split; [reflexivity|]. split; [exact H1|].
      exact (applies_wex_other _ _ _ _ _ _ _ H N1).
    + assert (O := apply_wex_other _ _ _ _ _ _ _ _ _ H1 Ne).
      destruct (IH _ _ _ _ H N2) as [(A & B)|(v' & b' & ka & sa & kb & sb & A & B & C & D)].
      * left. split; [intros [Q|Q]; [exact (Ne Q)|exact (A Q)]|congruence].
      * right. exists v', b', ka, sa, kb, sb. split; [right; exact A|]. split; [congruence|]. split; assumption.
Qed.

(** Equal commands give the same raw value. *)
Lemma unit_deq v v' : unit_command v -> deq v v' -> unit_command v'.
Proof.
  intros (A & B) E. apply deq_iff in E. destruct E as (E1 & E2 & E3). apply dle_iff in A, B.
  destruct A as (A1 & A2 & A3), B as (B1 & B2 & B3).
  split; apply dle_iff; (split; [assumption|]); (split; [assumption|]); lra.
Qed.
Lemma raw_deq d v v' : (dw_percent d = true -> usable_range (dw_min d) (dw_max d)) -> unit_command v -> deq v v' ->
  exists r, (0 <= r)%Z /\ to_int64 (dw_target d v) = Some r /\ to_int64 (dw_target d v') = Some r.
Proof.
  intros U Uv E. assert (Uv' := unit_deq _ _ Uv E).
  destruct (target_raw (dw_percent d) (dw_min d) (dw_max d) v U Uv) as (r & T & P & _).
  destruct (target_raw (dw_percent d) (dw_min d) (dw_max d) v' U Uv') as (r' & T' & P' & _).
  assert (Q : forall x, dw_target d x = if dw_percent d then percent_ovalue (dw_min d) (dw_max d) x else x) by reflexivity.
  rewrite <- Q in T, T'. exists r. split; [exact P|]. split; [exact T|]. rewrite T'. f_equal.
  apply deq_iff in E. destruct E as (E1 & E2 & E3).
  assert (Le : dle v v') by (apply dle_iff; split; [assumption|]; split; [assumption|]; lra).
  assert (Ge : dle v' v) by (apply dle_iff; split; [assumption|]; split; [assumption|]; lra).
  destruct (dw_percent d) eqn:Pc.
  - assert (S1 := dbus_write_step v true true d r P T). assert (S2 := dbus_write_step v' true true d r' P' T').
    assert (L1 := C32_dbus_monotone d d v v' true true true true _ _ _ _ Pc Pc eq_refl eq_refl (U eq_refl) (proj1 Uv) Le (proj2 Uv') S1 S2).
    assert (L2 := C32_dbus_monotone d d v' v true true true true _ _ _ _ Pc Pc eq_refl eq_refl (U eq_refl) (proj1 Uv') Ge (proj2 Uv) S2 S1).
    lia.
  - rewrite Q in T, T'. unfold to_int64, dtrunc in T, T'.
    destruct (is_finite v) eqn:F; [|discriminate T]. destruct (is_finite v') eqn:F'; [|discriminate T'].
    rewrite (Btrunc_Rx v F) in T. rewrite (Btrunc_Rx v' F'), <- E3 in T'. congruence.
Qed.

Section Life.
  Context (f : flags) (sf : sflags) (pow10 : Z -> dbl) (sb : sensor_bus) (config : smap SensorConfig)
    (failures : list string) (first : option string) (devices : smap Z) (zs : list (start_in * zone)).
  Context (bus_ok : string -> bool) (zp : list (Z * PIDConf)) (confs : list (Z * ZoneConfig)).
  Hypothesis (Nd : NoDup (map fst config)).
  Hypothesis (Bf : some_of bus_ok zp confs zs).
  Hypothesis (Ps : forall id pids, In (id, pids) zp -> pids_served config pids).
  Hypothesis (Su : sensible_setup sf pow10 sb config zp confs).
  Hypothesis (Sb : Forall (fun e => sensible_begin (fst e)) zs).
  Notation life := (SpecSystem.runs f sf pow10 sb config failures first devices zs).
  Context (i : nat) (st : start_in) (z : zone) (Iz : nth_error zs i = Some (st, z)).
  Context (evs : list sys_event) (s : system) (R : life evs s) (Sn : Forall sensible_news evs).
  Context (ws : nat -> wake) (between : nat -> list sys_event).
  Hypothesis (Nf : forall k, Forall (not_for i) (between k)).
  Hypothesis (Fn : forall k, sensible_news (STick i (ws k)) /\ Forall sensible_news (between k)).
  Let future := rounds i ws between.
  Notation run := (sys_run f sf pow10).

  Lemma future_news k : Forall sensible_news (future k).
  Proof.
    induction k as [|k IH]; [constructor|]. unfold future in *. rewrite rounds_S. apply Forall_app. split; [exact IH|].
    destruct (Fn k). constructor; assumption.
  Qed.
  Lemma good_at evs' s' : life evs' s' -> Forall sensible_news evs' ->
    good pow10 sb config devices s'.
  Proof. intros R' S'. exact (good_runs f sf pow10 sb config failures first devices zs bus_ok zp confs Nd Bf Ps Su Sb evs' s' R' S'). Qed.
  Lemma good_future k sk : run (future k) s = Ok sk -> good pow10 sb config devices sk.
  Proof.
    intros H. apply (good_at (evs ++ future k)); [eapply runs_more; eassumption|].
    apply Forall_app. split; [exact Sn|apply future_news].
  Qed.
  Lemma zone_ok : start_ok z /\ forall n, In n (z_fanInputs z) -> writable config n.
  Proof.
    exact (zone_start_ok sf pow10 sb config zs bus_ok zp confs Bf Ps Su st z (nth_error_In _ _ Iz)).
  Qed.
  Lemma polls_modest s' files now : good pow10 sb config devices s' -> (forall p, modest_file (files p)) ->
    modest_speeds (z_fanInputs z) (view_env s' files now).
  Proof. intros (G & _) M. eapply view_small; [exact G|exact M|apply zone_ok]. Qed.
  Lemma ticks_sensible s' w : good pow10 sb config devices s' -> sensible_news (STick i w) ->
    sensible_event (z_fanInputs z) (LTick (tick_of s' w)).
  Proof. intros G (A & B & C). split; [|split; [|exact C]]; apply polls_modest; assumption. Qed.

  Definition es (k : nat) : tick_env :=
    match run (future k) s with Ok sk => tick_of sk (ws k) | _ => tick_of s (ws 0%nat) end.

  Lemma future_proj k sk : run (future k) s = Ok sk -> proj f sf pow10 i (future k) s = wake_ups es k.
  Proof.
    revert sk. induction k as [|k IH]; intros sk H; [reflexivity|].
    unfold future in *. rewrite rounds_S in H |- *. rewrite sys_run_app in H. apply bind_ok in H. destruct H as (s1 & H1 & H2).
    rewrite (proj_app _ _ _ _ _ _ _ _ H1), (IH _ H1), wake_ups_S. f_equal.
    assert (E : es k = tick_of s1 (ws k)) by (unfold es, future; rewrite H1; reflexivity). rewrite E.
    unfold sys_run in H2. cbn [foldM] in H2. apply bind_ok in H2. destruct H2 as (s2 & H2 & _).
    rewrite (proj_cons _ _ _ _ _ _ _ _ H2), (proj_not_for _ _ _ _ _ (Nf k)), app_nil_r.
    cbn [proj]. rewrite Nat.eqb_refl, H2. reflexivity.
  Qed.

  Lemma life_of_prefix m s0 before after s1 : evs = before ++ after -> buildSensors sf pow10 sb config = Ok m ->
    sys_start f m failures (host_initial first) devices zs = Ok s0 -> run before s0 = Ok s1 ->
    life before s1 /\ Forall sensible_news before.
  Proof.
    intros E B S0 H. split; [|rewrite E in Sn; apply Forall_app in Sn; apply Sn].
    destruct R as [A C _]. constructor; [exact A|exact C|]. exists m, s0. auto.
  Qed.

  Hypothesis (Tn : tuningEnabled f = false) (Sz : settling_zone z).
  Hypothesis (Ml : moderate_life f sf pow10 sb config failures first devices zs i st z evs).
  Hypothesis (Sy : steady f sf pow10 z i ws between s).
  Hypothesis (M0 : moderate (view_env s (wk_therm_files (ws 0%nat)) (wk_therm_now (ws 0%nat))) z).

  Lemma same_view_refl names a : same_view names a a.
  Proof. intros n _. split; [reflexivity|]. split; [reflexivity|split; intros H; exact H]. Qed.

  (** The loop of the zone after [k] rounds. *)
  Lemma zone_rests : exists N W, forall k sk s' l l' new, (N <= k)%nat ->
    run (future k) s = Ok sk -> sys_step f sf pow10 sk (STick i (ws k)) = Ok s' ->
    nth_error (sy_loops sk) i = Some l -> nth_error (sy_loops s') i = Some l' ->
    new_events (l_zone l) (l_zone l') new -> Forall2 same_command (writes_in new) W.
  Proof.
    destruct R as [Rk Rf (m & s0 & B & S0 & H0)].
    destruct (zone_source _ _ _ _ Bf _ _ _ Iz) as (built & id & pids & Bz & J & Jz). assert (Bf' := Bf). destruct Bf' as (Nz & _).
    destruct (proj2 (C49_structure _ _ _ _ Bz) Nz _ _ _ J Jz) as (c & Zc & Z).
    assert (S0' := S0). unfold sys_start in S0'. destruct (start_views _ _ _ _ _ _ _ S0' Iz) as (l0 & L0 & St). cbn [sy_loops List.length Nat.add] in L0.
    apply start_rest in S0'. destruct S0' as (E1 & E2 & E3 & _). cbn [sy_sensors sy_failures sy_power] in E1, E2, E3.
    assert (Vw : forall files now, view_env (Sys m failures (host_initial first) [] devices) files now = view_env s0 files now).
    { intros files now. unfold view_env. cbn [sy_sensors sy_failures sy_power]. rewrite E1, E2, E3. reflexivity. }
    rewrite Vw in St.
    assert (R0 : life [] s0). { constructor; [exact Rk|exact Rf|]. exists m, s0. split; [exact B|]. split; [exact S0|reflexivity]. }
    assert (G0 : good pow10 sb config devices s0) by (apply (good_at []); [exact R0|constructor]).
    assert (Sbz : sensible_begin st).
    { apply nth_error_In in Iz. rewrite Forall_forall in Sb. exact (Sb _ Iz). }
    destruct Sbz as (Sb1 & Sb2). destruct Ml as (Ml1 & Ml2).
    destruct (C107_lemma bus_ok zp confs built id pids z c f (view_env s0 (st_files st) (st_now st)) (st_tune st) (st_timer st) l0
      (proj f sf pow10 i evs s0) es) as (N & W & H); try assumption.
    - apply (se_pids _ _ _ _ _ _ Su _ _ J).
    - exact (se_zones _ _ _ _ _ _ Su _ _ _ J Zc).
    - apply polls_modest; assumption.
    - apply Ml1. exact R0.
    - apply Forall_forall. intros ev Iev. destruct ev as [t|b|p b]; [|exact Logic.I|exact Logic.I].
      destruct (proj_tick_in _ _ _ _ _ _ _ _ H0 Iev) as (pre & w & post & s1 & Ee & Hp & ->).
      destruct (life_of_prefix m s0 pre (STick i w :: post) s1 Ee B S0 Hp) as (Rp & Sp).
      apply ticks_sensible; [eapply good_at; eassumption|]. rewrite Ee in Sn. rewrite Forall_forall in Sn. apply Sn.
      apply in_or_app. right. left. reflexivity.
    - apply Forall_forall. intros ev Iev. destruct ev as [t|b|p b]; [|exact Logic.I|exact Logic.I].
      destruct (proj_tick_in _ _ _ _ _ _ _ _ H0 Iev) as (pre & w & post & s1 & Ee & Hp & ->).
      destruct (life_of_prefix m s0 pre (STick i w :: post) s1 Ee B S0 Hp) as (Rp & Sp).
      cbn [moderate_event tick_of tk_therm]. eapply Ml2; eassumption.
    - assert (Z0 : es 0 = tick_of s (ws 0%nat)) by reflexivity.
      assert (Sy0 := Sy 0%nat s eq_refl). cbv zeta in Sy0.
      intros k. rewrite Z0. cbn [tick_of tk_fan]. unfold es. destruct (run (future k) s) as [sk|e|e] eqn:Ek; [exact (Sy k sk Ek)| |]; exact Sy0.
    - intros k. unfold es. destruct (run (future k) s) as [sk|e|e] eqn:Ek.
      + apply ticks_sensible; [eapply good_future; eassumption|apply Fn].
      + apply ticks_sensible; [apply (good_future 0 s eq_refl)|apply Fn].
      + apply ticks_sensible; [apply (good_future 0 s eq_refl)|apply Fn].
    - exists N, W. intros k sk s' l l' new Hk Hr Hs El El' Hn.
      destruct (run_loops _ _ _ i _ _ _ _ H0 L0) as (la & La & Ra). destruct (run_loops _ _ _ i _ _ _ _ Hr La) as (lb & Lb & Rb).
      assert (lb = l) by congruence. subst lb. rewrite (future_proj _ _ Hr) in Rb.
      destruct (step_loops _ _ _ _ _ _ _ _ Hs El) as (lc & Lc & Rc). assert (lc = l') by congruence. subst lc.
      cbn [proj] in Rc. rewrite Nat.eqb_refl, Hs, app_nil_r in Rc.
      apply (H k l l' new Hk); [|rewrite wake_ups_S, app_assoc|exact Hn].
      + rewrite loop_run_app, Ra. exact Rb.
      + rewrite loop_run_app, loop_run_app, Ra. cbn [bind]. rewrite Rb. cbn [bind].
        assert (E : es k = tick_of sk (ws k)) by (unfold es; rewrite Hr; reflexivity). rewrite E. exact Rc.
  Qed.

  (** ** The Set calls of a fan *)
  Context (n : string).
  Hypothesis (Nf1 : NoDup (z_fanInputs z)).
  Hypothesis (Own : forall j st' z', j <> i -> nth_error zs j = Some (st', z') -> ~ In n (z_fanInputs z')).

  Lemma zone_shape j st' z' : nth_error zs j = Some (st', z') -> exists id pids c, zone_of id pids c z'.
  Proof.
    intros E. destruct (zone_source _ _ _ _ Bf _ _ _ E) as (built & id & pids & Bz & J & Jz). assert (Bf' := Bf). destruct Bf' as (Nz & _).
    destruct (proj2 (C49_structure _ _ _ _ Bz) Nz _ _ _ J Jz) as (c & _ & Z). eauto.
  Qed.
  Lemma zone_inputs id pids c z' : zone_of id pids c z' -> flat_map fan_inputs (fan_ctls z') = z_fanInputs z'.
  Proof.
    intros Z. rewrite (zo_fanInputs _ _ _ _ Z). assert (Fa := zo_fans _ _ _ _ Z). unfold fan_ctls. clear - Fa.
    induction Fa as [|e [k|] es ks H _ IH]; cbn; [reflexivity| |cbn in H; unfold names_of at 1; rewrite H; exact IH].
    rewrite IH. destruct H as (_ & _ & E & _). rewrite E. reflexivity.
  Qed.
  Lemma life_inputs evs' s' j l : life evs' s' -> nth_error (sy_loops s') j = Some l ->
    exists st' z', nth_error zs j = Some (st', z') /\ flat_map fan_inputs (fan_ctls (l_zone l)) = z_fanInputs z'.
  Proof.
    intros R' El. destruct (loop_source f sf pow10 sb config failures first devices zs evs' s' j l R' El) as (st' & z' & E & Re).
    exists st', z'. split; [exact E|]. destruct (zone_shape _ _ _ E) as (id & pids & c & Z). rewrite <- (zone_inputs _ _ _ _ Z).
    assert (Q := reachable_inputs _ _ _ Re). rewrite !flat_map_concat_map, Q. reflexivity.
  Qed.

  Lemma other_keeps evs' s1 e s2 : life evs' s1 -> not_for i e -> sys_step f sf pow10 s1 e = Ok s2 -> wex s2 n = wex s1 n.
  Proof.
    intros R' Ne H. destruct e as [path m|m v t|m|c|j w|j b|j p b];
      try (apply (step_quiet _ _ _ _ _ _ H); solve [intros []]).
    cbn [sys_step] in H. apply tick_split in H. destruct H as [(_ & ->)|(l & l' & ls & k' & El & Hl & _ & _ & Hw & _)]; [reflexivity|].
    rewrite (applies_wex_other _ n _ _ _ _ _ Hw); [reflexivity|]. intros I. apply in_map_iff in I. destruct I as (x & Ex & I).
    destruct (tick_writes _ _ _ _ _ Hl I) as (_ & (k & Ik & In_)). unfold wname in Ex. rewrite Ex in In_.
    destruct (life_inputs _ _ _ _ R' El) as (st' & z' & E & Q). apply (Own j st' z' Ne E). rewrite <- Q.
    apply in_flat_map. exists k. split; [|exact In_]. unfold fan_ctls. apply in_flat_map. exists (Some k). split; [exact Ik|left; reflexivity].
  Qed.
  Lemma others_keep es' : Forall (not_for i) es' -> forall evs' s1 s2, life evs' s1 -> run es' s1 = Ok s2 ->
    wex s2 n = wex s1 n /\ nth_error (sy_loops s2) i = nth_error (sy_loops s1) i.
  Proof.
    intros F. induction F as [|e r Ne F IH]; intros evs' s1 s2 R' H; unfold sys_run in H; cbn [foldM] in H; [injection H as <-; auto|].
    apply bind_ok in H. destruct H as (sm & H1 & H2).
    assert (Rm : life (evs' ++ [e]) sm). { eapply runs_more; [exact R'|]. unfold sys_run. cbn [foldM]. rewrite H1. reflexivity. }
    destruct (IH _ _ _ Rm H2) as (A & B). split; [rewrite A; eapply other_keeps; eassumption|]. rewrite B.
    destruct (runs_zone _ _ _ _ _ _ _ _ _ _ _ _ _ _ R' Iz) as (l & El & _).
    destruct (step_loops _ _ _ _ _ _ _ _ H1 El) as (l' & El' & Rl).
    rewrite (proj_not_for f sf pow10 i [e] (Forall_cons _ Ne (Forall_nil _)) s1) in Rl. unfold loop_run in Rl. cbn [foldM] in Rl.
    injection Rl as ->. congruence.
  Qed.

  (** A wake-up of the zone. *)
  Definition idle (l : loop) : Prop := z_manualMode (l_zone l) = true \/ z_redundantWrite (l_zone l) = false.
  Lemma own_tick evs' s1 w s2 : life evs' s1 -> Forall sensible_news evs' -> sensible_news (STick i w) ->
    sys_step f sf pow10 s1 (STick i w) = Ok s2 ->
    exists l l' new k', nth_error (sy_loops s1) i = Some l /\ nth_error (sy_loops s2) i = Some l' /\
      new_events (l_zone l) (l_zone l') new /\ idle l' /\
      NoDup (map wname (writes_in new)) /\ (forall m v b, In (m, v, b) (writes_in new) -> unit_command v) /\
      (idle l -> forall m v b, In (m, v, b) (writes_in new) -> b = false) /\
      exists ls, foldM (apply_write (wk_write_ok w)) (writes_in new) (O, set_loops ls s1) = Ok (k', s2).
  Proof.
    intros R' Sn' Se H. assert (H' := H). cbn [sys_step] in H. apply tick_split in H.
    destruct (runs_zone _ _ _ _ _ _ _ _ _ _ _ _ _ _ R' Iz) as (l & El & Re & _).
    destruct H as [(No & _)|(l1 & l' & ls & k' & El1 & Hl & El' & _ & Hw & Els)]; [congruence|].
    assert (l1 = l) by congruence. subst l1.
    assert (R2 : life (evs' ++ [STick i w]) s2). { eapply runs_more; [exact R'|]. unfold sys_run. cbn [foldM]. rewrite H'. reflexivity. }
    assert (G2 : good pow10 sb config devices s2).
    { eapply good_at; [exact R2|]. apply Forall_app. split; [exact Sn'|]. constructor; [exact Se|constructor]. }
    assert (Us : forall m v b, In (m, v, b) (new_writes (l_zone l) (l_zone l')) -> unit_command v).
    { intros m v b I. apply new_writes_in in I. destruct G2 as (_ & _ & G3). rewrite Forall_forall in G3.
      assert (I' : In l' (sy_loops s2)) by (rewrite Els; eapply nth_error_In; eassumption).
      destruct (G3 _ I') as ((_ & _ & _ & Uw) & _). eapply Uw; eauto. }
    destruct (z_manualMode (l_zone l)) eqn:M.
    - assert (X := Hl). cbn [loop_step] in X. unfold loop_tick in X. rewrite M in X. injection X as X.
      assert (Ez : l_zone l' = l_zone l) by (rewrite <- X; reflexivity).
      exists l, l', [], k'. split; [exact El|]. split; [rewrite Els; exact El'|]. split; [unfold new_events; rewrite Ez; reflexivity|].
      split; [left; rewrite Ez; exact M|]. split; [constructor|]. split; [intros ? ? ? []|]. split; [intros _ ? ? ? []|].
      exists ls. rewrite <- (new_writes_eq (l_zone l) (l_zone l') []); [exact Hw|]. unfold new_events. rewrite Ez. reflexivity.
    - destruct (tick_step f _ l l' Hl M) as (z1 & z2 & new & _ & T). assert (Tr := tf_trace _ _ _ _ _ _ T).
      rewrite (new_writes_eq _ _ _ Tr) in Hw, Us.
      exists l, l', new, k'. split; [exact El|]. split; [rewrite Els; exact El'|]. split; [exact Tr|].
      assert (Md := tf_mode _ _ _ _ _ _ T). unfold mode in Md. injection Md as _ Md.
      split; [right; exact Md|]. rewrite (tf_writes _ _ _ _ _ _ T) in *. split; [|split; [exact Us|split; [|exists ls; exact Hw]]].
      + destruct (life_inputs _ _ _ _ R' El) as (st' & z' & E & Q). assert (z' = z) by congruence. subst z'.
        assert (Q' : map wname (all_fan_writes f z2) = flat_map fan_inputs (fan_ctls z2)).
        { unfold all_fan_writes. generalize (fan_ctls z2). intros cs. induction cs as [|k r IH]; [reflexivity|].
          cbn [flat_map]. rewrite map_app, IH. f_equal. unfold fan_writes. rewrite map_map. cbn. apply map_id. }
        rewrite Q', (fan_ctls_eq z2 (l_zone l) (tf_fans2 _ _ _ _ _ _ T)), Q. exact Nf1.
      + intros [Ma|Rw] m v b I; [congruence|]. unfold all_fan_writes in I. apply in_flat_map in I. destruct I as (k & _ & I).
        unfold fan_writes in I. apply in_map_iff in I. destruct I as (x & Ex & _). injection Ex as _ _ <-.
        rewrite (tf_rw _ _ _ _ _ _ T). exact Rw.
  Qed.

  Lemma usable_at s' p d : good pow10 sb config devices s' -> wex s' n = Some (WDbus p d) ->
    dw_percent d = true -> usable_range (dw_min d) (dw_max d).
  Proof.
    intros (G & _) E. unfold wex in E. destruct (mget n (sy_sensors s')) as [[t r w ig|t ig h]|] eqn:Em; try discriminate E.
    injection E as ->. destruct (G _ _ Em) as (_ & _ & W). cbn in W.
    exact (fan_device_usable sf pow10 sb config zp confs Su _ _ _ _ W).
  Qed.

  (** The writer remembers what the zone keeps commanding. *)
  Definition holds (W : list (string * dbl * bool)) (s' : system) : Prop :=
    forall p d v b, wex s' n = Some (WDbus p d) -> In (n, v, b) W -> to_int64 (dw_target d v) = Some (dw_oldValue d).

  Lemma same_in a b : Forall2 same_command a b -> forall m v c, In (m, v, c) a -> exists v', In (m, v', c) b /\ deq v v'.
  Proof.
    intros F m v c. induction F as [|x y a b (E1 & E2 & E3) _ IH]; intros I; [destruct I|]. destruct I as [->|I].
    - destruct y as ((m' & v') & c'). cbn in E1, E2, E3. subst. exists v'. split; [left; reflexivity|exact E2].
    - destruct (IH I) as (v' & J & Q). exists v'. split; [right; exact J|exact Q].
  Qed.
  Lemma same_names a b : Forall2 same_command a b -> map wname a = map wname b.
  Proof. intros F. induction F as [|x y a b (E & _) _ IH]; [reflexivity|]. cbn. rewrite IH. unfold wname. rewrite E. reflexivity. Qed.
  Lemma once (W : list (string * dbl * bool)) m v b v' b' : NoDup (map wname W) -> In (m, v, b) W -> In (m, v', b') W -> v = v' /\ b = b'.
  Proof.
    induction W as [|x r IH]; intros N I J; [destruct I|]. cbn [map] in N. inversion N as [|? ? N1 N2]; subst.
    destruct I as [->|I], J as [J|J].
    - injection J as -> ->. auto.
    - exfalso. apply N1. apply in_map_iff. exists (m, v', b'). auto.
    - subst x. exfalso. apply N1. apply in_map_iff. exists (m, v, b). auto.
    - auto.
  Qed.

  Lemma round W k sk s' new l l' : Forall sensible_news (evs ++ future k) -> run (future k) s = Ok sk ->
    sys_step f sf pow10 sk (STick i (ws k)) = Ok s' -> nth_error (sy_loops sk) i = Some l -> nth_error (sy_loops s') i = Some l' ->
    new_events (l_zone l) (l_zone l') new -> Forall2 same_command (writes_in new) W ->
    holds W s' /\ idle l' /\ (idle l -> holds W sk -> set_calls s' n = set_calls sk n).
  Proof.
    intros Sk Hr Hs El El' Hn F. assert (Rk : life (evs ++ future k) sk) by (eapply runs_more; eassumption).
    assert (Gk := good_at _ _ Rk Sk).
    destruct (own_tick _ _ _ _ Rk Sk (proj1 (Fn k)) Hs) as (l1 & l1' & new1 & k' & E1 & E2 & Hn1 & Id & Nw & Us & Fl & (ls & Hw)).
    assert (l1 = l) by congruence. assert (l1' = l') by congruence. subst l1 l1'.
    assert (new1 = new). { unfold new_events in Hn, Hn1. rewrite Hn in Hn1. apply app_inv_tail in Hn1. auto. } subst new1.
    assert (NW : NoDup (map wname W)) by (rewrite <- (same_names _ _ F); exact Nw).
    destruct (applies_wex _ n _ _ _ _ _ Hw Nw) as [(No & Ex)|(v & b & ka & sa & kb & sb' & I & Ea & Ha & Eb)].
    - assert (Ex' : wex s' n = wex sk n) by (rewrite Ex; reflexivity). split; [|split; [exact Id|]].
      + intros p d v b _ I. exfalso. apply No. rewrite (same_names _ _ F). apply in_map_iff. exists (n, v, b). auto.
      + intros _ _. rewrite !wex_calls, Ex'. reflexivity.
    - assert (Ea' : wex sa n = wex sk n) by (rewrite Ea; reflexivity).
      destruct (same_in _ _ F _ _ _ I) as (vW & IW & Dq). assert (Uv := Us _ _ _ I).
      apply apply_wex_self in Ha. rewrite Ea' in Ha.
      destruct (wex sk n) as [[p d|p pc mn mx|]|] eqn:Ek; rewrite <- Eb in Ha;
        try (split; [intros ? ? ? ? Q; congruence|split; [exact Id|intros _ _; rewrite !wex_calls, Ek, Ha; reflexivity]]).
      destruct Ha as (d' & raw & Hd & Es').
      destruct (raw_deq d v vW (usable_at _ _ _ Gk Ek) Uv Dq) as (r & P & T & TW).
      rewrite (dbus_write_step v b _ d r P T) in Hd. injection Hd as <- _. split; [|split; [exact Id|]].
      + intros p1 d1 v1 b1 Q J. rewrite Es' in Q. injection Q as _ <-. destruct (once W n _ _ _ _ NW J IW) as (-> & _). exact TW.
      + intros Il Ho. specialize (Ho _ _ _ _ Ek IW). rewrite TW in Ho. injection Ho as Ho. rewrite (Fl Il _ _ _ I) in Es'.
        rewrite !wex_calls, Ek, Es'. cbn [dw_calls]. rewrite <- Ho, Z.eqb_refl. reflexivity.
  Qed.

  Lemma calls_rest : exists N, forall k sN sk, (N <= k)%nat -> run (future N) s = Ok sN -> run (future k) s = Ok sk ->
    set_calls sk n = set_calls sN n.
  Proof.
    destruct zone_rests as (N & W & H). exists (S N).
    assert (Sp : forall k sk, run (future (S k)) s = Ok sk -> exists s1 s', run (future k) s = Ok s1 /\
      sys_step f sf pow10 s1 (STick i (ws k)) = Ok s' /\ wex sk n = wex s' n /\ nth_error (sy_loops sk) i = nth_error (sy_loops s') i).
    { intros k sk Hk. unfold future in Hk. rewrite rounds_S, sys_run_app in Hk. apply bind_ok in Hk. destruct Hk as (s1 & H1 & H2).
      unfold sys_run in H2. cbn [foldM] in H2. apply bind_ok in H2. destruct H2 as (s' & H2 & H3). exists s1, s'.
      split; [exact H1|]. split; [exact H2|]. apply (others_keep _ (Nf k) ((evs ++ future k) ++ [STick i (ws k)])); [|exact H3].
      eapply runs_more; [eapply runs_more; [exact R|exact H1]|]. unfold sys_run. cbn [foldM]. rewrite H2. reflexivity. }
    assert (One : forall k sk, (N <= k)%nat -> run (future (S k)) s = Ok sk ->
      (forall l, nth_error (sy_loops sk) i = Some l -> idle l) /\ holds W sk /\
      exists s1, run (future k) s = Ok s1 /\
        ((forall l, nth_error (sy_loops s1) i = Some l -> idle l) -> holds W s1 -> set_calls sk n = set_calls s1 n)).
    { intros k sk Hk Hr. destruct (Sp k sk Hr) as (s1 & s' & H1 & H2 & Ew & El).
      assert (Sk : Forall sensible_news (evs ++ future k)) by (apply Forall_app; split; [exact Sn|apply future_news]).
      assert (R1 : life (evs ++ future k) s1) by (eapply runs_more; eassumption).
      destruct (own_tick _ _ _ _ R1 Sk (proj1 (Fn k)) H2) as (l & l' & new & k' & E1 & E2 & Hn & _).
      assert (F := H k s1 s' l l' new Hk H1 H2 E1 E2 Hn).
      destruct (round W k s1 s' new l l' Sk H1 H2 E1 E2 Hn F) as (Ho & Id & Ca).
      split; [intros l0 E0; rewrite El, E2 in E0; injection E0 as <-; exact Id|].
      split; [intros p d v b Q; rewrite Ew in Q; exact (Ho p d v b Q)|]. exists s1. split; [exact H1|].
      intros Al Hl. rewrite wex_calls, Ew, <- wex_calls. apply Ca; [apply Al; exact E1|exact Hl]. }
    intros k sN sk Hk HN. revert sk. induction Hk as [|k Hk IH]; intros sk Hr; [congruence|].
    destruct (One k sk ltac:(lia) Hr) as (_ & _ & s1 & H1 & Ca). rewrite <- (IH s1 H1).
    destruct k as [|k]; [lia|]. destruct (One k s1 ltac:(lia) H1) as (A & B & _). apply Ca; assumption.
  Qed.
End Life.

(** ** The statements *)
Lemma future_served f sb config i ws between k :
  (forall k, served f sb config (STick i (ws k)) /\ Forall (served f sb config) (between k)) ->
  Forall (served f sb config) (rounds i ws between k).
Proof.
  intros H. induction k as [|k IH]; [constructor|]. rewrite rounds_S. apply Forall_app. split; [exact IH|].
  destruct (H k). constructor; assumption.
Qed.

Lemma C111_rest_lemma f sf pow10 sb config failures first devices zs bus_ok zp confs i st z evs s ws between :
  NoDup (map fst config) -> built_from bus_ok zp confs zs -> (forall id pids, In (id, pids) zp -> pids_served config pids) ->
  sensible_setup sf pow10 sb config zp confs -> Forall (fun e => sensible_begin (fst e)) zs ->
  tuningEnabled f = false -> nth_error zs i = Some (st, z) -> settling_zone z ->
  SpecSystem.runs f sf pow10 sb config failures first devices zs evs s -> Forall sensible_news evs ->
  moderate_life f sf pow10 sb config failures first devices zs i st z evs ->
  (forall k, Forall (not_for i) (between k)) ->
  (forall k, sensible_news (STick i (ws k)) /\ Forall sensible_news (between k)) ->
  (forall k, served f sb config (STick i (ws k)) /\ Forall (served f sb config) (between k)) ->
  moderate (view_env s (wk_therm_files (ws 0%nat)) (wk_therm_now (ws 0%nat))) z ->
  steady f sf pow10 z i ws between s ->
  exists N W, forall k, (N <= k)%nat -> exists sk s' l l' new,
    sys_run f sf pow10 (rounds i ws between k) s = Ok sk /\ sys_step f sf pow10 sk (STick i (ws k)) = Ok s' /\
    nth_error (sy_loops sk) i = Some l /\ nth_error (sy_loops s') i = Some l' /\
    new_events (l_zone l) (l_zone l') new /\ Forall2 same_command (writes_in new) W.
Proof.
  intros Nd Bf Ps Su Sb Tn Iz Sz R Sn Ml Nf Fn Fs M0 Sy. assert (Bs := built_some_all _ _ _ _ Bf).
  destruct (zone_rests f sf pow10 sb config failures first devices zs bus_ok zp confs Nd Bs Ps Su Sb i st z Iz evs s R Sn ws between Nf Fn
    Tn Sz Ml Sy M0) as (N & W & H).
  exists N, W. intros k Hk.
  destruct (C80_lemma _ _ _ _ _ _ _ _ _ _ _ _ Nd Bf Ps Su Sb evs s (rounds i ws between k) R Sn
    (future_served _ _ _ _ _ _ k Fs) (future_news i ws between Fn k)) as (sk & Hr).
  assert (Rk : SpecSystem.runs f sf pow10 sb config failures first devices zs (evs ++ rounds i ws between k) sk) by (eapply runs_more; eassumption).
  assert (Sk : Forall sensible_news (evs ++ rounds i ws between k)) by (apply Forall_app; split; [exact Sn|apply future_news; exact Fn]).
  destruct (C80_lemma _ _ _ _ _ _ _ _ _ _ _ _ Nd Bf Ps Su Sb _ sk [STick i (ws k)] Rk Sk) as (s' & Hs);
    [constructor; [apply Fs|constructor]|constructor; [apply Fn|constructor]|].
  unfold sys_run in Hs. cbn [foldM] in Hs. apply bind_ok in Hs. destruct Hs as (s1 & Hs & E). injection E as ->.
  destruct (runs_zone _ _ _ _ _ _ _ _ _ _ _ _ _ _ Rk Iz) as (l & El & _).
  destruct (step_loops _ _ _ _ _ _ _ _ Hs El) as (l' & El' & Rl). cbn [proj] in Rl. rewrite Nat.eqb_refl, Hs, app_nil_r in Rl.
  unfold loop_run in Rl. cbn [foldM] in Rl. apply bind_ok in Rl. destruct Rl as (l1 & Rl & E). injection E as ->.
  assert (New : exists new, new_events (l_zone l) (l_zone l') new).
  { destruct (z_manualMode (l_zone l)) eqn:M; [|eapply tick_new_events; eassumption].
    exists []. cbn [loop_step] in Rl. unfold loop_tick in Rl. rewrite M in Rl. injection Rl as <-. reflexivity. }
  destruct New as (new & Hn). exists sk, s', l, l', new.
  split; [exact Hr|]. split; [exact Hs|]. split; [exact El|]. split; [exact El'|]. split; [exact Hn|].
  exact (H k sk s' l l' new Hk Hr Hs El El' Hn).
Qed.

Lemma C111_quiet_lemma f sf pow10 sb config failures first devices zs bus_ok zp confs i st z evs s ws between n :
  NoDup (map fst config) -> built_from bus_ok zp confs zs -> (forall id pids, In (id, pids) zp -> pids_served config pids) ->
  sensible_setup sf pow10 sb config zp confs -> Forall (fun e => sensible_begin (fst e)) zs ->
  tuningEnabled f = false -> nth_error zs i = Some (st, z) -> settling_zone z ->
  SpecSystem.runs f sf pow10 sb config failures first devices zs evs s -> Forall sensible_news evs ->
  moderate_life f sf pow10 sb config failures first devices zs i st z evs ->
  (forall k, Forall (not_for i) (between k)) ->
  (forall k, sensible_news (STick i (ws k)) /\ Forall sensible_news (between k)) ->
  (forall k, served f sb config (STick i (ws k)) /\ Forall (served f sb config) (between k)) ->
  moderate (view_env s (wk_therm_files (ws 0%nat)) (wk_therm_now (ws 0%nat))) z ->
  steady f sf pow10 z i ws between s ->
  NoDup (z_fanInputs z) ->
  (forall j st' z', j <> i -> nth_error zs j = Some (st', z') -> ~ In n (z_fanInputs z')) ->
  exists N calls, forall k, (N <= k)%nat -> exists sk,
    sys_run f sf pow10 (rounds i ws between k) s = Ok sk /\ set_calls sk n = calls.
Proof.
  intros Nd Bf Ps Su Sb Tn Iz Sz R Sn Ml Nf Fn Fs M0 Sy N1 Own. assert (Bs := built_some_all _ _ _ _ Bf).
  destruct (calls_rest f sf pow10 sb config failures first devices zs bus_ok zp confs Nd Bs Ps Su Sb i st z Iz evs s R Sn ws between Nf Fn
    Tn Sz Ml Sy M0 n N1 Own) as (N & H).
  assert (Ok_ : forall k, exists sk, sys_run f sf pow10 (rounds i ws between k) s = Ok sk).
  { intros k. exact (C80_lemma _ _ _ _ _ _ _ _ _ _ _ _ Nd Bf Ps Su Sb evs s (rounds i ws between k) R Sn
      (future_served _ _ _ _ _ _ k Fs) (future_news i ws between Fn k)). }
  destruct (Ok_ N) as (sN & HN). exists N, (set_calls sN n). intros k Hk. destruct (Ok_ k) as (sk & Hr). exists sk.
  split; [exact Hr|]. exact (H k sN sk Hk HN Hr).
Qed.

(** Wake-ups leave what polls show as it is; for the example. *)
Lemma ticks_view f sf pow10 evs : Forall is_stick evs -> forall s s', sys_run f sf pow10 evs s = Ok s' ->
  forall files now m, pe_sensor (view_env s' files now) m = pe_sensor (view_env s files now) m.
Proof.
  intros F. induction F as [|e r T F IH]; intros s s' H files now m; unfold sys_run in H; cbn [foldM] in H; [injection H as <-; reflexivity|].
  apply bind_ok in H. destruct H as (s1 & H1 & H2). rewrite (IH _ _ H2). destruct e; try contradiction T.
  assert (C := step_cores _ _ _ _ _ _ m H1). destruct (step_failures _ _ _ _ _ _ H1) as (A & B). cbn in A, B. injection A as A.
  cbn [view_env pe_sensor]. rewrite A, B. unfold cores in C.
  destruct (mget m (sy_sensors s)) as [x|]; cbn [option_map] in C.
  - destruct C as (x' & E & Q). cbn [core_after] in Q. injection Q as <-.
    destruct (mget m (sy_sensors s1)) as [y|]; [|discriminate E]. cbn in E. injection E as E.
    rewrite <- (poll_core _ _ _ _ x), <- (poll_core _ _ _ _ y), E. reflexivity.
  - destruct (mget m (sy_sensors s1)); [discriminate C|reflexivity].
Qed.
