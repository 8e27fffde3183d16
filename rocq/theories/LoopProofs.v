(** * Proofs about the control loop (C16, C20-C28, C50-C53). *)
From Coq Require Import ZArith Bool List String Lia.
From Verif Require Import Base BaseFacts Dbl DblFacts DblOrder PidModel ZoneModel LoopModel
  SpecZone ZoneFrame ZoneThermal ZoneFan ZoneProofs.
Import ListNotations.
Local Open Scope string_scope.
Local Open Scope list_scope.
Local Arguments pid_process : simpl never.
Local Arguments stepwise_process : simpl never.

(** ** C16 *)
Lemma C16_lemma f env te z z' :
  thermal_cycle f env te z = Ok z' -> tuningEnabled f = false ->
  notnan (z_maximumSetPoint z') /\
  (notnan (z_minThermalOutputSetPt z) -> dle (z_minThermalOutputSetPt z) (z_maximumSetPoint z')).
Proof.
  intros H Tn. apply cycle_requests in H. destruct H as (z2 & D & S & C & Cf & _).
  rewrite determine_split, Tn in D. injection D as <-.
  assert (N : notnan (z_maximumSetPoint z2)).
  { assert (E : z_maximumSetPoint z2 = fr_max (sp3 z2)) by reflexivity.
    rewrite E, S. apply fold_req_notnan. }
  assert (Nc := capped_notnan _ N).
  assert (Em : z_minThermalOutputSetPt z = z_minThermalOutputSetPt z2) by (use_conf Cf; reflexivity).
  rewrite Em, det_core_max. unfold dgeb.
  destruct (dleb (capped z2) (z_minThermalOutputSetPt z2)) eqn:E.
  - apply dle_notnan in E. destruct E as [_ E]. split; [exact E|]. intros _. apply dle_refl. exact E.
  - split; [exact Nc|]. intros Nm. apply dlt_dle. apply dleb_false_dlt; assumption.
Qed.

(** ** One wake-up in automatic mode *)
Record tick_facts (f : flags) (e : tick_env) (l l' : loop) (z2 : zone) (evs : list event) : Prop :=
TickFacts {
  tf_mode : mode (l_zone l') = (false, false);
  tf_conf2 : conf z2 = conf (l_zone l);
  tf_fs : z_failSafeSensors (l_zone l') = z_failSafeSensors z2;
  tf_rw : z_redundantWrite z2 = z_redundantWrite (l_zone l);
  tf_fans2 : z_fans z2 = z_fans (l_zone l);
  tf_shape : Forall2 (fun o o' => match o, o' with
      | Some c, Some c' => fan_id c' = fan_id c /\ fan_inputs c' = fan_inputs c | _, _ => False end)
      (z_fans (l_zone l)) (z_fans (l_zone l'));
  tf_trace : z_trace (l_zone l') = evs ++ z_trace (l_zone l);
  tf_writes : writes_in evs = all_fan_writes f z2;
  tf_reads : reads_in evs = z_fanInputs (l_zone l) ++
     (if (z_updateThermalsTimeMS (l_zone l) <=? l_cycleCnt l)%Z then z_thermalInputs (l_zone l) else []);
  tf_cycles : thermal_cycles_in evs =
     (if (z_updateThermalsTimeMS (l_zone l) <=? l_cycleCnt l)%Z then 1 else 0)%nat;
  tf_max : z_maximumSetPoint (l_zone l') = z_maximumSetPoint z2
}.

Lemma auto_tick_facts f e l l' z1 z2 :
  auto_tick f e l l' z1 z2 -> exists evs, tick_facts f e l l' z2 evs.
Proof.
  intros [A B C (z3 & P & Z) _ _].
  apply updateFanTelemetry_spec in B. destruct B as (C1 & M1 & S1 & K1 & _ & _ & _ & (e1 & T1 & R1 & W1 & N1)).
  set (due := (z_updateThermalsTimeMS (l_zone l) <=? l_cycleCnt l)%Z) in *.
  assert (K : conf z2 = conf z1 /\ mode z2 = mode z1 /\ z_fans z2 = z_fans z1 /\
    exists e2, z_trace z2 = e2 ++ z_trace z1 /\
      reads_in e2 = (if due then z_thermalInputs (l_zone l) else []) /\
      writes_in e2 = [] /\ thermal_cycles_in e2 = (if due then 1 else 0)%nat).
  { destruct due.
    - apply thermal_cycle_frame in C. destruct C as (C2 & M2 & F2 & _ & _ & _ & (e2 & T2 & R2 & W2 & N2)).
      split; [exact C2|]. split; [exact M2|]. split; [exact F2|]. exists e2. split; [exact T2|].
      split; [|split; [exact W2|exact N2]]. rewrite R2. use_conf C1. reflexivity.
    - subst z2. split; [reflexivity|]. split; [reflexivity|]. split; [reflexivity|]. exists []. repeat split. }
  destruct K as (C2 & M2 & F2 & (e2 & T2 & R2 & W2 & N2)).
  apply processFans_spec in P.
  destruct P as (C3 & M3 & Rw3 & S3 & _ & K3 & F3 & _ & _ & N3 & (e3 & T3 & W3 & R3 & Cy3)).
  assert (Q := quiet_log f [LComma; LBool (getFailSafeMode z3); LEndl] z3).
  destruct Q as [Qc Qm Qs Qk Qf _ _ Qt]. cbn [app] in Qt.
  assert (Ef : z_fans z1 = z_fans (l_zone l)) by (unfold ctls in K1; congruence).
  exists (e3 ++ e2 ++ e1). constructor.
  - rewrite Z. rewrite Qm. unfold mode in *. rewrite M3, Rw3. f_equal. congruence.
  - congruence.
  - rewrite Z. congruence.
  - unfold mode in *. congruence.
  - congruence.
  - rewrite <- Ef, <- F2. rewrite Z.
    assert (E : z_fans (log_tokens f [LComma; LBool (getFailSafeMode z3); LEndl] z3) = z_fans z3)
      by (unfold ctls in Qk; congruence).
    rewrite E. eapply Forall2_weaken; [|exact N3]. intros [a|] [b|]; auto.
    unfold fan_next. tauto.
  - rewrite Z, Qt, T3, T2, T1, !app_assoc. reflexivity.
  - rewrite !writes_app, W1, W2, W3. reflexivity.
  - rewrite !reads_app, R1, R2, R3. rewrite app_nil_r. reflexivity.
  - fold due. rewrite !cycles_app, N1, N2, Cy3. destruct due; reflexivity.
  - rewrite Z. unfold sps in *. congruence.
Qed.

Lemma fan_ctls_eq a b : z_fans a = z_fans b -> fan_ctls a = fan_ctls b.
Proof. unfold fan_ctls. intros ->. reflexivity. Qed.

Lemma tick_step f e l l' :
  loop_step f l (LTick e) = Ok l' -> z_manualMode (l_zone l) = false ->
  exists z1 z2 evs, auto_tick f e l l' z1 z2 /\ tick_facts f e l l' z2 evs.
Proof.
  intros H A. apply loop_tick_cases in H. destruct H as [(M & _)|(z1 & z2 & T)]; [congruence|].
  destruct (auto_tick_facts _ _ _ _ _ _ T) as (evs & F). eauto.
Qed.

Lemma new_events_unique z z' a b : new_events z z' a -> z_trace z' = b ++ z_trace z -> a = b.
Proof. unfold new_events. intros H K. rewrite H in K. eapply app_inv_tail; eauto. Qed.

(** ** C20, C21 *)
Lemma In_all_fan_writes f z n v b :
  In (n, v, b) (all_fan_writes f z) ->
  exists c, In c (fan_ctls z) /\ In n (fan_inputs c) /\
    v = ddiv (fan_percent f z (fan_output z c)) (D 100) /\ b = z_redundantWrite z.
Proof.
  unfold all_fan_writes, fan_writes. intros I. apply in_flat_map in I. destruct I as (c & Ic & I).
  apply in_map_iff in I. destruct I as (m & E & Im). injection E as <- <- <-. eauto 6.
Qed.

Lemma fs_same z z' : z_failSafeSensors z' = z_failSafeSensors z -> conf z' = conf z ->
  getFailSafeMode z' = getFailSafeMode z /\ getFailSafePercent z' = getFailSafePercent z.
Proof.
  intros H C. unfold getFailSafeMode, getFailSafePercent. rewrite H. use_conf C. auto.
Qed.

(** A sensor currently holds the zone in failsafe, in terms of polls. *)
Lemma tick_percent f z0 l e l' n v b evs :
  reachable f z0 l -> loop_step f l (LTick e) = Ok l' -> z_manualMode (l_zone l) = false ->
  new_events (l_zone l) (l_zone l') evs -> In (n, v, b) (writes_in evs) ->
  exists out, v = ddiv (fan_percent f (l_zone l') out) (D 100).
Proof.
  intros R H A Ev I. destruct (tick_step _ _ _ _ H A) as (z1 & z2 & evs' & _ & T).
  assert (evs = evs') by (eapply new_events_unique; [exact Ev|apply (tf_trace _ _ _ _ _ _ T)]). subst evs'.
  rewrite (tf_writes _ _ _ _ _ _ T) in I. apply In_all_fan_writes in I.
  destruct I as (c & _ & _ & -> & _). exists (fan_output z2 c).
  assert (R' := reachable_step _ _ _ _ _ R H).
  apply reachable_inv in R. apply reachable_inv in R'. destruct R as (Ca & _), R' as (Cb & _).
  assert (C2 := tf_conf2 _ _ _ _ _ _ T).
  destruct (fs_same z2 (l_zone l')) as (E1 & E2).
  - apply (tf_fs _ _ _ _ _ _ T).
  - congruence.
  - unfold fan_percent. rewrite E1, E2. reflexivity.
Qed.

Lemma C20_lemma f z0 l e l' evs n v b s :
  reachable f z0 l -> loop_step f l (LTick e) = Ok l' -> z_manualMode (l_zone l) = false ->
  tuningEnabled f = false -> percents_ok z0 ->
  new_events (l_zone l) (l_zone l') evs -> In (n, v, b) (writes_in evs) -> notnan v ->
  (exists x, mget s (z_failSafeSensors (l_zone l')) = Some x) ->
  dle (ddiv (own_percent z0 s) (D 100)) v.
Proof.
  intros R H A Tn P Ev I N (x & Ex).
  destruct (tick_percent _ _ _ _ _ _ _ _ _ R H A Ev I) as (out & ->).
  assert (R' := reachable_step _ _ _ _ _ R H).
  assert (M : getFailSafeMode (l_zone l') = true).
  { unfold getFailSafeMode. destruct (z_failSafeSensors (l_zone l')); [discriminate|reflexivity]. }
  destruct (C19_lemma _ _ _ R' P M) as (_ & Up). assert (U := Up _ _ Ex).
  unfold fan_percent in *. rewrite Tn, M in *.
  assert (No : notnan (own_percent z0 s)) by (apply dle_notnan in U; tauto).
  assert (Np : notnan (getFailSafePercent (l_zone l'))) by (apply dle_notnan in U; tauto).
  destruct (STRICT_FAILSAFE_PWM f).
  - apply ddiv100_mono; [exact U|apply ddiv100_notnan; exact No|exact N].
  - destruct (dltb out (getFailSafePercent (l_zone l'))) eqn:E.
    + apply ddiv100_mono; [exact U|apply ddiv100_notnan; exact No|exact N].
    + assert (Nout : notnan out).
      { destruct (nan_dec out) as [Q|Q]; [exact Q|]. exfalso. destruct out; try discriminate Q. discriminate N. }
      assert (L : dle (getFailSafePercent (l_zone l')) out) by (apply dltb_false_dle; assumption).
      apply ddiv100_mono; [eapply dle_trans; eauto|apply ddiv100_notnan; exact No|exact N].
Qed.

Lemma C21_lemma f z0 l e l' evs n v b :
  reachable f z0 l -> loop_step f l (LTick e) = Ok l' -> z_manualMode (l_zone l) = false ->
  tuningEnabled f = false -> STRICT_FAILSAFE_PWM f = true ->
  new_events (l_zone l) (l_zone l') evs -> In (n, v, b) (writes_in evs) ->
  getFailSafeMode (l_zone l') = true ->
  v = ddiv (getFailSafePercent (l_zone l')) (D 100).
Proof.
  intros R H A Tn St Ev I M.
  destruct (tick_percent _ _ _ _ _ _ _ _ _ R H A Ev I) as (out & ->).
  unfold fan_percent. rewrite Tn, M, St. reflexivity.
Qed.

(** ** C22 *)
Lemma C22_lemma f w z z' evs :
  processFans f w z = Ok z' -> new_events z z' evs ->
  getFailSafeMode z = false \/ tuningEnabled f = true ->
  writes_in evs =
  flat_map (fun c => map (fun n => (n, ddiv (fan_output z c) (D 100), z_redundantWrite z)) (fan_inputs c))
    (fan_ctls z).
Proof.
  intros H Ev Q. apply processFans_spec in H.
  destruct H as (_ & _ & _ & _ & _ & _ & _ & _ & _ & _ & (e3 & T & W & _)).
  assert (evs = e3) by (eapply new_events_unique; eauto). subst e3. rewrite W.
  unfold all_fan_writes, fan_writes. apply flat_map_ext. intros c.
  assert (E : fan_percent f z (fan_output z c) = fan_output z c).
  { unfold fan_percent. destruct Q as [-> | ->]; [destruct (tuningEnabled f)|]; reflexivity. }
  rewrite E. reflexivity.
Qed.

Lemma C22_tick_lemma f e l l' evs :
  loop_step f l (LTick e) = Ok l' -> z_manualMode (l_zone l) = false ->
  new_events (l_zone l) (l_zone l') evs ->
  exists value : FanController -> dbl,
    writes_in evs =
    flat_map (fun c => map (fun n => (n, value c, z_redundantWrite (l_zone l))) (fan_inputs c))
      (fan_ctls (l_zone l)).
Proof.
  intros H A Ev. destruct (tick_step _ _ _ _ H A) as (z1 & z2 & evs' & _ & T).
  assert (evs = evs') by (eapply new_events_unique; [exact Ev|apply (tf_trace _ _ _ _ _ _ T)]). subst evs'.
  exists (fun c => ddiv (fan_percent f z2 (fan_output z2 c)) (D 100)).
  rewrite (tf_writes _ _ _ _ _ _ T). unfold all_fan_writes, fan_writes.
  rewrite (fan_ctls_eq _ _ (tf_fans2 _ _ _ _ _ _ T)), (tf_rw _ _ _ _ _ _ T). reflexivity.
Qed.

(** ** C25, C26 *)
Lemma loop_step_mode f ev l l' :
  loop_step f l ev = Ok l' ->
  mode (l_zone l') =
  match ev with
  | LTick _ => (z_manualMode (l_zone l), if z_manualMode (l_zone l) then z_redundantWrite (l_zone l) else false)
  | LManual b => (b, if b then z_redundantWrite (l_zone l) else true)
  | LEnable _ _ => mode (l_zone l)
  end.
Proof.
  destruct ev as [e|b|m b]; simpl; intros H.
  - destruct (z_manualMode (l_zone l)) eqn:A.
    + unfold loop_tick in H. rewrite A in H. injection H as <-. unfold mode. simpl. rewrite A. reflexivity.
    + destruct (tick_step _ _ _ _ H A) as (z1 & z2 & evs & _ & T). apply (tf_mode _ _ _ _ _ _ T).
  - injection H as <-. destruct b; reflexivity.
  - injection H as <-. simpl. unfold setProcessEnabled.
    destruct (mget m (z_pidsControlProcess (l_zone l))); reflexivity.
Qed.

Lemma loop_run_mode f evs : forall l l' m p,
  loop_run f evs l = Ok l' -> mode (l_zone l) = (m, p) ->
  mode (l_zone l') = (manual_after m evs, rewrite_pending m p evs).
Proof.
  unfold loop_run. induction evs as [|ev r IH]; intros l l' m p H E; simpl in H.
  - injection H as <-. exact E.
  - apply bind_ok in H. destruct H as (l1 & H1 & H2).
    assert (K := loop_step_mode _ _ _ _ H1). unfold mode in E. injection E as E1 E2.
    destruct ev as [e|b|n b]; simpl; (eapply IH; [exact H2|]); rewrite K.
    + rewrite E1, E2. reflexivity.
    + rewrite E2. reflexivity.
    + unfold mode. rewrite E1, E2. reflexivity.
Qed.

Lemma loop_run_app f a b l : loop_run f (a ++ b) l = bind (loop_run f a l) (loop_run f b).
Proof. apply foldM_app. Qed.

(** Manual mode: the trace does not grow. *)
Lemma manual_trace f evs : forall l l',
  loop_run f evs l = Ok l' -> z_manualMode (l_zone l) = true -> ~ In (LManual false) evs ->
  z_trace (l_zone l') = z_trace (l_zone l) /\ z_manualMode (l_zone l') = true.
Proof.
  unfold loop_run. induction evs as [|ev r IH]; intros l l' H A N; simpl in H.
  - injection H as <-. auto.
  - apply bind_ok in H. destruct H as (l1 & H1 & H2).
    assert (K : z_trace (l_zone l1) = z_trace (l_zone l) /\ z_manualMode (l_zone l1) = true).
    { destruct ev as [e|b|n b]; simpl in H1.
      - unfold loop_tick in H1. rewrite A in H1. injection H1 as <-. auto.
      - injection H1 as <-. destruct b; [auto|]. exfalso. apply N. left. reflexivity.
      - injection H1 as <-. simpl. unfold setProcessEnabled.
        destruct (mget n (z_pidsControlProcess (l_zone l))); auto. }
    destruct K as (K1 & K2). destruct (IH _ _ H2 K2) as (K3 & K4).
    + intros I. apply N. right. exact I.
    + split; congruence.
Qed.

Lemma start_mode f env te now z0 l0 :
  fresh z0 -> loop_start f env te now z0 = Ok l0 -> mode (l_zone l0) = (false, false).
Proof.
  intros (_ & _ & _ & A & B) H. apply loop_start_frame in H. destruct H as (_ & M & _).
  rewrite M. unfold mode. congruence.
Qed.

Lemma C26_lemma f env te now z0 l0 evs l e l' new n v b :
  fresh z0 -> loop_start f env te now z0 = Ok l0 -> loop_run f evs l0 = Ok l ->
  loop_step f l (LTick e) = Ok l' -> new_events (l_zone l) (l_zone l') new ->
  In (n, v, b) (writes_in new) -> b = rewrite_pending false false evs.
Proof.
  intros Fr H0 H1 H2 Ev I. assert (M0 := start_mode _ _ _ _ _ _ Fr H0).
  assert (M := loop_run_mode _ _ _ _ _ _ H1 M0). unfold mode in M. injection M as M1 M2.
  destruct (z_manualMode (l_zone l)) eqn:A.
  - simpl in H2. unfold loop_tick in H2. rewrite A in H2. injection H2 as <-. simpl in Ev.
    assert (new = []) by (eapply new_events_unique; [exact Ev|reflexivity]). subst new. destruct I.
  - destruct (tick_step _ _ _ _ H2 A) as (z1 & z2 & evs' & _ & T).
    assert (new = evs') by (eapply new_events_unique; [exact Ev|apply (tf_trace _ _ _ _ _ _ T)]). subst evs'.
    rewrite (tf_writes _ _ _ _ _ _ T) in I. apply In_all_fan_writes in I.
    destruct I as (c & _ & _ & _ & ->). rewrite (tf_rw _ _ _ _ _ _ T). exact M2.
Qed.

(** ** C27, C28 *)
Lemma step_counts f ev l l' :
  loop_step f l ev = Ok l' ->
  let F := z_cycleIntervalTimeMS (l_zone l) in
  let T := z_updateThermalsTimeMS (l_zone l) in
  exists evs, z_trace (l_zone l') = evs ++ z_trace (l_zone l) /\
  match ev with
  | LTick _ =>
      l_expiry l' = (l_expiry l + F * 1000000)%Z /\
      if z_manualMode (l_zone l)
      then l_cycleCnt l' = l_cycleCnt l /\ thermal_cycles_in evs = 0%nat
      else l_cycleCnt l' = (((if T <=? l_cycleCnt l then l_cycleCnt l - T else l_cycleCnt l) + F) mod uint64_mod)%Z
           /\ thermal_cycles_in evs = (if (T <=? l_cycleCnt l)%Z then 1 else 0)%nat
  | _ => l_expiry l' = l_expiry l /\ l_cycleCnt l' = l_cycleCnt l /\ thermal_cycles_in evs = 0%nat
  end.
Proof.
  intros H. cbv zeta. destruct ev as [e|b|m b].
  - assert (H' := H). apply loop_tick_cases in H'. destruct H' as [(M & ->)|(z1 & z2 & A)].
    + exists []. rewrite M. simpl. auto.
    + destruct (auto_tick_facts _ _ _ _ _ _ A) as (evs & T). exists evs.
      split; [apply (tf_trace _ _ _ _ _ _ T)|]. destruct A as [A0 _ _ _ A1 A2].
      rewrite A0. split; [exact A2|]. split; [exact A1|apply (tf_cycles _ _ _ _ _ _ T)].
  - injection H as <-. exists []. destruct b; simpl; auto.
  - injection H as <-. exists []. simpl. unfold setProcessEnabled.
    destruct (mget m (z_pidsControlProcess (l_zone l))); simpl; auto.
Qed.

Lemma count_mode f ev l l' : loop_step f l ev = Ok l' ->
  z_manualMode (l_zone l') = manual_after (z_manualMode (l_zone l)) [ev].
Proof.
  intros H. apply loop_step_mode in H. unfold mode in H. destruct ev; simpl; congruence.
Qed.

Lemma auto_ticks_app m a b : auto_ticks m (a ++ b) = (auto_ticks m a + auto_ticks (manual_after m a) b)%nat.
Proof.
  revert m. induction a as [|[e|v|n v] r IH]; intros m; simpl; [reflexivity| | |].
  - rewrite IH. lia.
  - apply IH.
  - apply IH.
Qed.
Lemma manual_after_app m a b : manual_after m (a ++ b) = manual_after (manual_after m a) b.
Proof. revert m. induction a as [|[e|v|n v] r IH]; intros m; simpl; auto. Qed.
Lemma ticks_app a b : ticks (a ++ b) = (ticks a + ticks b)%nat.
Proof. unfold ticks. rewrite filter_app, app_length. reflexivity. Qed.

Lemma cycles_inv f F T env te now z0 l0 evs : forall l,
  fresh z0 -> loop_start f env te now z0 = Ok l0 ->
  z_cycleIntervalTimeMS z0 = F -> z_updateThermalsTimeMS z0 = T ->
  (1 <= F <= T)%Z -> (T + F < uint64_mod)%Z ->
  loop_run f evs l0 = Ok l ->
  Z.of_nat (thermal_cycles_in (z_trace (l_zone l))) = (1 + cycles_after F T (auto_ticks false evs))%Z /\
  l_cycleCnt l = (Z.of_nat (auto_ticks false evs) * F - T * cycles_after F T (auto_ticks false evs))%Z.
Proof.
  intros l Fr H0 HF HT B Wr. revert l.
  assert (S0 := loop_start_frame _ _ _ _ _ _ H0).
  destruct S0 as (C0 & _ & _ & _ & _ & K0 & _ & (e0 & T0 & _ & _ & N0)).
  assert (M0 := start_mode _ _ _ _ _ _ Fr H0).
  destruct Fr as (_ & Tr & _). rewrite Tr, app_nil_r in T0.
  induction evs as [|ev r IH] using rev_ind; intros l H.
  - injection H as <-. simpl. rewrite T0, N0, K0. split; simpl; lia.
  - rewrite loop_run_app in H. apply bind_ok in H. destruct H as (l1 & H1 & H2).
    destruct (IH _ H1) as (A & D). simpl in H2. apply bind_ok in H2. destruct H2 as (l2 & H2 & H3).
    injection H3 as <-.
    assert (M1 := loop_run_mode _ _ _ _ _ _ H1 M0). unfold mode in M1. injection M1 as M1 _.
    assert (Cf := loop_run_conf _ _ _ _ H1). destruct Cf as (Cf & _).
    assert (Cz : conf (l_zone l1) = conf z0) by congruence.
    assert (EF : z_cycleIntervalTimeMS (l_zone l1) = F) by (use_conf Cz; exact HF).
    assert (ET : z_updateThermalsTimeMS (l_zone l1) = T) by (use_conf Cz; exact HT).
    destruct (step_counts _ _ _ _ H2) as (e & Te & Q). rewrite EF, ET in Q.
    rewrite Te, cycles_app, auto_ticks_app.
    destruct ev as [t|b|n b]; simpl auto_ticks.
    + destruct Q as (_ & Q). rewrite M1 in Q. destruct (manual_after false r).
      * destruct Q as (Q1 & Q2). rewrite Q2, Q1. rewrite Nat.add_0_r. auto.
      * destruct Q as (Q1 & Q2). rewrite Q1, Q2. rewrite D in *. clear Q1 Q2.
        set (n := auto_ticks false r) in *. replace (n + (1 + 0))%nat with (S n) by lia.
        assert (X : cycles_after F T (S n) =
          (cycles_after F T n + (if (T <=? Z.of_nat n * F - T * cycles_after F T n) then 1 else 0))%Z
          /\ (0 <= Z.of_nat n * F - T * cycles_after F T n < T + F)%Z).
        { destruct n as [|k]; unfold cycles_after.
          - change (Z.of_nat 0) with 0%Z. rewrite Z.mul_0_r, Z.mul_0_l, Z.div_0_l, Z.sub_0_r by lia.
            destruct (Z.leb_spec T 0); lia.
          - set (q := (Z.of_nat k * F / T)%Z).
            assert (Q := Z.div_mod (Z.of_nat k * F) T). fold q in Q.
            assert (R := Z.mod_pos_bound (Z.of_nat k * F) T).
            set (m := (Z.of_nat k * F mod T)%Z) in *.
            assert (E : (Z.of_nat (S k) * F = T * q + m + F)%Z) by lia.
            rewrite E. split; [|lia]. destruct (Z.leb_spec T (T * q + m + F - T * q)).
            + symmetry. apply Z.div_unique with (r := (m + F - T)%Z); lia.
            + symmetry. apply Z.div_unique with (r := (m + F)%Z); lia. }
        destruct X as (X1 & X2). rewrite X1. destruct (Z.leb_spec T (Z.of_nat n * F - T * cycles_after F T n)).
        -- rewrite Z.mod_small by lia. split; lia.
        -- rewrite Z.mod_small by lia. split; lia.
    + destruct Q as (_ & Q1 & Q2). rewrite Q1, Q2, Nat.add_0_r. auto.
    + destruct Q as (_ & Q1 & Q2). rewrite Q1, Q2, Nat.add_0_r. auto.
Qed.

(** Thermal interval shorter than the fan interval: one cycle per wake-up from
    the second one on. *)
Lemma cycles_inv_short f F T env te now z0 l0 evs : forall l,
  fresh z0 -> loop_start f env te now z0 = Ok l0 ->
  z_cycleIntervalTimeMS z0 = F -> z_updateThermalsTimeMS z0 = T ->
  (1 <= T <= F)%Z -> (Z.of_nat (auto_ticks false evs) * F < uint64_mod)%Z ->
  loop_run f evs l0 = Ok l ->
  let n := auto_ticks false evs in
  thermal_cycles_in (z_trace (l_zone l)) = (1 + (n - 1))%nat /\
  l_cycleCnt l = (Z.of_nat n * F - T * Z.of_nat (n - 1))%Z.
Proof.
  intros l Fr H0 HF HT B. cbv zeta. revert l.
  assert (S0 := loop_start_frame _ _ _ _ _ _ H0).
  destruct S0 as (C0 & _ & _ & _ & _ & K0 & _ & (e0 & T0 & _ & _ & N0)).
  assert (M0 := start_mode _ _ _ _ _ _ Fr H0).
  destruct Fr as (_ & Tr & _). rewrite Tr, app_nil_r in T0.
  induction evs as [|ev r IH] using rev_ind; intros l Wr H.
  - injection H as <-. simpl. rewrite T0, N0, K0. split; simpl; lia.
  - rewrite loop_run_app in H. apply bind_ok in H. destruct H as (l1 & H1 & H2).
    rewrite auto_ticks_app in *.
    set (n := auto_ticks false r) in *. set (k := auto_ticks (manual_after false r) [ev]) in *.
    assert (W1 : (Z.of_nat n * F < uint64_mod)%Z).
    { eapply Z.le_lt_trans; [|exact Wr]. apply Z.mul_le_mono_nonneg_r; lia. }
    destruct (IH _ W1 H1) as (A & D). simpl in H2. apply bind_ok in H2. destruct H2 as (l2 & H2 & H3).
    injection H3 as <-.
    assert (M1 := loop_run_mode _ _ _ _ _ _ H1 M0). unfold mode in M1. injection M1 as M1 _.
    assert (Cf := loop_run_conf _ _ _ _ H1). destruct Cf as (Cf & _).
    assert (Cz : conf (l_zone l1) = conf z0) by congruence.
    assert (EF : z_cycleIntervalTimeMS (l_zone l1) = F) by (use_conf Cz; exact HF).
    assert (ET : z_updateThermalsTimeMS (l_zone l1) = T) by (use_conf Cz; exact HT).
    destruct (step_counts _ _ _ _ H2) as (e & Te & Q). rewrite EF, ET in Q.
    rewrite Te, cycles_app.
    destruct ev as [t|b|m b]; simpl in k.
    + destruct Q as (_ & Q). rewrite M1 in Q. destruct (manual_after false r).
      * destruct Q as (Q1 & Q2). rewrite Q2, Q1. subst k. rewrite Nat.add_0_r. auto.
      * destruct Q as (Q1 & Q2). rewrite Q1, Q2. rewrite D in *. subst k.
        replace (n + (1 + 0))%nat with (S n) in * by lia.
        destruct n as [|j].
        -- change (0 - 1)%nat with 0%nat in *. change (1 - 1)%nat with 0%nat.
           change (Z.of_nat 0) with 0%Z in *. change (Z.of_nat 1) with 1%Z in *.
           rewrite !Z.mul_0_r, !Z.mul_0_l, Z.sub_0_r in *.
           destruct (Z.leb_spec T 0); [lia|].
           rewrite Z.mod_small by lia. split; lia.
        -- replace (S j - 1)%nat with j in * by lia. replace (S (S j) - 1)%nat with (S j) by lia.
           destruct (Z.leb_spec T (Z.of_nat (S j) * F - T * Z.of_nat j)); [|nia].
           rewrite Z.mod_small by nia. split; [lia|nia].
    + destruct Q as (_ & Q1 & Q2). rewrite Q1, Q2. subst k. rewrite Nat.add_0_r. auto.
    + destruct Q as (_ & Q1 & Q2). rewrite Q1, Q2. subst k. rewrite Nat.add_0_r. auto.
Qed.

Lemma C28_lemma f env te now z0 l0 evs : forall l,
  loop_start f env te now z0 = Ok l0 -> loop_run f evs l0 = Ok l ->
  l_expiry l = (now + (1 + Z.of_nat (ticks evs)) * (z_cycleIntervalTimeMS z0 * 1000000))%Z.
Proof.
  intros l H0. revert l.
  assert (S0 := loop_start_frame _ _ _ _ _ _ H0). destruct S0 as (C0 & _ & _ & _ & _ & _ & X0 & _).
  induction evs as [|ev r IH] using rev_ind; intros l H.
  - injection H as <-. rewrite X0. unfold ms_to_ns. change (Z.of_nat (ticks [])) with 0%Z. lia.
  - rewrite loop_run_app in H. apply bind_ok in H. destruct H as (l1 & H1 & H2).
    assert (A := IH _ H1). simpl in H2. apply bind_ok in H2. destruct H2 as (l2 & H2 & H3). injection H3 as <-.
    assert (Cf := loop_run_conf _ _ _ _ H1). destruct Cf as (Cf & _).
    assert (Cz : conf (l_zone l1) = conf z0) by congruence.
    assert (EF : z_cycleIntervalTimeMS (l_zone l1) = z_cycleIntervalTimeMS z0) by (use_conf Cz; reflexivity).
    destruct (step_counts _ _ _ _ H2) as (e & Te & Q). rewrite EF in Q.
    rewrite ticks_app. destruct ev; simpl ticks; destruct Q as (Q & _); rewrite Q, A.
    + rewrite Nat2Z.inj_add. change (Z.of_nat (ticks [LTick e0])) with 1%Z. lia.
    + rewrite Nat2Z.inj_add. change (Z.of_nat (ticks [LManual mode])) with 0%Z. lia.
    + rewrite Nat2Z.inj_add. change (Z.of_nat (ticks [LEnable pid b])) with 0%Z. lia.
Qed.

(** ** C50 *)
Lemma C50_lemma f w c z z' evs :
  fan_destroy f w c z = Ok z' -> new_events z z' evs ->
  writes_in evs =
  if OFFLINE_FAILSAFE_PWM f
  then map (fun n => (n, ddiv (getFailSafePercent z) (D 100), z_redundantWrite z)) (fan_inputs c)
  else [].
Proof.
  unfold fan_destroy. intros H Ev. destruct (OFFLINE_FAILSAFE_PWM f); simpl in H.
  - apply write_fans_spec in H. destruct H as (_ & e & T & W & _).
    assert (evs = e) by (eapply new_events_unique; eauto). subst e. exact W.
  - injection H as <-. assert (evs = []) by (eapply new_events_unique; [exact Ev|reflexivity]).
    subst evs. reflexivity.
Qed.

(** ** C52 *)
Lemma update_nth_spec {A : Type} (g : A -> outcome A) : forall i l l',
  update_nth i g l = Ok l' ->
  List.length l' = List.length l /\
  (forall j, j <> i -> nth_error l' j = nth_error l j) /\
  (forall x, nth_error l i = Some x -> exists y, nth_error l' i = Some y /\ g x = Ok y).
Proof.
  intros i l. revert i. induction l as [|x r IH]; intros i l' H; simpl in H.
  - assert (l' = []) by (destruct i; injection H as <-; reflexivity). subst l'.
    split; [reflexivity|]. split; [reflexivity|]. intros y E. destruct i; discriminate.
  - destruct i as [|i].
    + apply bind_ok in H. destruct H as (y & Hy & H). injection H as <-.
      split; [reflexivity|]. split.
      * intros [|j] N; [congruence|reflexivity].
      * intros z E. simpl in *. injection E as <-. eauto.
    + apply bind_ok in H. destruct H as (r' & Hr & H). injection H as <-.
      apply IH in Hr. destruct Hr as (A1 & B & C). split; [simpl; congruence|]. split.
      * intros [|j] N; [reflexivity|]. simpl. apply B. congruence.
      * intros z E. simpl in *. apply C. exact E.
Qed.

Lemma C52_lemma f evs : forall ls ls' i l,
  system_run f evs ls = Ok ls' -> nth_error ls i = Some l ->
  exists l', nth_error ls' i = Some l' /\ loop_run f (zone_events i evs) l = Ok l'.
Proof.
  unfold system_run. induction evs as [|[j ev] r IH]; intros ls ls' i l H E; simpl in H.
  - injection H as <-. exists l. split; [exact E|reflexivity].
  - apply bind_ok in H. destruct H as (l1 & H1 & H2). unfold system_step in H1. simpl in H1.
    apply update_nth_spec in H1. destruct H1 as (_ & A & B).
    unfold zone_events. simpl. destruct (Nat.eqb_spec j i) as [->|N].
    + destruct (B _ E) as (y & Ey & Hy). destruct (IH _ _ _ _ H2 Ey) as (l' & El & Hl).
      exists l'. split; [exact El|]. simpl. unfold loop_run in *. simpl. rewrite Hy. exact Hl.
    + rewrite <- (A i) in E by congruence. exact (IH _ _ _ _ H2 E).
Qed.

(** ** C53 *)
Lemma C53_lemma f e l l' evs :
  loop_step f l (LTick e) = Ok l' -> z_manualMode (l_zone l) = false ->
  new_events (l_zone l) (l_zone l') evs ->
  reads_in evs = (z_fanInputs (l_zone l) ++
    (if Nat.eqb (thermal_cycles_in evs) 0 then [] else z_thermalInputs (l_zone l)))%list.
Proof.
  intros H A Ev. destruct (tick_step _ _ _ _ H A) as (z1 & z2 & evs' & _ & T).
  assert (evs = evs') by (eapply new_events_unique; [exact Ev|apply (tf_trace _ _ _ _ _ _ T)]). subst evs'.
  rewrite (tf_reads _ _ _ _ _ _ T), (tf_cycles _ _ _ _ _ _ T).
  destruct (z_updateThermalsTimeMS (l_zone l) <=? l_cycleCnt l)%Z; reflexivity.
Qed.
