(** * Polls seen by a wake-up, reaction time, requester name, CSV log
    (C17, C51, C54, C55). *)
From Coq Require Import ZArith Bool List String Lia.
From Verif Require Import Base BaseFacts Dbl DblFacts DblOrder PidModel ZoneModel LoopModel
  SpecZone ZoneFrame ZoneThermal ZoneFan ZoneProofs LoopProofs.
Import ListNotations.
Local Open Scope string_scope.
Local Open Scope list_scope.
Local Arguments pid_process : simpl never.
Local Arguments stepwise_process : simpl never.

(** ** Last poll *)
Lemma polls_last f b env l z z' s :
  processSensorInputs f b env l z = Ok z' ->
  last_poll s (z_trace z') =
  if smem s l then option_map (fun v => (pe_now env, v)) (pe_sensor env s) else last_poll s (z_trace z).
Proof.
  unfold processSensorInputs. revert z. induction l as [|x r IH]; intros z H; simpl in H.
  - injection H as <-. reflexivity.
  - apply bind_ok in H. destruct H as (z1 & H1 & H2).
    apply poll_one in H1. destruct H1 as (v & Ev & [_ _ _ _ _ _ _ (evs & P & T)]).
    rewrite (IH _ H2). simpl. rewrite T, plain_last_poll by exact P. simpl.
    destruct (String.eqb_spec s x) as [<-|N]; [|reflexivity].
    rewrite Ev. destruct (smem s r); reflexivity.
Qed.

Lemma reads_last n evs tr : reads_in evs = [] -> last_poll n (evs ++ tr) = last_poll n tr.
Proof.
  intros Hr. apply writes_last_poll. intros e Ie. destruct e; auto.
  assert (In sensor (reads_in evs)); [|rewrite Hr in H; exact H].
  unfold reads_in. apply in_flat_map. eexists. split; [apply in_rev; rewrite rev_involutive; exact Ie|].
  simpl. auto.
Qed.

Lemma thermal_cycle_last f env te z z' s :
  thermal_cycle f env te z = Ok z' ->
  last_poll s (z_trace z') =
  if smem s (z_thermalInputs z) then option_map (fun v => (pe_now env, v)) (pe_sensor env s)
  else last_poll s (z_trace z).
Proof.
  intros H. apply thermal_cycle_split in H.
  destruct H as (z1 & z2 & H1 & F & _ & _ & _ & H4).
  unfold updateSensors in H1. apply (polls_last _ _ _ _ _ _ s) in H1. simpl in H1.
  apply determine_frame in H4. destruct H4 as ((e2 & P2 & T2) & _).
  destruct F as [_ _ _ _ _ Ft _ _ _ _ _]. simpl in Ft.
  rewrite T2, plain_last_poll by exact P2. rewrite Ft. exact H1.
Qed.

Lemma updateFan_last f env z z' s :
  updateFanTelemetry f env z = Ok z' ->
  last_poll s (z_trace z') =
  if smem s (z_fanInputs z) then option_map (fun v => (pe_now env, v)) (pe_sensor env s)
  else last_poll s (z_trace z).
Proof.
  unfold updateFanTelemetry. intros H.
  match type of H with context [processSensorInputs f true env _ (log_tokens f ?ts z)] =>
    set (z0 := log_tokens f ts z) in *;
    assert (Q0 : quiet_step z z0 []) by apply quiet_log end.
  apply bind_ok in H. destruct H as (z1 & H1 & H). injection H as <-.
  match goal with |- context [z_trace (log_tokens f ?ts z1)] =>
    set (z2 := log_tokens f ts z1) in *;
    assert (Q2 : quiet_step z1 z2 []) by apply quiet_log end.
  rewrite (qs_tr _ _ _ Q2). simpl. rewrite (polls_last _ _ _ _ _ _ s H1).
  rewrite (qs_tr _ _ _ Q0). simpl.
  assert (C := qs_conf _ _ _ Q0). use_conf C. reflexivity.
Qed.

Lemma tick_last f e l l' z1 z2 s :
  auto_tick f e l l' z1 z2 ->
  last_poll s (z_trace (l_zone l')) =
  if ((z_updateThermalsTimeMS (l_zone l) <=? l_cycleCnt l)%Z && smem s (z_thermalInputs (l_zone l)))%bool
  then option_map (fun v => (pe_now (tk_therm e), v)) (pe_sensor (tk_therm e) s)
  else if smem s (z_fanInputs (l_zone l))
  then option_map (fun v => (pe_now (tk_fan e), v)) (pe_sensor (tk_fan e) s)
  else last_poll s (z_trace (l_zone l)).
Proof.
  intros [A B C (z3 & P & Z) _ _].
  assert (C1 := updateFanTelemetry_spec _ _ _ _ B). destruct C1 as (C1 & _).
  apply (updateFan_last _ _ _ _ s) in B.
  apply processFans_spec in P.
  destruct P as (_ & _ & _ & _ & _ & _ & _ & _ & _ & _ & (e3 & T3 & _ & R3 & _)).
  assert (Q := quiet_log f [LComma; LBool (getFailSafeMode z3); LEndl] z3).
  rewrite Z, (qs_tr _ _ _ Q). simpl. rewrite T3, reads_last by exact R3.
  destruct (z_updateThermalsTimeMS (l_zone l) <=? l_cycleCnt l)%Z; simpl.
  - rewrite (thermal_cycle_last _ _ _ _ _ s C), B. use_conf C1. reflexivity.
  - subst z2. exact B.
Qed.

(** Polled sensors exist. *)
Lemma tick_sensors f e l l' z1 z2 :
  auto_tick f e l l' z1 z2 ->
  (forall n, In n (z_fanInputs (l_zone l)) -> exists v, pe_sensor (tk_fan e) n = Some v) /\
  ((z_updateThermalsTimeMS (l_zone l) <= l_cycleCnt l)%Z ->
   forall n, In n (z_thermalInputs (l_zone l)) -> exists v, pe_sensor (tk_therm e) n = Some v).
Proof.
  intros [A B C _ _ _]. assert (B' := B). unfold updateFanTelemetry in B'.
  apply bind_ok in B'. destruct B' as (y & B' & _).
  assert (Q0 := quiet_log f [LStamp; LComma; LNum (z_maximumSetPoint (l_zone l)); LComma;
                         LText (z_maximumSetPointName (l_zone l))] (l_zone l)).
  assert (E : z_fanInputs (log_tokens f [LStamp; LComma; LNum (z_maximumSetPoint (l_zone l)); LComma;
                         LText (z_maximumSetPointName (l_zone l))] (l_zone l)) = z_fanInputs (l_zone l)).
  { assert (Q := qs_conf _ _ _ Q0). use_conf Q. reflexivity. }
  rewrite E in B'. split.
  - intros n I. exact (polls_sensors _ _ _ _ _ _ B' n I).
  - intros D n I. apply Z.leb_le in D. rewrite D in C.
    apply thermal_cycle_split in C. destruct C as (y1 & y2 & C & _). unfold updateSensors in C.
    apply (polls_sensors _ _ _ _ _ _ C n). simpl.
    apply updateFanTelemetry_spec in B. destruct B as (C1 & _). use_conf C1. exact I.
Qed.

(** ** C17: what the latest wake-up means for one sensor *)
Lemma C17_fan_lemma f z0 l e l' n v :
  reachable f z0 l -> loop_step f l (LTick e) = Ok l' -> z_manualMode (l_zone l) = false ->
  In n (z_fanInputs z0) -> ~ In n (z_thermalInputs z0) -> ~ acceptable z0 n ->
  pe_sensor (tk_fan e) n = Some v ->
  ((exists x, mget n (z_failSafeSensors (l_zone l')) = Some x) <->
   sv_failed v = true \/ timed_out (pe_now (tk_fan e)) v = true).
Proof.
  intros R H A I N Ac Ev. assert (R' := reachable_step _ _ _ _ _ R H).
  destruct (tick_step _ _ _ _ H A) as (z1 & z2 & evs & T & _).
  rewrite (fs_member _ _ _ _ R'), (tick_last _ _ _ _ _ _ n T).
  apply reachable_inv in R. destruct R as (C & _).
  assert (E1 : smem n (z_thermalInputs (l_zone l)) = false) by (use_conf C; apply smem_false; exact N).
  assert (E2 : smem n (z_fanInputs (l_zone l)) = true) by (use_conf C; apply smem_In; exact I).
  rewrite E1, E2, andb_false_r, Ev. simpl.
  destruct (sv_failed v); [|destruct (timed_out _ v)]; (split; [|intros K]);
    try (intros (_ & _ & K); exfalso; apply K; reflexivity); auto;
    try (split; [left; exact I|split; [exact Ac|discriminate]]).
  destruct K; discriminate.
Qed.

Lemma C17_thermal_lemma f z0 l e l' n v evs :
  reachable f z0 l -> loop_step f l (LTick e) = Ok l' -> z_manualMode (l_zone l) = false ->
  new_events (l_zone l) (l_zone l') evs -> thermal_cycles_in evs <> 0%nat ->
  In n (z_thermalInputs z0) -> ~ acceptable z0 n ->
  pe_sensor (tk_therm e) n = Some v ->
  ((exists x, mget n (z_failSafeSensors (l_zone l')) = Some x) <->
   sv_failed v = true \/ timed_out (pe_now (tk_therm e)) v = true).
Proof.
  intros R H A Nw Cy I Ac Ev. assert (R' := reachable_step _ _ _ _ _ R H).
  destruct (tick_step _ _ _ _ H A) as (z1 & z2 & evs' & T & TF).
  assert (evs = evs') by (eapply new_events_unique; [exact Nw|apply (tf_trace _ _ _ _ _ _ TF)]). subst evs'.
  rewrite (fs_member _ _ _ _ R'), (tick_last _ _ _ _ _ _ n T).
  rewrite (tf_cycles _ _ _ _ _ _ TF) in Cy.
  apply reachable_inv in R. destruct R as (C & _).
  assert (E1 : smem n (z_thermalInputs (l_zone l)) = true) by (use_conf C; apply smem_In; exact I).
  destruct (z_updateThermalsTimeMS (l_zone l) <=? l_cycleCnt l)%Z; [|congruence].
  rewrite E1, Ev. simpl.
  destruct (sv_failed v); [|destruct (timed_out _ v)]; (split; [|intros K]);
    try (intros (_ & _ & K); exfalso; apply K; reflexivity); auto;
    try (split; [right; exact I|split; [exact Ac|discriminate]]).
  destruct K; discriminate.
Qed.

(** ** C51 *)
Definition polled_bad (s : string) (tr : list event) : Prop :=
  exists now v, last_poll s tr = Some (now, v) /\ bad_reason (Some (now, v)) <> None.

Lemma tick_bad f e l l' z1 z2 s :
  auto_tick f e l l' z1 z2 -> shows_bad e s ->
  polled_bad s (z_trace (l_zone l)) \/ In s (z_fanInputs (l_zone l)) \/
    ((z_updateThermalsTimeMS (l_zone l) <= l_cycleCnt l)%Z /\ In s (z_thermalInputs (l_zone l))) ->
  polled_bad s (z_trace (l_zone l')).
Proof.
  intros T (Bf & Bt) K. unfold polled_bad. rewrite (tick_last _ _ _ _ _ _ s T).
  destruct (tick_sensors _ _ _ _ _ _ T) as (Sf & St).
  destruct ((z_updateThermalsTimeMS (l_zone l) <=? l_cycleCnt l)%Z &&
            smem s (z_thermalInputs (l_zone l)))%bool eqn:D.
  - apply andb_true_iff in D. destruct D as (D1 & D2). apply Z.leb_le in D1. apply smem_In in D2.
    destruct (St D1 _ D2) as (v & Ev). rewrite Ev. eexists _, _. split; [reflexivity|]. apply Bt. exact Ev.
  - destruct (smem s (z_fanInputs (l_zone l))) eqn:D2.
    + apply smem_In in D2. destruct (Sf _ D2) as (v & Ev). rewrite Ev.
      eexists _, _. split; [reflexivity|]. apply Bf. exact Ev.
    + destruct K as [K|[K|(K1 & K2)]]; [exact K| |].
      * apply smem_In in K. congruence.
      * apply Z.leb_le in K1. apply smem_In in K2. rewrite K1, K2 in D. discriminate.
Qed.

Lemma cnt_bound f z0 l :
  reachable f z0 l -> (1 <= z_cycleIntervalTimeMS z0 <= z_updateThermalsTimeMS z0)%Z ->
  (z_updateThermalsTimeMS z0 + z_cycleIntervalTimeMS z0 < uint64_mod)%Z ->
  (0 <= l_cycleCnt l < z_updateThermalsTimeMS z0 + z_cycleIntervalTimeMS z0)%Z.
Proof.
  intros (env & te & now & l0 & evs & Fr & H0 & H1) B W.
  destruct (cycles_inv _ _ _ _ _ _ _ _ _ _ Fr H0 eq_refl eq_refl B W H1) as (_ & ->).
  set (F := z_cycleIntervalTimeMS z0) in *. set (T := z_updateThermalsTimeMS z0) in *.
  destruct (auto_ticks false evs) as [|k]; unfold cycles_after.
  - change (Z.of_nat 0) with 0%Z. lia.
  - assert (Q := Z.div_mod (Z.of_nat k * F) T). assert (R := Z.mod_pos_bound (Z.of_nat k * F) T).
    rewrite Nat2Z.inj_succ. lia.
Qed.

Lemma setter_quiet f l ev l' s : loop_step f l ev = Ok l' -> is_tick ev = false ->
  z_trace (l_zone l') = z_trace (l_zone l) /\ l_cycleCnt l' = l_cycleCnt l /\
  (polled_bad s (z_trace (l_zone l)) -> polled_bad s (z_trace (l_zone l'))).
Proof.
  intros H E. destruct ev as [e|b|n b]; [discriminate| |]; cbn in H; injection H as <-; cbn.
  - unfold setManualMode. destruct b; cbn; auto.
  - unfold setProcessEnabled. destruct (mget n (z_pidsControlProcess (l_zone l))); auto.
Qed.

Lemma ticks_reach f z0 s es : forall l l',
  reachable f z0 l -> z_manualMode (l_zone l) = false ->
  (1 <= z_cycleIntervalTimeMS z0 <= z_updateThermalsTimeMS z0)%Z ->
  (z_updateThermalsTimeMS z0 + z_cycleIntervalTimeMS z0 < uint64_mod)%Z ->
  is_input z0 s -> (forall e, In (LTick e) es -> shows_bad e s) -> ~ In (LManual true) es ->
  loop_run f es l = Ok l' ->
  reachable f z0 l' /\ z_manualMode (l_zone l') = false /\
  (polled_bad s (z_trace (l_zone l)) -> polled_bad s (z_trace (l_zone l'))) /\
  (polled_bad s (z_trace (l_zone l')) \/
   (l_cycleCnt l' >= l_cycleCnt l + Z.of_nat (ticks es) * z_cycleIntervalTimeMS z0)%Z).
Proof.
  unfold loop_run. induction es as [|ev r IH]; intros l l' R A B W I Sb Nm H.
  - cbn [foldM] in H. injection H as <-. cbn. repeat split; auto. right. lia.
  - cbn [foldM] in H. apply bind_ok in H. destruct H as (l1 & H1 & H2).
    assert (R1 : reachable f z0 l1) by (eapply (reachable_step _ _ _ ev); eauto).
    assert (A1 : z_manualMode (l_zone l1) = false).
    { assert (M := loop_step_mode _ ev _ _ H1). unfold mode in M. rewrite A in M.
      destruct ev as [e|b|n b]; cbn in M; try congruence.
      destruct b; [exfalso; apply Nm; left; reflexivity|congruence]. }
    destruct (IH l1 l' R1 A1 B W I (fun e' I' => Sb e' (or_intror I')) (fun K => Nm (or_intror K)) H2)
      as (R2 & A2 & P2 & Q2).
    split; [exact R2|]. split; [exact A2|].
    destruct (is_tick ev) eqn:Et.
    2: { destruct (setter_quiet _ _ _ _ s H1 Et) as (_ & Ec & Ep). split; [auto|].
         unfold ticks in *. cbn [filter]. rewrite Et. rewrite <- Ec. exact Q2. }
    destruct ev as [e|b|n b]; [|discriminate|discriminate].
    destruct (tick_step f e l l1 H1 A) as (z1 & z2 & evs & T & TF).
    assert (Be : shows_bad e s) by (apply Sb; left; reflexivity).
    split.
    { intros P. apply P2. eapply tick_bad; eauto. }
    destruct Q2 as [Q2|Q2]; [auto|].
    assert (Ci := reachable_inv _ _ _ R). destruct Ci as (Ci & _).
    destruct (Z.le_gt_cases (z_updateThermalsTimeMS (l_zone l)) (l_cycleCnt l)) as [D|D].
    + left. apply P2. eapply tick_bad; eauto. destruct I as [I|I].
      * right. left. use_conf Ci. exact I.
      * right. right. split; [exact D|]. use_conf Ci. exact I.
    + right. assert (K := at_cnt _ _ _ _ _ _ T).
      assert (E : (z_updateThermalsTimeMS (l_zone l) <=? l_cycleCnt l)%Z = false) by (apply Z.leb_gt; lia).
      rewrite E in K.
      assert (EF : z_cycleIntervalTimeMS (l_zone l) = z_cycleIntervalTimeMS z0) by (use_conf Ci; reflexivity).
      assert (ET : z_updateThermalsTimeMS (l_zone l) = z_updateThermalsTimeMS z0) by (use_conf Ci; reflexivity).
      assert (Cb := cnt_bound _ _ _ R B W). rewrite EF in K. rewrite ET in D.
      rewrite Z.mod_small in K by lia.
      unfold ticks in *. cbn [filter is_tick List.length]. rewrite Nat2Z.inj_succ. lia.
Qed.

Lemma C51_failing f z0 l es e l1 l' s :
  reachable f z0 l -> z_manualMode (l_zone l) = false ->
  (1 <= z_cycleIntervalTimeMS z0 <= z_updateThermalsTimeMS z0)%Z ->
  (z_updateThermalsTimeMS z0 + z_cycleIntervalTimeMS z0 < uint64_mod)%Z ->
  is_input z0 s -> ~ acceptable z0 s ->
  (forall t, In (LTick t) (es ++ [LTick e]) -> shows_bad t s) -> ~ In (LManual true) es ->
  (z_updateThermalsTimeMS z0 <= Z.of_nat (ticks es) * z_cycleIntervalTimeMS z0)%Z ->
  loop_run f es l = Ok l1 -> loop_step f l1 (LTick e) = Ok l' ->
  reachable f z0 l1 /\ z_manualMode (l_zone l1) = false /\
  exists x, mget s (z_failSafeSensors (l_zone l')) = Some x.
Proof.
  intros R A B W I Ac Sb Nm Ln H1 H2.
  destruct (ticks_reach f z0 s es l l1 R A B W I
    (fun t It => Sb t (in_or_app _ _ _ (or_introl It))) Nm H1) as (R1 & A1 & _ & Q).
  split; [exact R1|]. split; [exact A1|].
  apply (fs_member _ _ _ _ (reachable_step _ _ _ _ _ R1 H2)).
  split; [exact I|]. split; [exact Ac|].
  assert (P : polled_bad s (z_trace (l_zone l'))).
  { destruct (tick_step _ _ _ _ H2 A1) as (z1 & z2 & evs & T & _).
    eapply tick_bad; [exact T|apply Sb; apply in_or_app; right; left; reflexivity|].
    destruct Q as [Q|Q]; [left; exact Q|]. right.
    assert (Ci := reachable_inv _ _ _ R1). destruct Ci as (Ci & _).
    assert (Cb := cnt_bound _ _ _ R B W).
    assert (ET : z_updateThermalsTimeMS (l_zone l1) = z_updateThermalsTimeMS z0) by (use_conf Ci; reflexivity).
    destruct I as [I|I].
    - left. use_conf Ci. exact I.
    - right. split; [rewrite ET; lia|]. use_conf Ci. exact I. }
  destruct P as (now & v & -> & P). exact P.
Qed.

Lemma C51_lemma f z0 l es e l1 l' s evs n v b :
  reachable f z0 l -> z_manualMode (l_zone l) = false ->
  (1 <= z_cycleIntervalTimeMS z0 <= z_updateThermalsTimeMS z0)%Z ->
  (z_updateThermalsTimeMS z0 + z_cycleIntervalTimeMS z0 < uint64_mod)%Z ->
  is_input z0 s -> ~ acceptable z0 s ->
  (forall t, In (LTick t) (es ++ [LTick e]) -> shows_bad t s) -> ~ In (LManual true) es ->
  (z_updateThermalsTimeMS z0 <= Z.of_nat (ticks es) * z_cycleIntervalTimeMS z0)%Z ->
  loop_run f es l = Ok l1 -> loop_step f l1 (LTick e) = Ok l' ->
  tuningEnabled f = false -> (forall m, dle d0 (own_percent z0 m)) ->
  new_events (l_zone l1) (l_zone l') evs -> In (n, v, b) (writes_in evs) -> notnan v ->
  dle (ddiv (own_percent z0 s) (D 100)) v.
Proof.
  intros R A B W I Ac Sb Nm Ln H1 H2 Tn P Nw Iw Nn.
  destruct (C51_failing _ _ _ _ _ _ _ _ R A B W I Ac Sb Nm Ln H1 H2) as (R1 & A1 & x & Ex).
  eapply C20_lemma; eauto.
Qed.

(** ** C54 *)
Lemma lead_spec reqs :
  leader reqs (fst (fold_left lead reqs (d0, ""))) (snd (fold_left lead reqs (d0, ""))) /\
  dle d0 (fst (fold_left lead reqs (d0, ""))).
Proof.
  split.
  - induction reqs as [|r l IH] using rev_ind.
    + left. split; [reflexivity|]. intros r [].
    + rewrite fold_left_app. set (s := fold_left lead l (d0, "")) in *. cbn [fold_left].
      assert (Q : fst s = fold_left dmax (map snd l) d0).
      { destruct (fold_req_plain l) as (A & A2 & _). subst s. rewrite <- A2. exact A. }
      assert (N : notnan (fst s)).
      { rewrite Q. apply fold_dmax_notnan. reflexivity. }
      assert (G : dle d0 (fst s)) by (rewrite Q; apply fold_dmax_ge_start; reflexivity).
      unfold lead at 1 2. destruct (dltb (fst s) (snd r)) eqn:E; cbn [fst snd].
      * right. exists l, []. destruct r as [n v]. simpl in *. split; [reflexivity|]. split.
        -- eapply dle_lt_trans; [exact G|exact E].
        -- intros x I K. assert (U : dle (snd x) (fst s)).
           { rewrite Q. apply fold_dmax_ge; [reflexivity|apply in_map; exact I|].
             apply dle_notnan in K. tauto. }
           assert (dlt (fst s) (fst s)).
           { eapply dlt_le_trans; [exact E|]. eapply dle_trans; eauto. }
           rewrite dlt_iff in H. destruct H as (_ & _ & H). exact (RIneq.Rlt_irrefl _ H).
      * destruct IH as [(En & IH)|(l1 & l2 & El & Ep & IH)].
        -- left. split; [exact En|]. intros x I. apply in_app_or in I. destruct I as [I|[<-|[]]]; [auto|].
           intros K.
           assert (Z0 : fst s = d0).
           { rewrite Q. clear -IH. induction l as [|y l IHl] using rev_ind; [reflexivity|].
             rewrite map_app, fold_left_app, IHl.
             - simpl. unfold dmax. specialize (IH y). unfold dlt in IH.
               destruct (dltb d0 (snd y)); [|reflexivity].
               exfalso. apply IH; [apply in_or_app; right; left; reflexivity|reflexivity].
             - intros z I. apply IH. apply in_or_app. auto. }
           rewrite Z0 in E. unfold dlt in K. congruence.
        -- right. exists l1, (l2 ++ [r]). split; [|auto]. rewrite El at 1. rewrite <- app_assoc. reflexivity.
  - destruct (fold_req_plain reqs) as (A & A2 & _ & G). rewrite <- A2. exact G.
Qed.

Lemma C54_lemma f env te z z' :
  thermal_cycle f env te z = Ok z' -> tuningEnabled f = false -> z_accumulateSetPoint z = false ->
  Forall notnan (ceilings (cycle_readings env z) z) -> notnan (z_minThermalOutputSetPt z) ->
  exists top capped,
    is_max_of top (d0 :: map snd (requests (cycle_readings env z) z)) /\
    capped_at (ceilings (cycle_readings env z) z) top capped /\
    ((dle capped (z_minThermalOutputSetPt z) /\ z_maximumSetPoint z' = z_minThermalOutputSetPt z /\
      z_maximumSetPointName z' = "Minimum") \/
     (dlt (z_minThermalOutputSetPt z) capped /\ z_maximumSetPoint z' = capped /\ dlt capped top /\
      z_maximumSetPointName z' = "Ceiling") \/
     (dlt (z_minThermalOutputSetPt z) capped /\ z_maximumSetPoint z' = capped /\ capped = top /\
      leader (requests (cycle_readings env z) z) top (z_maximumSetPointName z'))).
Proof.
  intros H Tn Ac Nc Nm. apply cycle_requests in H. destruct H as (z2 & D & S & C & Cf & _).
  rewrite determine_split, Tn in D. injection D as <-. rewrite Ac in S.
  set (reqs := requests (cycle_readings env z) z) in *.
  destruct (fold_req_plain reqs) as (A & A2 & _ & G).
  assert (Em : z_maximumSetPoint z2 = fr_max (fold_req false reqs)) by (rewrite <- S; reflexivity).
  assert (En : z_maximumSetPointName z2 = fr_name (fold_req false reqs)) by (rewrite <- S; reflexivity).
  assert (Az : z_accumulateSetPoint z2 = false) by (use_conf Cf; exact Ac).
  assert (Mi : z_minThermalOutputSetPt z2 = z_minThermalOutputSetPt z) by (use_conf Cf; reflexivity).
  rewrite (det_core_name _ Az), det_core_max, Mi.
  exists (z_maximumSetPoint z2), (capped z2).
  split. { rewrite Em, A. apply fold_dmax_is_max. }
  assert (N2 : notnan (z_maximumSetPoint z2)) by (rewrite Em; apply fold_req_notnan).
  assert (Ncap := capped_notnan _ N2).
  split.
  { unfold capped, capped_at. rewrite C. destruct (ceilings (cycle_readings env z) z) as [|c r]; [auto|].
    right. assert (Ncc : notnan c) by (inversion Nc; assumption).
    rewrite min_element_fold. exists (fold_left dmin r c). split.
    - split.
      + exists (fold_left dmin r c). split; [apply fold_dmin_in|]. apply deq_refl, fold_dmin_notnan, Ncc.
      + intros x [<-|I] Nx; [apply fold_dmin_le_start, Ncc|apply fold_dmin_le; assumption].
    - destruct (dltb (fold_left dmin r c) (z_maximumSetPoint z2)) eqn:F; [right; split; [exact F|reflexivity]|].
      left. split; [|reflexivity]. apply dltb_false_dle; auto. apply fold_dmin_notnan, Ncc. }
  unfold dgeb. destruct (dleb (capped z2) (z_minThermalOutputSetPt z)) eqn:E.
  { left. split; [exact E|]. split; reflexivity. }
  right. assert (L : dlt (z_minThermalOutputSetPt z) (capped z2)) by (apply dleb_false_dlt; assumption).
  assert (Ld : leader reqs (z_maximumSetPoint z2) (z_maximumSetPointName z2)).
  { rewrite Em, En. destruct (lead_spec reqs) as (Ls & _). rewrite <- A2 in Ls. exact Ls. }
  unfold capped in *. rewrite C in *.
  destruct (ceilings (cycle_readings env z) z) as [|c r].
  - right. split; [exact L|]. split; [reflexivity|]. split; [reflexivity|exact Ld].
  - rewrite min_element_fold in *.
    destruct (dltb (fold_left dmin r c) (z_maximumSetPoint z2)) eqn:F.
    + left. split; [exact L|]. split; [reflexivity|]. split; [exact F|reflexivity].
    + right. split; [exact L|]. split; [reflexivity|]. split; [reflexivity|exact Ld].
Qed.

(** ** C55: the CSV log *)
Lemma csv_line_cons c d r : csv_line (c :: d :: r) = c :: LComma :: csv_line (d :: r).
Proof. reflexivity. Qed.

(** Writing a line piecewise, as the code does: first cells, then ", cell". *)
Lemma csv_line_pieces c r : csv_line (c :: r) = c :: flat_map (fun x => [LComma; x]) r ++ [LEndl].
Proof.
  revert c. induction r as [|d r IH]; intros c; [reflexivity|].
  rewrite csv_line_cons, IH. reflexivity.
Qed.

Lemma log_log f ts z : loggingEnabled f = true -> z_log (log_tokens f ts z) = rev ts ++ z_log z.
Proof. intros H. unfold log_tokens. rewrite H. reflexivity. Qed.

Lemma mark_log n r z : z_log (markSensorMissing n r z) = z_log z.
Proof.
  destruct (mark_missing_spec n r z) as (e & _ & ->). destruct (smem n (z_missingAcceptable z)); reflexivity.
Qed.

Lemma poll_log f b env z n z' :
  loggingEnabled f = true -> processSensorInput f b env z n = Ok z' ->
  exists v, pe_sensor env n = Some v /\
  z_log z' = (if b then
     rev (flat_map (fun x => [LComma; x])
       [LNum (sv_value v); LNum (sv_unscaled v);
        LNum (scaled (cached_or_default (z_cachedFanOutputs z) n));
        LNum (unscaled (cached_or_default (z_cachedFanOutputs z) n))]) else []) ++ z_log z.
Proof.
  intros L. unfold processSensorInput. destruct (pe_sensor env n) as [v|]; [|discriminate].
  intros H. exists v. split; [reflexivity|].
  match type of H with context [if b then ?y1 else ?z1] =>
    assert (E : z_log (if b then y1 else z1) =
      (if b then rev (flat_map (fun x => [LComma; x])
       [LNum (sv_value v); LNum (sv_unscaled v);
        LNum (scaled (cached_or_default (z_cachedFanOutputs z) n));
        LNum (unscaled (cached_or_default (z_cachedFanOutputs z) n))]) else []) ++ z_log z);
    [destruct b; [cbv zeta; rewrite log_log by exact L; reflexivity|reflexivity]|];
    revert H; generalize dependent (if b then y1 else z1) end.
  intros y E H. cbv zeta in H. rewrite <- E. clear E.
  destruct (sv_failed v); [injection H as <-; apply mark_log|].
  destruct (_ && _)%bool; [injection H as <-; unfold failsafe_log; simpl; apply mark_log|].
  destruct (mmem n (z_failSafeSensors y)); injection H as <-; reflexivity.
Qed.

Lemma poll_fo f b env z n z' : processSensorInput f b env z n = Ok z' -> z_cachedFanOutputs z' = z_cachedFanOutputs z.
Proof. intros H. apply poll_one in H. destruct H as (v & _ & [_ _ _ _ F _ _ _]). exact F. Qed.

Lemma polls_log f b env l : forall z z',
  loggingEnabled f = true -> processSensorInputs f b env l z = Ok z' ->
  z_log z' = (if b then rev (flat_map (fun x => [LComma; x])
     (flat_map (fun n => [LNum (scaled (seen env n)); LNum (unscaled (seen env n));
        LNum (scaled (cached_or_default (z_cachedFanOutputs z) n));
        LNum (unscaled (cached_or_default (z_cachedFanOutputs z) n))]) l)) else []) ++ z_log z.
Proof.
  unfold processSensorInputs. induction l as [|n r IH]; intros z z' L H; simpl in H.
  - injection H as <-. destruct b; reflexivity.
  - apply bind_ok in H. destruct H as (z1 & H1 & H2).
    rewrite (IH _ _ L H2). destruct (poll_log _ _ _ _ _ _ L H1) as (v & Ev & E). rewrite E.
    rewrite (poll_fo _ _ _ _ _ _ H1). destruct b; [|reflexivity].
    assert (Es : seen env n = Entry (sv_value v) (sv_unscaled v)) by (unfold seen; rewrite Ev; reflexivity).
    symmetry. rewrite app_assoc. f_equal. rewrite <- rev_app_distr. f_equal.
    match goal with |- flat_map _ (flat_map ?g (n :: r)) = _ =>
      change (flat_map g (n :: r)) with (g n ++ flat_map g r) end.
    cbv beta. rewrite Es. rewrite flat_map_app. reflexivity.
Qed.

Lemma thermal_cycle_log f env te z z' :
  thermal_cycle f env te z = Ok z' -> z_log z' = z_log z.
Proof.
  intros H. apply thermal_cycle_split in H.
  destruct H as (z1 & z2 & H1 & F & _ & _ & _ & H4).
  apply determine_frame in H4. destruct H4 as (_ & _ & _ & _ & _ & _ & _ & L).
  destruct F as [_ _ _ _ _ _ Fl _ _ _ _]. simpl in Fl.
  rewrite L, Fl. clear -H1. unfold updateSensors in H1.
  assert (K : forall l y y', processSensorInputs f false env l y = Ok y' -> z_log y' = z_log y).
  { unfold processSensorInputs. induction l as [|n r IH]; intros y y' H; simpl in H.
    - injection H as <-. reflexivity.
    - apply bind_ok in H. destruct H as (y1 & H2 & H3). rewrite (IH _ _ H3). clear -H2.
      unfold processSensorInput in H2. destruct (pe_sensor env n) as [v|]; [|discriminate].
      cbv zeta in H2. destruct (sv_failed v); [injection H2 as <-; rewrite mark_log; reflexivity|].
      destruct (_ && _)%bool; [injection H2 as <-; unfold failsafe_log; simpl; rewrite mark_log; reflexivity|].
      destruct (mmem _ _); injection H2 as <-; reflexivity. }
  rewrite (K _ _ _ H1). reflexivity.
Qed.

Lemma updateFan_log f env z z' :
  updateFanTelemetry f env z = Ok z' -> loggingEnabled f = true ->
  z_log z' =
  rev (flat_map (fun x => [LComma; x])
     (flat_map (fun n => let v := cached_or_default (z_cachedValuesByName z') n in
        [LNum (scaled v); LNum (unscaled v)]) (z_thermalInputs z))) ++
  rev (flat_map (fun x => [LComma; x])
     (flat_map (fun n => [LNum (scaled (seen env n)); LNum (unscaled (seen env n));
        LNum (scaled (cached_or_default (z_cachedFanOutputs z) n));
        LNum (unscaled (cached_or_default (z_cachedFanOutputs z) n))]) (z_fanInputs z))) ++
  rev (LStamp :: flat_map (fun x => [LComma; x])
     [LNum (z_maximumSetPoint z); LText (z_maximumSetPointName z)]) ++ z_log z.
Proof.
  unfold updateFanTelemetry. intros H L.
  match type of H with context [processSensorInputs f true env _ (log_tokens f ?ts z)] =>
    set (z0 := log_tokens f ts z) in *;
    assert (Q0 : quiet_step z z0 []) by apply quiet_log;
    assert (L0 : z_log z0 = rev ts ++ z_log z) by (apply log_log; exact L) end.
  clearbody z0.
  apply bind_ok in H. destruct H as (z1 & H1 & H). injection H as H.
  match type of H with log_tokens f ?ts z1 = z' =>
    assert (Q2 : quiet_step z1 z' []) by (rewrite <- H; apply quiet_log);
    assert (L2 : z_log z' = rev ts ++ z_log z1) by (rewrite <- H; apply log_log; exact L) end.
  clear H. assert (F1 := polls_frame _ _ _ _ _ _ H1). destruct F1 as (C1 & _).
  apply polls_log in H1; [|exact L]. rewrite L2, H1, L0, (qs_fo _ _ _ Q0), (qs_cv _ _ _ Q2).
  assert (C0 := qs_conf _ _ _ Q0).
  assert (E1 : z_thermalInputs z1 = z_thermalInputs z) by (use_conf C1; use_conf C0; reflexivity).
  assert (E0 : z_fanInputs z0 = z_fanInputs z) by (use_conf C0; reflexivity).
  rewrite E1, E0. f_equal; f_equal; try reflexivity. clear E1.
  induction (z_thermalInputs z) as [|n r IH]; [reflexivity|].
  cbn [flat_map]. rewrite flat_map_app, IH. reflexivity.
Qed.

Lemma tick_log f e l l' z1 z2 :
  auto_tick f e l l' z1 z2 -> loggingEnabled f = true ->
  z_log (l_zone l') =
  rev (csv_line (csv_row (l_zone l) (z_maximumSetPoint (l_zone l)) (z_maximumSetPointName (l_zone l))
     (fun n => (seen (tk_fan e) n, cached_or_default (z_cachedFanOutputs (l_zone l)) n))
     (fun n => cached_or_default (z_cachedValuesByName z1) n)
     (getFailSafeMode (l_zone l')))) ++ z_log (l_zone l).
Proof.
  intros [A B C (z3 & P & Z) _ _] L.
  assert (G : getFailSafeMode (l_zone l') = getFailSafeMode z3).
  { rewrite Z. unfold getFailSafeMode.
    rewrite (qs_fs _ _ _ (quiet_log f [LComma; LBool (match z_failSafeSensors z3 with [] => false | _ => true end); LEndl] z3)).
    reflexivity. }
  rewrite G, Z, log_log by exact L.
  apply processFans_spec in P. destruct P as (_ & _ & _ & _ & _ & _ & _ & _ & L3 & _). rewrite L3.
  assert (L2 : z_log z2 = z_log z1).
  { destruct (z_updateThermalsTimeMS (l_zone l) <=? l_cycleCnt l)%Z; [|congruence].
    eapply thermal_cycle_log; eauto. }
  rewrite L2, (updateFan_log _ _ _ _ B L). unfold csv_row. cbn [app].
  rewrite csv_line_pieces, !app_assoc. f_equal. rewrite <- !app_assoc.
  cbn [flat_map app]. rewrite !flat_map_app. cbn [flat_map app fst snd].
  cbn [rev]. rewrite <- !app_assoc. cbn [app].
  rewrite !rev_app_distr. cbn [rev app]. rewrite <- !app_assoc. cbn [app]. reflexivity.
Qed.

(** The file of a reachable zone: the header, then one row per automatic
    wake-up. *)
Lemma C55_lemma f env te now z0 l0 evs : forall l,
  fresh z0 -> loggingEnabled f = true ->
  loop_start f env te now z0 = Ok l0 -> loop_run f evs l0 = Ok l ->
  exists rows, List.length rows = auto_ticks false evs /\
    rev (z_log (l_zone l)) = csv_line (csv_header z0) ++ List.concat (map csv_line rows) /\
    Forall (fun row => exists setpt requester fan therm failsafe,
              row = csv_row z0 setpt requester fan therm failsafe) rows.
Proof.
  intros l Fr L H0. revert l.
  assert (M0 := start_mode _ _ _ _ _ _ Fr H0).
  assert (C0 := loop_start_frame _ _ _ _ _ _ H0). destruct C0 as (C0 & _).
  assert (L0 : z_log (l_zone l0) = rev (csv_line (csv_header z0))).
  { unfold loop_start in H0. apply bind_ok in H0. destruct H0 as (z1 & H1 & H). injection H as <-. cbn [l_zone].
    rewrite (thermal_cycle_log _ _ _ _ _ H1).
    assert (K : forall z, z_log (initializeCache z) = z_log z).
    { intros z. unfold initializeCache.
      assert (G : forall g, g = initializeCache_fan \/ g = initializeCache_thermal -> forall l w,
         z_log (fold_left g l w) = z_log w).
      { intros g Hg. induction l as [|n r IH]; intros w; simpl; [reflexivity|]. rewrite IH.
        destruct Hg as [->| ->]; unfold initializeCache_fan, initializeCache_thermal; rewrite mark_log; reflexivity. }
      rewrite G by auto. apply G. auto. }
    rewrite K. unfold initializeLog. rewrite log_log by exact L.
    destruct Fr as (_ & _ & Lg & _). rewrite Lg, app_nil_r. apply (f_equal (@rev log_token)).
    unfold csv_header. cbn [app]. rewrite csv_line_pieces. cbn [flat_map app]. do 5 f_equal.
    rewrite !flat_map_app, <- !app_assoc. f_equal.
    - induction (z_fanInputs z0) as [|n r IH]; [reflexivity|]. cbn [flat_map]. rewrite flat_map_app, IH. reflexivity.
    - f_equal. induction (z_thermalInputs z0) as [|n r IH]; [reflexivity|].
      cbn [flat_map]. rewrite flat_map_app, IH. reflexivity. }
  induction evs as [|ev r IH] using rev_ind; intros l H.
  - injection H as <-. exists []. split; [reflexivity|]. split; [|constructor].
    rewrite L0, rev_involutive. simpl. rewrite app_nil_r. reflexivity.
  - rewrite loop_run_app in H. apply bind_ok in H. destruct H as (l1 & H1 & H2).
    destruct (IH _ H1) as (rows & Ln & Eq & Fa).
    simpl in H2. apply bind_ok in H2. destruct H2 as (l2 & H2 & H3). injection H3 as <-.
    assert (M1 := loop_run_mode _ _ _ _ _ _ H1 M0). unfold mode in M1. injection M1 as M1 _.
    assert (Cf := loop_run_conf _ _ _ _ H1). destruct Cf as (Cf & _).
    rewrite auto_ticks_app.
    assert (Quiet : auto_ticks (manual_after false r) [ev] = 0%nat -> z_log (l_zone l2) = z_log (l_zone l1) ->
      exists rows, List.length rows = (auto_ticks false r + auto_ticks (manual_after false r) [ev])%nat /\
        rev (z_log (l_zone l2)) = csv_line (csv_header z0) ++ List.concat (map csv_line rows) /\
        Forall (fun row => exists setpt requester fan therm failsafe,
              row = csv_row z0 setpt requester fan therm failsafe) rows).
    { intros -> ->. exists rows. rewrite Nat.add_0_r. auto. }
    destruct ev as [t|b|n b].
    + destruct (manual_after false r) eqn:Ma.
      * apply Quiet; [reflexivity|]. simpl in H2. unfold loop_tick in H2. rewrite M1 in H2.
        injection H2 as <-. reflexivity.
      * destruct (tick_step _ _ _ _ H2 M1) as (z1 & z2 & e & T & _).
        assert (Lg := tick_log _ _ _ _ _ _ T L).
        eexists (rows ++ [_]). split; [rewrite app_length, Ln; reflexivity|].
        rewrite Lg, rev_app_distr, rev_involutive, Eq. split.
        -- rewrite map_app, concat_app. cbn [map List.concat]. rewrite app_nil_r, app_assoc. reflexivity.
        -- apply Forall_app. split; [exact Fa|]. constructor; [|constructor].
           assert (Cz : conf (l_zone l1) = conf z0) by congruence.
           eexists _, _, _, _, _. unfold csv_row. use_conf Cz. reflexivity.
    + apply Quiet; [reflexivity|]. injection H2 as <-. destruct b; reflexivity.
    + apply Quiet; [reflexivity|]. injection H2 as <-. simpl. unfold setProcessEnabled.
      destruct (mget n (z_pidsControlProcess (l_zone l1))); reflexivity.
Qed.

(** Every row has as many cells as the header. *)
Lemma csv_widths z sp rq fan th fs :
  List.length (csv_row z sp rq fan th fs) = List.length (csv_header z).
Proof.
  unfold csv_row, csv_header. rewrite !app_length. f_equal. f_equal.
  - induction (z_fanInputs z) as [|n r IH]; [reflexivity|]. cbn [flat_map]. rewrite !app_length, IH. reflexivity.
  - f_equal. induction (z_thermalInputs z) as [|n r IH]; [reflexivity|].
    cbn [flat_map]. rewrite !app_length, IH. reflexivity.
Qed.
