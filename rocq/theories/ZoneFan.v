(** * Fan controllers of a zone and the control loop (proofs only). *)
From Coq Require Import ZArith Bool List String Lia.
From Verif Require Import Base BaseFacts Dbl DblFacts PidModel ZoneModel LoopModel SpecZone ZoneFrame ZoneThermal.
Import ListNotations.
Local Open Scope string_scope.
Local Open Scope list_scope.
Local Arguments pid_process : simpl never.

Lemma Forall2_weaken {A B : Type} (P Q : A -> B -> Prop) (l : list A) (m : list B) :
  (forall a b, P a b -> Q a b) -> Forall2 P l m -> Forall2 Q l m.
Proof. intros H F. induction F; constructor; auto. Qed.

(** ** Inputs *)
Lemma fan_gt_le (v : dbl) : disfinite v = true -> dgtb v d0 = negb (dleb v d0).
Proof.
  intros F. assert (N : notnan v) by (apply finite_notnan; exact F).
  assert (N0 : notnan d0) by reflexivity.
  unfold dgtb. destruct (dleb v d0) eqn:E; simpl.
  - apply dle_not_lt. exact E.
  - apply dleb_false_dlt; assumption.
Qed.

Lemma fan_values_spec names z vs :
  fan_values names z = Ok vs -> vs = fan_readings (cached_raw z) names /\
  forall n, In n names -> exists v, cached_raw z n = Some v.
Proof.
  revert vs. induction names as [|n r IH]; intros vs H; simpl in H.
  - injection H as <-. split; [reflexivity|]. intros n [].
  - apply bind_ok in H. destruct H as (e & He & H). apply bind_ok in H. destruct H as (vs' & Hv & H).
    apply IH in Hv. destruct Hv as [-> Hv].
    unfold getCachedValues in He.
    assert (Ec : cached_raw z n = Some (unscaled e)).
    { unfold cached_raw. destruct (mget n (z_cachedValuesByName z)); [|discriminate].
      injection He as ->. reflexivity. }
    split; [|intros m [<-|I]; eauto].
    unfold fan_readings in *. cbn [flat_map]. unfold fan_reading at 1. rewrite Ec.
    destruct (disfinite (unscaled e)) eqn:F; cbn [negb andb] in *; [|injection H as <-; reflexivity].
    rewrite (fan_gt_le _ F). destruct (dleb (unscaled e) d0); injection H as <-; reflexivity.
Qed.

Lemma min_element_fold l b : min_element b l = fold_left dmin l b.
Proof.
  revert b. induction l as [|x r IH]; intros b; simpl; [reflexivity|]. rewrite IH. reflexivity.
Qed.

Lemma fan_inputProc_spec c z v :
  fan_inputProc c z = Ok v ->
  v = match fan_readings (cached_raw z) (fan_inputs c) with [] => d0 | x :: r => fold_left dmin r x end.
Proof.
  unfold fan_inputProc. intros H. apply bind_ok in H. destruct H as (vs & Hv & H). injection H as <-.
  apply fan_values_spec in Hv. destruct Hv as [-> _].
  destruct (fan_readings (cached_raw z) (fan_inputs c)); [reflexivity|]. apply min_element_fold.
Qed.

(** ** Writes *)
Record fan_frame (z z' : zone) : Prop := FanFrame {
  ff_conf : conf z' = conf z;
  ff_mode : mode z' = mode z;
  ff_sps : sps z' = sps z;
  ff_ctls : ctls z' = ctls z;
  ff_fs : z_failSafeSensors z' = z_failSafeSensors z;
  ff_cv : z_cachedValuesByName z' = z_cachedValuesByName z;
  ff_log : z_log z' = z_log z
}.
Lemma ff_refl z : fan_frame z z.
Proof. constructor; reflexivity. Qed.
Lemma ff_trans a b c : fan_frame a b -> fan_frame b c -> fan_frame a c.
Proof. intros [] []. constructor; congruence. Qed.

Lemma write_fans_spec w p init names : forall z z',
  foldM (write_fan w p init) names z = Ok z' ->
  fan_frame z z' /\
  exists evs, z_trace z' = evs ++ z_trace z /\
    writes_in evs = map (fun n => (n, p, z_redundantWrite z)) names /\
    reads_in evs = [] /\ thermal_cycles_in evs = 0%nat.
Proof.
  induction names as [|n r IH]; intros z z' H; simpl in H.
  - injection H as <-. split; [apply ff_refl|]. exists []. repeat split.
  - apply bind_ok in H. destruct H as (z1 & H1 & H2).
    unfold write_fan in H1. destruct (w n) as [wr|]; [|discriminate].
    apply bind_ok in H1. destruct H1 as (raw & Hr & H1).
    destruct (match raw with Some v => Some v | None => init end); [|discriminate].
    injection H1 as <-. apply IH in H2. destruct H2 as (F & evs & T & W & R & C).
    split; [eapply ff_trans; [|exact F]; constructor; reflexivity|].
    exists (evs ++ [EvWrite n p (z_redundantWrite z)]). rewrite T. simpl.
    rewrite <- app_assoc, writes_app, reads_app, cycles_app, W, R, C. repeat split.
Qed.

Lemma fan_outputProc_spec f w c value z c' z' :
  fan_outputProc f w c value z = Ok (c', z') ->
  fan_frame z z' /\ fan_id c' = fan_id c /\ fan_inputs c' = fan_inputs c /\ fan_pid c' = fan_pid c /\
  exists evs, z_trace z' = evs ++ z_trace z /\
    writes_in evs = map (fun n => (n, ddiv (fan_percent f z value) (D 100), z_redundantWrite z)) (fan_inputs c) /\
    reads_in evs = [] /\ thermal_cycles_in evs = 0%nat.
Proof.
  unfold fan_outputProc. intros H.
  match type of H with context [foldM _ _ (if ?b then emit ?e z else z)] =>
    set (pr := b) in *; set (ev := e) in * end.
  apply bind_ok in H. destruct H as (z1 & H1 & H2). injection H2 as <- <-.
  cbn [fan_inputs fan_id fan_pid] in *.
  apply write_fans_spec in H1. destruct H1 as (F & evs & T & W & R & C).
  assert (Hz : fan_frame z (if pr then emit ev z else z) /\
               exists e, all_plain e /\ z_trace (if pr then emit ev z else z) = e ++ z_trace z).
  { destruct pr.
    - split; [constructor; reflexivity|]. exists [ev]. split; [apply plain_one|]; reflexivity.
    - split; [apply ff_refl|]. exists []. split; [apply plain_nil|reflexivity]. }
  destruct Hz as (F0 & e & P & T0).
  split; [eapply ff_trans; eauto|]. repeat (split; [reflexivity|]).
  exists (evs ++ e). rewrite T, T0, app_assoc, writes_app, reads_app, cycles_app.
  rewrite (plain_writes e P), (plain_reads e P), (plain_cycles e P), W, R, C.
  assert (Er : z_redundantWrite (if pr then emit ev z else z) = z_redundantWrite z) by (destruct pr; reflexivity).
  rewrite Er. repeat split.
Qed.

Definition fan_next (z : zone) (c c' : FanController) : Prop :=
  fan_id c' = fan_id c /\ fan_inputs c' = fan_inputs c /\
  fan_pid c' = fst (pid_process (fan_pid c) (z_maximumSetPoint z)
         (match fan_readings (cached_raw z) (fan_inputs c) with
          | [] => d0 | v :: r => fold_left dmin r v end)).

Lemma fan_process_spec f w c z c' z' :
  fan_process f w c z = Ok (c', z') ->
  fan_frame z z' /\ fan_next z c c' /\
  exists evs, z_trace z' = evs ++ z_trace z /\
    writes_in evs = map (fun n => (n, ddiv (fan_percent f z (fan_output z c)) (D 100), z_redundantWrite z)) (fan_inputs c) /\
    reads_in evs = [] /\ thermal_cycles_in evs = 0%nat.
Proof.
  unfold fan_process, fan_setptProc. intros H.
  apply bind_ok in H. destruct H as (v & Hv & H).
  apply fan_inputProc_spec in Hv. cbn [fan_inputs fan_pid] in *.
  unfold fan_next, fan_output. rewrite <- Hv.
  destruct (pid_process (fan_pid c) (z_maximumSetPoint z) v) as [p o].
  apply fan_outputProc_spec in H. cbn [fan_inputs fan_pid fan_id fst snd] in *.
  destruct H as (F & I1 & I2 & I3 & E). auto.
Qed.

Lemma fan_percent_frame f z z' v : fan_frame z z' -> fan_percent f z' v = fan_percent f z v.
Proof.
  intros [C M S K Fs _ _]. unfold fan_percent, getFailSafeMode, getFailSafePercent.
  rewrite Fs. use_conf C. reflexivity.
Qed.
Lemma fan_output_frame z z' c : fan_frame z z' -> fan_output z' c = fan_output z c.
Proof.
  intros [C M S K Fs V _]. unfold fan_output, cached_raw. rewrite V.
  unfold sps in S. injection S; intros. congruence.
Qed.

Definition fan_writes (f : flags) (z : zone) (c : FanController) : list (string * dbl * bool) :=
  map (fun n => (n, ddiv (fan_percent f z (fan_output z c)) (D 100), z_redundantWrite z)) (fan_inputs c).

Lemma fan_writes_frame f z z' c : fan_frame z z' -> fan_writes f z' c = fan_writes f z c.
Proof.
  intros F. unfold fan_writes. rewrite (fan_percent_frame _ _ _ _ F), (fan_output_frame _ _ _ F).
  destruct F as [_ M _ _ _ _ _]. unfold mode in M. injection M as _ ->. reflexivity.
Qed.

Lemma fan_next_frame z z' c c' : fan_frame z z' -> fan_next z' c c' -> fan_next z c c'.
Proof.
  intros [C M S K Fs V _]. unfold fan_next, cached_raw. rewrite V.
  unfold sps in S. injection S as _ _ Em _ _. rewrite Em. auto.
Qed.

Lemma run_fans_spec f w fs : forall z fs' z',
  run_all (opt_fan_process f w) fs z = Ok (fs', z') ->
  fan_frame z z' /\
  Forall2 (fun o o' => match o, o' with Some c, Some c' => fan_next z c c' | _, _ => False end) fs fs' /\
  exists evs, z_trace z' = evs ++ z_trace z /\
    writes_in evs = flat_map (fun o => match o with Some c => fan_writes f z c | None => [] end) fs /\
    reads_in evs = [] /\ thermal_cycles_in evs = 0%nat.
Proof.
  induction fs as [|c r IH]; intros z fs' z' H; simpl in H.
  - injection H as <- <-. split; [apply ff_refl|]. split; [constructor|]. exists []. repeat split.
  - apply bind_ok in H. destruct H as ([c1 z1] & H1 & H).
    apply bind_ok in H. destruct H as ([r1 z2] & H2 & H). injection H as <- <-.
    destruct c as [c|]; simpl in H1; [|discriminate].
    apply bind_ok in H1. destruct H1 as ([c2 z3] & H1 & H3). injection H3 as <- <-.
    apply fan_process_spec in H1. destruct H1 as (F1 & N1 & e1 & T1 & W1 & R1 & C1).
    apply IH in H2. destruct H2 as (F2 & N2 & e2 & T2 & W2 & R2 & C2).
    split; [eapply ff_trans; eauto|]. split.
    + constructor; [exact N1|]. eapply Forall2_weaken; [|exact N2].
      intros [a|] [b|]; auto. apply fan_next_frame. exact F1.
    + exists (e2 ++ e1). rewrite T2, T1, app_assoc, writes_app, reads_app, cycles_app.
      rewrite W1, W2, R1, R2, C1, C2. repeat split. simpl.
      fold (fan_writes f z c). f_equal. apply flat_map_ext. intros [a|]; [|reflexivity].
      apply fan_writes_frame. exact F1.
Qed.

(** Writes of one round of all fan controllers. *)
Definition all_fan_writes (f : flags) (z : zone) : list (string * dbl * bool) :=
  flat_map (fan_writes f z) (fan_ctls z).

Lemma all_fan_writes_eq f z :
  flat_map (fun o => match o with Some c => fan_writes f z c | None => [] end) (z_fans z)
  = all_fan_writes f z.
Proof.
  unfold all_fan_writes, fan_ctls. induction (z_fans z) as [|[c|] r IH]; simpl; congruence.
Qed.

Lemma processFans_spec f w z z' :
  processFans f w z = Ok z' ->
  conf z' = conf z /\ z_manualMode z' = z_manualMode z /\ z_redundantWrite z' = false /\
  sps z' = sps z /\ z_thermals z' = z_thermals z /\
  z_pidsControlProcess z' = z_pidsControlProcess z /\
  z_failSafeSensors z' = z_failSafeSensors z /\
  z_cachedValuesByName z' = z_cachedValuesByName z /\ z_log z' = z_log z /\
  Forall2 (fun o o' => match o, o' with Some c, Some c' => fan_next z c c' | _, _ => False end)
    (z_fans z) (z_fans z') /\
  exists evs, z_trace z' = evs ++ z_trace z /\ writes_in evs = all_fan_writes f z /\
    reads_in evs = [] /\ thermal_cycles_in evs = 0%nat.
Proof.
  unfold processFans. intros H. apply bind_ok in H. destruct H as ([fs z1] & H1 & H).
  injection H as <-. apply run_fans_spec in H1.
  destruct H1 as ([C M S K Fs V L] & N & evs & T & W & R & Cy).
  rewrite all_fan_writes_eq in W.
  unfold mode in M. injection M as M1 M2. unfold ctls in K. injection K as K1 K2 K3.
  change (z_redundantWrite (set_fans fs z1)) with (z_redundantWrite z1).
  destruct (z_redundantWrite z1) eqn:Er.
  - repeat (split; [first [exact C|exact M1|reflexivity|exact S|exact K2|exact K3|exact Fs|exact V|exact L|exact N]|]).
    exists evs. auto.
  - repeat (split; [first [exact C|exact M1|exact Er|exact S|exact K2|exact K3|exact Fs|exact V|exact L|exact N]|]).
    exists evs. auto.
Qed.

(** ** One wake-up *)

Lemma updateFanTelemetry_spec f env z z' :
  updateFanTelemetry f env z = Ok z' ->
  conf z' = conf z /\ mode z' = mode z /\ sps z' = sps z /\ ctls z' = ctls z /\
  z_cachedFanOutputs z' = z_cachedFanOutputs z /\
  (fs_inv z -> fs_inv z') /\
  (forall n, mget n (z_cachedValuesByName z') =
    if smem n (z_fanInputs z)
    then option_map (fun v => Entry (sv_value v) (sv_unscaled v)) (pe_sensor env n)
    else mget n (z_cachedValuesByName z)) /\
  exists evs, z_trace z' = evs ++ z_trace z /\ reads_in evs = z_fanInputs z /\ writes_in evs = [] /\
    thermal_cycles_in evs = 0%nat.
Proof.
  unfold updateFanTelemetry. intros H.
  match type of H with context [processSensorInputs f true env _ (log_tokens f ?ts z)] =>
    set (z0 := log_tokens f ts z) in *;
    assert (Q0 : quiet_step z z0 []) by apply quiet_log end.
  apply bind_ok in H. destruct H as (z1 & H1 & H).
  injection H as <-.
  match goal with |- context [conf (log_tokens f ?ts z1)] =>
    set (z2 := log_tokens f ts z1) in *;
    assert (Q2 : quiet_step z1 z2 []) by apply quiet_log end.
  destruct Q0 as [A1 A2 A3 A4 A5 A6 A7 A8]. destruct Q2 as [B1 B2 B3 B4 B5 B6 B7 B8].
  assert (Ef : z_fanInputs z0 = z_fanInputs z) by (use_conf A1; reflexivity).
  rewrite Ef in H1.
  destruct (polls_frame _ _ _ _ _ _ H1) as (C1 & C2 & C3 & C4 & C5).
  destruct (polls_trace _ _ _ _ _ _ H1) as (evs & T & R & W & N).
  repeat (split; [congruence|]). split.
  { intros I. assert (I1 : fs_inv z1).
    { eapply fs_inv_polls; [| |exact H1].
      - intros n Hn. rewrite (is_inputb_conf _ _ _ A1). unfold is_inputb.
        apply smem_In in Hn. rewrite Hn. reflexivity.
      - eapply fs_inv_frame with (evs := []); eauto. }
    eapply fs_inv_frame with (evs := []); eauto. }
  split.
  { intros n. rewrite B6, (polls_cache _ _ _ _ _ _ H1 n), A6. reflexivity. }
  exists evs. rewrite B8, T, A8. auto.
Qed.

(** The state [z2] right before the fan controllers run. *)
Record auto_tick (f : flags) (e : tick_env) (l l' : loop) (z1 z2 : zone) : Prop := AutoTick {
  at_auto : z_manualMode (l_zone l) = false;
  at_fan : updateFanTelemetry f (tk_fan e) (l_zone l) = Ok z1;
  at_therm : if (z_updateThermalsTimeMS (l_zone l) <=? l_cycleCnt l)%Z
             then thermal_cycle f (tk_therm e) (tk_tune e) z1 = Ok z2 else z2 = z1;
  at_fans : exists z3, processFans f (tk_write e) z2 = Ok z3 /\
     l_zone l' = log_tokens f [LComma; LBool (getFailSafeMode z3); LEndl] z3;
  at_cnt : (l_cycleCnt l' = ((if (z_updateThermalsTimeMS (l_zone l) <=? l_cycleCnt l)%Z
              then l_cycleCnt l - z_updateThermalsTimeMS (l_zone l) else l_cycleCnt l)
              + z_cycleIntervalTimeMS (l_zone l)) mod uint64_mod)%Z;
  at_exp : l_expiry l' = (l_expiry l + ms_to_ns (z_cycleIntervalTimeMS (l_zone l)))%Z
}.

Lemma loop_tick_cases f e l l' :
  loop_tick f e l = Ok l' ->
  (z_manualMode (l_zone l) = true /\ l' = rearm (l_zone l) (l_cycleCnt l) l) \/
  (exists z1 z2, auto_tick f e l l' z1 z2).
Proof.
  unfold loop_tick. intros H. destruct (z_manualMode (l_zone l)) eqn:Em.
  - injection H as <-. left. auto.
  - right. apply bind_ok in H. destruct H as (z1 & H1 & H).
    apply bind_ok in H. destruct H as ([z2 cnt] & H2 & H).
    apply bind_ok in H. destruct H as (z3 & H3 & H).
    assert (U := updateFanTelemetry_spec _ _ _ _ H1). destruct U as (C1 & _).
    assert (Et : z_updateThermalsTimeMS z1 = z_updateThermalsTimeMS (l_zone l))
      by (use_conf C1; reflexivity).
    rewrite Et in H2.
    assert (G : (if (z_updateThermalsTimeMS (l_zone l) <=? l_cycleCnt l)%Z
             then thermal_cycle f (tk_therm e) (tk_tune e) z1 = Ok z2 else z2 = z1) /\
             cnt = (if (z_updateThermalsTimeMS (l_zone l) <=? l_cycleCnt l)%Z
              then l_cycleCnt l - z_updateThermalsTimeMS (l_zone l) else l_cycleCnt l)%Z).
    { destruct (z_updateThermalsTimeMS (l_zone l) <=? l_cycleCnt l)%Z.
      - apply bind_ok in H2. destruct H2 as (z4 & H4 & H2). injection H2 as <- <-. auto.
      - injection H2 as <- <-. auto. }
    destruct G as [G1 G2].
    assert (C2 : conf z2 = conf (l_zone l)).
    { destruct (z_updateThermalsTimeMS (l_zone l) <=? l_cycleCnt l)%Z; [|subst; exact C1].
      apply thermal_cycle_frame in G1. destruct G1 as (K & _). congruence. }
    assert (P := processFans_spec _ _ _ _ H3). destruct P as (C3 & _).
    exists z1, z2. injection H as <-. constructor; auto.
    + exists z3. split; [exact H3|]. reflexivity.
    + simpl. rewrite G2. reflexivity.
    + simpl.
      assert (E : z_cycleIntervalTimeMS (log_tokens f [LComma; LBool (getFailSafeMode z3); LEndl] z3)
                  = z_cycleIntervalTimeMS (l_zone l)).
      { assert (C4 := log_tokens_log f [LComma; LBool (getFailSafeMode z3); LEndl] z3).
        use_conf C4. use_conf C3. use_conf C2. reflexivity. }
      rewrite E. reflexivity.
Qed.

Lemma loop_step_tick f e l l' : loop_step f l (LTick e) = Ok l' -> loop_tick f e l = Ok l'.
Proof. exact (fun H => H). Qed.
