(** * What a zone remembers of its sensors and fans (proofs only). *)
From Coq Require Import ZArith Bool List String Lia.
From Verif Require Import Base BaseFacts Dbl DblFacts PidModel ZoneModel LoopModel SpecZone ZoneFrame
  ZoneThermal ZoneFan ZoneProofs LoopProofs ReactionProofs.
Import ListNotations.
Local Open Scope string_scope.
Local Open Scope list_scope.
Local Arguments pid_process : simpl never.

(** Remembered readings are those of the last poll, remembered fan outputs
    those of the last write. *)
Definition cells (z : zone) : Prop :=
  (forall n, is_inputb z n = true ->
     mget n (z_cachedValuesByName z) = Some (shown (last_poll n (z_trace z)))) /\
  (forall n, smem n (z_fanInputs z) = true ->
     exists raw, mget n (z_cachedFanOutputs z) = Some (Entry (last_written n (z_trace z)) raw)).

Definition silent (e : event) : bool :=
  match e with EvRead _ _ _ | EvWrite _ _ _ => false | _ => true end.
Lemma silent_polls n l tr : forallb silent l = true -> last_poll n (l ++ tr) = last_poll n tr.
Proof.
  induction l as [|e r IH]; [reflexivity|]. simpl. rewrite andb_true_iff. intros [E H].
  destruct e; simpl in *; try discriminate; auto.
Qed.
Lemma silent_writes n l tr : forallb silent l = true -> last_written n (l ++ tr) = last_written n tr.
Proof.
  induction l as [|e r IH]; [reflexivity|]. simpl. rewrite andb_true_iff. intros [E H].
  destruct e; simpl in *; try discriminate; auto.
Qed.
Lemma plain_silent l : all_plain l -> forallb silent l = true.
Proof.
  intros H. apply forallb_forall. intros e I. apply H in I. destruct e; simpl in *; congruence.
Qed.

Lemma cells_frame z z' evs :
  conf z' = conf z -> z_cachedValuesByName z' = z_cachedValuesByName z ->
  z_cachedFanOutputs z' = z_cachedFanOutputs z -> z_trace z' = evs ++ z_trace z ->
  forallb silent evs = true -> cells z -> cells z'.
Proof.
  intros C V F T S [A B]. split; intros n.
  - rewrite (is_inputb_conf _ _ _ C), V, T, silent_polls by exact S. apply A.
  - assert (E : z_fanInputs z' = z_fanInputs z) by (use_conf C; reflexivity).
    rewrite E, F, T, silent_writes by exact S. apply B.
Qed.

Lemma cells_poll now n v z z' : poll_step now n v z z' -> cells z -> cells z'.
Proof.
  intros [C _ _ _ F V _ (evs & P & T)] [A B]. apply plain_silent in P. split; intros m.
  - rewrite (is_inputb_conf _ _ _ C), V, T, silent_polls by exact P. cbn [last_poll].
    rewrite mget_mset. destruct (String.eqb m n); [reflexivity|]. apply A.
  - assert (E : z_fanInputs z' = z_fanInputs z) by (use_conf C; reflexivity).
    rewrite E, F, T, silent_writes by exact P. cbn [last_written]. apply B.
Qed.

Lemma cells_polls f b env l z z' : processSensorInputs f b env l z = Ok z' -> cells z -> cells z'.
Proof.
  unfold processSensorInputs. intros H K. pattern z'. eapply foldM_inv; [| |exact H]; [|exact K].
  intros s x s' _ I Hx. apply poll_one in Hx. destruct Hx as (v & _ & P). eapply cells_poll; eauto.
Qed.

Lemma cells_log f ts z : cells z -> cells (log_tokens f ts z).
Proof.
  intros K. destruct (quiet_log f ts z) as [C _ _ _ _ V F T].
  eapply cells_frame with (evs := []); eauto.
Qed.

Lemma cells_fan_telemetry f env z z' : updateFanTelemetry f env z = Ok z' -> cells z -> cells z'.
Proof.
  unfold updateFanTelemetry. intros H K. apply bind_ok in H. destruct H as (z1 & H1 & H). injection H as <-.
  apply cells_log. eapply cells_polls; [exact H1|]. apply cells_log. exact K.
Qed.

Lemma cells_thermal_cycle f env te z z' : thermal_cycle f env te z = Ok z' -> cells z -> cells z'.
Proof.
  intros H K. apply thermal_cycle_split in H. destruct H as (z1 & z2 & H1 & F & _ & _ & _ & H4).
  assert (K1 : cells z1).
  { unfold updateSensors in H1. eapply cells_polls; [exact H1|].
    eapply cells_frame with (evs := [EvThermalCycle]) (z := z); try exact K; reflexivity. }
  apply determine_frame in H4. destruct H4 as ((evs & P & T) & C & _ & _ & _ & V & O & _).
  destruct F as [Fc _ _ Fv Fo Ft _ _ _ _ _].
  change (conf z2 = conf z1) in Fc. change (z_cachedValuesByName z2 = z_cachedValuesByName z1) in Fv.
  change (z_cachedFanOutputs z2 = z_cachedFanOutputs z1) in Fo. change (z_trace z2 = z_trace z1) in Ft.
  apply plain_silent in P. eapply cells_frame with (evs := evs) (z := z1); try congruence. 
Qed.

Lemma cells_write w p init z n z' : write_fan w p init z n = Ok z' -> cells z -> cells z'.
Proof.
  unfold write_fan. destruct (w n) as [wr|]; [|discriminate]. intros H [A B].
  apply bind_ok in H. destruct H as (r & _ & H).
  destruct (match r with Some v => Some v | None => init end) as [raw|]; [|discriminate]. injection H as <-.
  split; intros m.
  - exact (A m).
  - intros I. simpl. rewrite mget_mset. destruct (String.eqb m n); [eexists; reflexivity|]. apply B. exact I.
Qed.

Lemma cells_fan f w c z c' z' : fan_process f w c z = Ok (c', z') -> cells z -> cells z'.
Proof.
  unfold fan_process. destruct (fan_setptProc c z) as [c1 sp]. intros H K.
  apply bind_ok in H. destruct H as (i & _ & H). destruct (pid_process (fan_pid c1) sp i) as [p o].
  unfold fan_outputProc in H.
  match type of H with context [foldM _ _ (if ?b then emit ?e z else z)] =>
    assert (K1 : cells (if b then emit e z else z)) by
     (destruct b; [|exact K]; eapply cells_frame with (evs := [e]) (z := z); try exact K; reflexivity);
    set (z1 := if b then emit e z else z) in * end.
  apply bind_ok in H. destruct H as (z2 & H & E). injection E as _ <-.
  pattern z2. eapply foldM_inv; [| |exact H]; [|exact K1].
  intros s x s' _ I Hx. eapply cells_write; eauto.
Qed.

Lemma cells_fans f w z z' : processFans f w z = Ok z' -> cells z -> cells z'.
Proof.
  unfold processFans. intros H K. apply bind_ok in H. destruct H as ([fs z1] & H1 & H). injection H as <-.
  assert (K1 : cells z1).
  { revert H1 K. generalize (z_fans z) as l. intros l. revert z fs z1. induction l as [|o r IH]; intros y fs z1 H K; simpl in H.
    - injection H as _ <-. exact K.
    - apply bind_ok in H. destruct H as ([o1 y1] & H1 & H). apply bind_ok in H. destruct H as ([r1 y2] & H2 & H).
      injection H as _ <-. eapply IH; [exact H2|].
      unfold opt_fan_process in H1. destruct o as [c|]; [|discriminate].
      apply bind_ok in H1. destruct H1 as ([c1 y3] & H1 & E). injection E as _ <-.
      eapply cells_fan; eauto. }
  change (z_redundantWrite (set_fans fs z1)) with (z_redundantWrite z1).
  destruct (z_redundantWrite z1); exact K1.
Qed.

Lemma cells_step f l ev l' : loop_step f l ev = Ok l' -> cells (l_zone l) -> cells (l_zone l').
Proof.
  intros H K. destruct ev as [e|b|n b].
  - apply loop_step_tick, loop_tick_cases in H. destruct H as [(_ & ->)|(z1 & z2 & T)]; [exact K|].
    destruct T as [_ H1 H2 (z3 & P & ->) _ _]. apply cells_log. eapply cells_fans; [exact P|].
    apply cells_fan_telemetry in H1; [|exact K].
    destruct (z_updateThermalsTimeMS (l_zone l) <=? l_cycleCnt l)%Z; [|subst; exact H1].
    eapply cells_thermal_cycle; eauto.
  - injection H as <-. destruct b; exact K.
  - injection H as <-. simpl. unfold setProcessEnabled. destruct (mget _ _); exact K.
Qed.

Lemma cells_run f evs : forall l l', loop_run f evs l = Ok l' -> cells (l_zone l) -> cells (l_zone l').
Proof.
  induction evs as [|e r IH]; intros l l' H K; simpl in H.
  - injection H as <-. exact K.
  - apply bind_ok in H. destruct H as (l1 & H1 & H2). eapply IH; [exact H2|]. eapply cells_step; eauto.
Qed.

(** Start-up. *)
Lemma mark_cells n r z : z_cachedValuesByName (markSensorMissing n r z) = z_cachedValuesByName z /\
  z_cachedFanOutputs (markSensorMissing n r z) = z_cachedFanOutputs z.
Proof.
  destruct (mark_missing_spec n r z) as (e & _ & ->). destruct (smem n (z_missingAcceptable z)); split; reflexivity.
Qed.
Definition nan_entry : ValueCacheEntry := Entry dnan dnan.
Lemma init_fan_cells l : forall z n,
  mget n (z_cachedValuesByName (fold_left initializeCache_fan l z)) =
    (if smem n l then Some nan_entry else mget n (z_cachedValuesByName z)) /\
  mget n (z_cachedFanOutputs (fold_left initializeCache_fan l z)) =
    (if smem n l then Some nan_entry else mget n (z_cachedFanOutputs z)).
Proof.
  induction l as [|m r IH]; intros z n; [split; reflexivity|]. simpl.
  destruct (IH (initializeCache_fan z m) n) as [-> ->]. unfold initializeCache_fan.
  match goal with |- context [markSensorMissing m "" ?w] => destruct (mark_cells m "" w) as [-> ->] end.
  simpl. rewrite !mget_mset. destruct (String.eqb n m), (smem n r); split; reflexivity.
Qed.
Lemma init_thermal_cells l : forall z n,
  mget n (z_cachedValuesByName (fold_left initializeCache_thermal l z)) =
    (if smem n l then Some nan_entry else mget n (z_cachedValuesByName z)) /\
  z_cachedFanOutputs (fold_left initializeCache_thermal l z) = z_cachedFanOutputs z.
Proof.
  induction l as [|m r IH]; intros z n; [split; reflexivity|]. simpl.
  destruct (IH (initializeCache_thermal z m) n) as [-> ->]. unfold initializeCache_thermal.
  match goal with |- context [markSensorMissing m "" ?w] => destruct (mark_cells m "" w) as [-> ->] end.
  simpl. rewrite !mget_mset. destruct (String.eqb n m), (smem n r); split; reflexivity.
Qed.

Lemma cells_start f env te now z0 l : fresh z0 -> loop_start f env te now z0 = Ok l -> cells (l_zone l).
Proof.
  intros (Fs & Tr & _) H. unfold loop_start in H. apply bind_ok in H. destruct H as (z1 & H1 & H). injection H as <-.
  eapply cells_thermal_cycle; [exact H1|]. clear z1 H1. 
  destruct (quiet_log f [] z0) as [_ _ _ _ _ _ _ _].
  match goal with |- cells (initializeCache ?w) => assert (Q : quiet_step z0 w []) by apply quiet_log; set (z := w) in * end.
  clearbody z. destruct Q as [C _ _ _ Qf _ _ Qt]. rewrite Fs in Qf. rewrite Tr in Qt. cbn [app] in Qt.
  destruct (initializeCache_inv z Qf) as (_ & Ci & evs & P & T). rewrite Qt, app_nil_r in T.
  assert (Et : z_thermalInputs (fold_left initializeCache_fan (z_fanInputs z) z) = z_thermalInputs z).
  { assert (I0 : init_inv [] z).
    { split; [rewrite Qf; apply sorted_nil|]. intros n. rewrite Qf. reflexivity. }
    destruct (init_fold initializeCache_fan (or_introl eq_refl) (z_fanInputs z) z [] I0) as (_ & B & _).
    use_conf B. reflexivity. }
  split; intros n I.
  - rewrite T, (last_poll_none_plain _ _ P). rewrite (is_inputb_conf _ _ _ Ci) in I.
    unfold initializeCache. rewrite Et. destruct (init_thermal_cells (z_thermalInputs z) (fold_left initializeCache_fan (z_fanInputs z) z) n) as [-> _].
    destruct (init_fan_cells (z_fanInputs z) z n) as [-> _]. unfold is_inputb in I.
    destruct (smem n (z_fanInputs z)), (smem n (z_thermalInputs z)); try reflexivity. discriminate.
  - exists dnan. rewrite T. rewrite <- (app_nil_r evs), silent_writes by (apply plain_silent, P).
    assert (E : z_fanInputs (initializeCache z) = z_fanInputs z) by (use_conf Ci; reflexivity). rewrite E in I.
    unfold initializeCache. rewrite Et. destruct (init_thermal_cells (z_thermalInputs z) (fold_left initializeCache_fan (z_fanInputs z) z) n) as [_ ->].
    destruct (init_fan_cells (z_fanInputs z) z n) as [_ ->]. rewrite I. reflexivity.
Qed.

Lemma reachable_cells f z0 l : reachable f z0 l -> cells (l_zone l).
Proof.
  intros (env & te & now & l0 & evs & Fr & H0 & H1). eapply cells_run; [exact H1|]. eapply cells_start; eauto.
Qed.

(** What one automatic wake-up writes to the CSV file. *)
Lemma C55_row_lemma f z0 l e l' :
  reachable f z0 l -> loggingEnabled f = true -> z_manualMode (l_zone l) = false ->
  loop_step f l (LTick e) = Ok l' ->
  exists fan therm,
    rev (z_log (l_zone l')) = rev (z_log (l_zone l)) ++
      csv_line (csv_row z0 (z_maximumSetPoint (l_zone l)) (z_maximumSetPointName (l_zone l))
                 fan therm (getFailSafeMode (l_zone l'))) /\
    (forall n, In n (z_fanInputs z0) ->
       fst (fan n) = seen (tk_fan e) n /\ scaled (snd (fan n)) = last_written n (z_trace (l_zone l))) /\
    (forall n, In n (z_thermalInputs z0) -> ~ In n (z_fanInputs z0) ->
       therm n = shown (last_poll n (z_trace (l_zone l)))).
Proof.
  intros R L M H. assert (K := reachable_cells _ _ _ R). destruct (reachable_inv _ _ _ R) as (C & _).
  destruct (tick_step _ _ _ _ H M) as (z1 & z2 & evs & T & _).
  assert (Lg := tick_log _ _ _ _ _ _ T L).
  eexists _, _. split; [|split].
  - rewrite Lg, rev_app_distr, rev_involutive. f_equal. f_equal. unfold csv_row. use_conf C. reflexivity.
  - intros n I. cbn [fst snd]. split; [reflexivity|].
    destruct K as [_ K]. assert (E : z_fanInputs (l_zone l) = z_fanInputs z0) by (use_conf C; reflexivity).
    destruct (K n) as (raw & Er); [rewrite E; apply smem_In; exact I|].
    unfold cached_or_default. rewrite Er. reflexivity.
  - intros n I Nf. cbv beta. destruct T as [_ H1 _ _ _ _].
    apply updateFanTelemetry_spec in H1. destruct H1 as (_ & _ & _ & _ & _ & _ & V & _).
    assert (E : z_fanInputs (l_zone l) = z_fanInputs z0) by (use_conf C; reflexivity).
    assert (E2 : z_thermalInputs (l_zone l) = z_thermalInputs z0) by (use_conf C; reflexivity).
    unfold cached_or_default. rewrite V, E.
    assert (Sf : smem n (z_fanInputs z0) = false).
    { destruct (smem n (z_fanInputs z0)) eqn:S; [|reflexivity]. apply smem_In in S. contradiction. }
    rewrite Sf. destruct K as [K _]. rewrite (K n); [reflexivity|].
    unfold is_inputb. rewrite E2. apply smem_In in I. rewrite I. apply orb_true_r.
Qed.
