(** * Running a built zone (proofs only). *)
From Coq Require Import ZArith Bool List String Lia.
From Verif Require Import Base BaseFacts Dbl DblFacts DblOrder PidModel ZoneModel LoopModel SpecZone
  ZoneFrame ZoneThermal ZoneFan ZoneProofs CacheProofs BuilderModel SpecBuilder BuilderProofs.
Import ListNotations.
Local Open Scope string_scope.
Local Open Scope list_scope.
Local Arguments pid_process : simpl never.

(** [good b o]: no undefined behaviour, and no exception unless [b]. *)
Definition good {A : Type} (b : bool) (o : outcome A) : Prop :=
  match o with Ok _ => True | Throw _ => b = true | UB _ => False end.
Lemma good_bind {A B : Type} b (o : outcome A) (k : A -> outcome B) :
  good b o -> (forall a, o = Ok a -> good b (k a)) -> good b (bind o k).
Proof. destruct o; cbn; auto. Qed.
Lemma good_defined {A : Type} (o : outcome A) : good true o -> defined o.
Proof. intros G m ->. exact G. Qed.
Lemma good_returns {A : Type} (o : outcome A) : good false o -> returns o.
Proof. destruct o as [a|t|t]; cbn; [intros _; exists a; reflexivity|discriminate|intros []]. Qed.
Lemma good_foldM {A S : Type} b (f : S -> A -> outcome S) (P : S -> Prop) (l : list A) : forall s,
  P s -> (forall s x, P s -> In x l -> good b (f s x)) ->
  (forall s x s', P s -> In x l -> f s x = Ok s' -> P s') -> good b (foldM f l s).
Proof.
  induction l as [|x r IH]; intros s H0 G I; cbn [foldM]; [exact Logic.I|].
  apply good_bind; [apply G; [exact H0|left; reflexivity]|].
  intros a E. apply IH.
  - eapply I; [exact H0|left; reflexivity|exact E].
  - intros t y Pt J. apply G; [exact Pt|right; exact J].
  - intros t y t' Pt J. apply I; [exact Pt|right; exact J].
Qed.

(** ** What stays of the controllers *)
Definition tsig (t : ThermalCtl) : string * list SensorInput * option (ThermalType * dbl) :=
  match t with
  | TPid id i ty sp _ => (id, i, Some (ty, sp))
  | TStep id i _ => (id, map (fun n => MkInput n dnan false false) i, None)
  end.
Definition fsig (o : option FanController) : option (string * list string) :=
  option_map (fun c => (fan_id c, fan_inputs c)) o.
Lemma tsig_next rd t : tsig (ctl_next rd t) = tsig t.
Proof. destruct t; reflexivity. Qed.
Definition sig (z : zone) := (map tsig (z_thermals z), map fsig (z_fans z)).

Lemma cycle_sig f env te z z' : thermal_cycle f env te z = Ok z' -> sig z' = sig z.
Proof.
  intros H. assert (F := thermal_cycle_frame _ _ _ _ _ H). destruct F as (_ & _ & Fa & _).
  apply thermal_cycle_split in H. destruct H as (z1 & z2 & H1 & F & Et & _ & _ & D).
  apply determine_frame in D. destruct D as (_ & _ & _ & K & _).
  unfold updateSensors in H1. apply polls_frame in H1. destruct H1 as (_ & _ & _ & K1 & _).
  unfold ctls in K, K1. injection K as Ka Kb Kc. injection K1 as K1a K1b K1c. cbn in K1a, K1b, K1c.
  unfold sig. f_equal; [|rewrite Fa; reflexivity].
  rewrite Kb, Et, map_map. rewrite <- K1b. apply map_ext. intros t. apply tsig_next.
Qed.
Lemma fans_sig f w z z' : processFans f w z = Ok z' -> sig z' = sig z.
Proof.
  intros H. apply processFans_spec in H. destruct H as (_ & _ & _ & _ & T & _ & _ & _ & _ & F & _).
  unfold sig. rewrite T. f_equal. induction F as [|o o' l l' Ho Hl IH]; [reflexivity|]. cbn [map]. f_equal; [|exact IH].
  destruct o as [c|], o' as [c'|]; try contradiction. destruct Ho as (A & B & _). cbn. congruence.
Qed.
Lemma telemetry_sig f env z z' : updateFanTelemetry f env z = Ok z' -> sig z' = sig z.
Proof.
  intros H. apply updateFanTelemetry_spec in H. destruct H as (_ & _ & _ & K & _).
  unfold ctls in K. injection K as Ka Kb Kc. unfold sig. congruence.
Qed.
Lemma log_sig f ts z : sig (log_tokens f ts z) = sig z.
Proof. unfold log_tokens. destruct (loggingEnabled f); reflexivity. Qed.
Lemma step_sig f ev l l' : loop_step f l ev = Ok l' -> sig (l_zone l') = sig (l_zone l).
Proof.
  destruct ev as [e|b|m b]; cbn [loop_step]; intros H.
  - apply loop_tick_cases in H. destruct H as [(M & ->)|(z1 & z2 & [A B C (z3 & P & Z) _ _])]; [reflexivity|].
    rewrite Z, log_sig, (fans_sig _ _ _ _ P).
    rewrite <- (telemetry_sig _ _ _ _ B).
    destruct (z_updateThermalsTimeMS (l_zone l) <=? l_cycleCnt l)%Z; [|subst; reflexivity].
    eapply cycle_sig; eauto.
  - injection H as <-. destruct b; reflexivity.
  - injection H as <-. cbn. unfold setProcessEnabled. destruct (mget m _); reflexivity.
Qed.
Lemma start_sig f env te now z l : loop_start f env te now z = Ok l -> sig (l_zone l) = sig z.
Proof.
  unfold loop_start. intros H. apply bind_ok in H. destruct H as (z1 & H1 & H). injection H as <-. cbn [l_zone].
  rewrite (cycle_sig _ _ _ _ _ H1). destruct (initializeCache_frame (initializeLog f z)) as (_ & K & _).
  unfold ctls in K. injection K as Ka Kb Kc. unfold sig. rewrite Ka, Kb. apply (log_sig f).
Qed.

(** ** Ready zones *)
Definition objs (z : zone) : Prop :=
  forall t, In t (z_thermals z) -> exists p, mget (thermal_id t) (z_pidsControlProcess z) = Some p.
Record ready (z : zone) : Prop := Ready {
  rd_obj : objs z;
  rd_fans : ~ In None (z_fans z)
}.
(** ... which in addition find every input. *)
Record full (z : zone) : Prop := Full {
  fu_therm : forall t i, In t (z_thermals z) -> In i (snd (fst (tsig t))) -> In (si_name i) (z_thermalInputs z);
  fu_fan : forall c n, In (Some c) (z_fans z) -> In n (fan_inputs c) -> In n (z_fanInputs z);
  fu_zero : forall id inputs sp p i, In (TPid id inputs margin sp p) (z_thermals z) -> In i inputs ->
     si_convertTempToMargin i = true -> dfinite (si_convertMarginZero i)
}.

Lemma tsig_id t : fst (fst (tsig t)) = thermal_id t.
Proof. destruct t; reflexivity. Qed.
Lemma objs_frame z z' : sig z' = sig z ->
  (forall n p, mget n (z_pidsControlProcess z) = Some p -> exists p', mget n (z_pidsControlProcess z') = Some p') ->
  objs z -> objs z'.
Proof.
  unfold sig. intros S O A. injection S as St Sf.
  intros t I. assert (J : In (tsig t) (map tsig (z_thermals z))) by (rewrite <- St; apply in_map; exact I).
  apply in_map_iff in J. destruct J as (t0 & E & J). destruct (A t0 J) as (p & P).
  rewrite <- (tsig_id t0), E, tsig_id in P. eapply O. exact P.
Qed.
Lemma ready_frame z z' : sig z' = sig z ->
  (forall n p, mget n (z_pidsControlProcess z) = Some p -> exists p', mget n (z_pidsControlProcess z') = Some p') ->
  ready z -> ready z'.
Proof.
  intros S O [A B]. constructor; [eapply objs_frame; eauto|]. unfold sig in S. injection S as St Sf.
  - intros I. apply B. apply (in_map fsig) in I. rewrite Sf in I. apply in_map_iff in I.
    destruct I as ([c|] & E & I); [discriminate|exact I].
Qed.
Lemma full_frame z z' : sig z' = sig z -> z_thermalInputs z' = z_thermalInputs z -> z_fanInputs z' = z_fanInputs z ->
  full z -> full z'.
Proof.
  unfold sig. intros S Et Ef [A B C]. injection S as St Sf.
  assert (BT : forall t, In t (z_thermals z') -> exists t0, In t0 (z_thermals z) /\ tsig t0 = tsig t).
  { intros t I. apply (in_map tsig) in I. rewrite St in I. apply in_map_iff in I.
    destruct I as (t0 & E & I). eauto. }
  constructor.
  - intros t i I J. destruct (BT t I) as (t0 & I0 & E). rewrite Et. eapply A; [exact I0|]. rewrite E. exact J.
  - intros c n I J. apply (in_map fsig) in I. rewrite Sf in I. apply in_map_iff in I.
    destruct I as ([c0|] & E & I); [|discriminate]. injection E as E1 E2. rewrite Ef. eapply B; [exact I|].
    rewrite E2. exact J.
  - intros id inputs sp p i I J K. destruct (BT _ I) as (t0 & I0 & E).
    destruct t0 as [id0 i0 ty0 sp0 p0|id0 i0 c0]; [|discriminate]. cbn in E. injection E as -> -> -> ->.
    eapply C; eauto.
Qed.

Lemma obj_frame z z' :
  (forall n, option_map po_enabled (mget n (z_pidsControlProcess z')) =
             option_map po_enabled (mget n (z_pidsControlProcess z))) ->
  forall n p, mget n (z_pidsControlProcess z) = Some p -> exists p', mget n (z_pidsControlProcess z') = Some p'.
Proof.
  intros H n p E. specialize (H n). rewrite E in H. destruct (mget n (z_pidsControlProcess z')) as [q|]; [eauto|discriminate].
Qed.

Definition has_cache (z : zone) : Prop :=
  forall n, is_inputb z n = true -> exists v, mget n (z_cachedValuesByName z) = Some v.
Lemma cells_cache z : cells z -> has_cache z.
Proof. intros [A _] n I. eexists. apply A. exact I. Qed.

(** ** Thermal controllers *)
Definition reg (z : zone) (id : string) : Prop := exists p, mget id (z_pidsControlProcess z) = Some p.
Lemma reg_frame z z' id : therm_frame z z' -> reg z id -> reg z' id.
Proof. intros F (p & H). eapply obj_frame; [exact (tf_en _ _ F)|exact H]. Qed.

Lemma debug_good b n l i o z : reg z n -> good b (updateThermalPowerDebugInterface n l i o z).
Proof. intros (p & H). unfold updateThermalPowerDebugInterface. rewrite H. exact I. Qed.
Lemma addSetPoint_good b v n z : reg z n -> good b (addSetPoint v n z).
Proof.
  intros (p & H). unfold addSetPoint, isPidProcessEnabled. rewrite H. cbn [bind].
  destruct (po_enabled p); cbn [negb]; [|exact I]. cbv zeta.
  match goal with |- good b (if ?x then _ else _) => destruct x; exact I end.
Qed.

Definition incache (b : bool) (z : zone) (n : string) : Prop :=
  b = false -> exists v, mget n (z_cachedValuesByName z) = Some v.
Lemma cachedValue_good b n z : incache b z n -> good b (getCachedValue n z).
Proof.
  intros H. unfold getCachedValue, getCachedValues. destruct (mget n (z_cachedValuesByName z)) eqn:E; [exact I|].
  cbn. destruct b; [reflexivity|]. destruct (H eq_refl) as (v & K). congruence.
Qed.

Lemma thermal_input1_good b id ty v a z i :
  reg z id -> incache b z (si_name i) ->
  (b = false -> ty = margin -> si_convertTempToMargin i = true -> dfinite (si_convertMarginZero i)) ->
  good b (thermal_input1 id ty (v, a, z) i).
Proof.
  intros R C Z. unfold thermal_input1. apply good_bind; [apply cachedValue_good, C|].
  intros x _. destruct (disfinite x); cbn [negb]; [|exact I].
  apply good_bind.
  - destruct ty; try exact I. destruct (si_convertTempToMargin i) eqn:E; [|exact I].
    destruct (disfinite (si_convertMarginZero i)) eqn:F; cbn [negb]; [exact I|]. cbn. destruct b; [reflexivity|].
    specialize (Z eq_refl eq_refl eq_refl). change (disfinite (si_convertMarginZero i) = true) in Z. congruence.
  - intros y _. apply good_bind.
    + destruct (dneb v _); [apply debug_good; exact R|exact I].
    + intros z1 _. exact I.
Qed.

Lemma thermal_process_good b t z :
  reg z (thermal_id t) ->
  (forall i, In i (snd (fst (tsig t))) -> incache b z (si_name i)) ->
  (b = false -> forall id inputs sp p i, t = TPid id inputs margin sp p -> In i inputs ->
     si_convertTempToMargin i = true -> dfinite (si_convertMarginZero i)) ->
  good b (thermal_process t z).
Proof.
  destruct t as [id inputs ty sp p|id inputs c]; cbn [thermal_process thermal_id tsig fst snd]; intros R C Z.
  - apply good_bind.
    + unfold thermal_inputProc. apply good_bind; [|intros [[v a] z1] _; exact I].
      apply good_foldM with (P := fun s => therm_frame z (snd s)).
      * apply tf_refl.
      * intros [[v a] z1] i F J. cbn [snd] in F. apply thermal_input1_good.
        -- eapply reg_frame; eauto.
        -- intros B. rewrite (tf_cv _ _ F). apply C; [exact J|exact B].
        -- intros B -> T. eapply Z; eauto.
      * intros [[v a] z1] i [[v' a'] z2] F J E. cbn [snd] in *. apply thermal_input1_spec in E.
        destruct E as (_ & F2 & _). eapply tf_trans; eauto.
    + intros [x z1] E. apply thermal_inputProc_spec in E. destruct E as (_ & F & _).
      destruct (pid_process p sp x) as [p' o]. apply good_bind; [|intros z2 _; exact I].
      unfold thermal_outputProc. apply good_bind; [apply addSetPoint_good; eapply reg_frame; eauto|].
      intros z2 E2. apply addSetPoint_spec in E2. destruct E2 as (F2 & _).
      apply debug_good. eapply reg_frame; [exact F2|]. eapply reg_frame; eauto.
  - apply good_bind.
    + unfold stepwise_inputProc. apply good_foldM with (P := fun _ => True); [exact I| |auto].
      intros v n _ J. apply good_bind; [|intros; exact I]. apply cachedValue_good.
      apply (C (MkInput n dnan false false)). apply in_map_iff. eauto.
    + intros x _. destruct (stepwise_process c x) as [c' o]. apply good_bind; [|intros; exact I].
      unfold stepwise_outputProc. destruct (sw_isCeiling (sc_info c')); [exact I|]. apply addSetPoint_good. exact R.
Qed.

Lemma run_thermals_good b ts : forall z,
  (forall t, In t ts -> reg z (thermal_id t)) ->
  (forall t i, In t ts -> In i (snd (fst (tsig t))) -> incache b z (si_name i)) ->
  (b = false -> forall id inputs sp p i, In (TPid id inputs margin sp p) ts -> In i inputs ->
     si_convertTempToMargin i = true -> dfinite (si_convertMarginZero i)) ->
  good b (run_all thermal_process ts z).
Proof.
  induction ts as [|t r IH]; intros z R C Z; cbn [run_all]; [exact I|].
  apply good_bind.
  - apply thermal_process_good; [apply R; left; reflexivity|intros i; apply C; left; reflexivity|].
    intros B id inputs sp p i -> . apply (Z B id inputs sp p i). left. reflexivity.
  - intros [t' z1] E. apply thermal_process_spec in E. destruct E as (_ & F & _).
    apply good_bind; [|intros [r' z2] _; exact I]. apply IH.
    + intros x J. eapply reg_frame; [exact F|]. apply R. right. exact J.
    + intros x i J K B. rewrite (tf_cv _ _ F). apply (C x i); [right; exact J|exact K|exact B].
    + intros B id inputs sp p i J. apply (Z B id inputs sp p i). right. exact J.
Qed.

(** ** Polls *)
Lemma poll_good b f fl env z n : (b = false -> exists v, pe_sensor env n = Some v) ->
  good b (processSensorInput f fl env z n).
Proof.
  intros H. unfold processSensorInput. destruct (pe_sensor env n) as [r|] eqn:E.
  - cbv zeta. destruct (sv_failed r); [exact I|]. destruct (negb _ && _); [exact I|].
    match goal with |- good b (if ?x then _ else _) => destruct x; exact I end.
  - cbn. destruct b; [reflexivity|]. destruct (H eq_refl) as (v & K). discriminate.
Qed.
Lemma polls_good b f fl env l z : (b = false -> all_known env l) -> good b (processSensorInputs f fl env l z).
Proof.
  intros H. unfold processSensorInputs. apply good_foldM with (P := fun _ => True); [exact I| |auto].
  intros s x _ J. apply poll_good. intros B. apply (H B). exact J.
Qed.

Lemma determine_good b f te z : tuning_readable f te -> good b (determineMaxSetPointRequest f te z).
Proof.
  intros H. rewrite determine_split. unfold tuning_readable in H. destruct (tuningEnabled f); [|exact I].
  destruct (H eq_refl) as [A B].
  assert (G : forall g c w, c <> FileEmpty -> good b (fileParseRpm g c w)).
  { intros g c w N. unfold fileParseRpm. destruct c as [|v|]; [exact I| |congruence].
    destruct (v <=? 0)%Z; [exact I|]. destruct (v <=? 100)%Z; exact I. }
  apply good_bind; [apply G; exact A|]. intros z1 _. apply G. exact B.
Qed.

(** Cached readings survive polls. *)
Lemma polls_keep f fl env l z z' n v :
  processSensorInputs f fl env l z = Ok z' -> mget n (z_cachedValuesByName z) = Some v ->
  exists v', mget n (z_cachedValuesByName z') = Some v'.
Proof.
  intros H E. assert (K := polls_sensors _ _ _ _ _ _ H). apply polls_cache with (n := n) in H. rewrite H.
  destruct (smem n l) eqn:S; [|eauto]. apply smem_In in S.
  destruct (pe_sensor env n) as [x|] eqn:P; [cbn; eauto|].
  destruct (K n S) as (x & X). congruence.
Qed.

Lemma cycle_good b f env te z :
  objs z -> tuning_readable f te ->
  (b = false -> full z /\ has_cache z /\ all_known env (z_thermalInputs z)) ->
  good b (thermal_cycle f env te z).
Proof.
  intros A T H. unfold thermal_cycle. apply good_bind.
  - unfold updateSensors. apply polls_good. intros E. destruct (H E) as (_ & _ & K). exact K.
  - intros z1 H1. apply good_bind; [|intros z2 _; apply determine_good; exact T].
    unfold updateSensors in H1. assert (PF := polls_frame _ _ _ _ _ _ H1). destruct PF as (Cf & _ & _ & K & _).
    unfold ctls in K. injection K as Ka Kb Kc. cbn in Ka, Kb, Kc.
    unfold processThermals. apply good_bind; [|intros [ts z3] _; exact I].
    cbn. rewrite Kb. apply run_thermals_good.
    + intros t J. unfold reg. cbn. rewrite Kc. apply A. exact J.
    + intros t i J L E. cbn. destruct (H E) as (Fu & Ha & _).
      assert (IN := fu_therm _ Fu t i J L).
      destruct (Ha (si_name i)) as (v & V).
      { unfold is_inputb. apply smem_In in IN. rewrite IN. apply orb_true_r. }
      eapply polls_keep; [exact H1|exact V].
    + intros E. destruct (H E) as (Fu & _). apply (fu_zero _ Fu).
Qed.

(** ** Fans *)
Lemma fan_values_good b names z : (forall n, In n names -> incache b z n) -> good b (fan_values names z).
Proof.
  induction names as [|n r IH]; intros H; cbn [fan_values]; [exact I|].
  apply good_bind.
  - unfold getCachedValues. destruct (mget n (z_cachedValuesByName z)) eqn:E; [exact I|].
    cbn. destruct b; [reflexivity|]. destruct (H n (or_introl eq_refl) eq_refl) as (v & K). congruence.
  - intros e _. apply good_bind; [apply IH; intros m J; apply H; right; exact J|].
    intros vs _. destruct (negb _); [exact I|]. destruct (dleb _ _); exact I.
Qed.

Lemma fan_process_good b f w c z :
  writers_defined w -> (forall n, In n (fan_inputs c) -> incache b z n) ->
  (b = false -> all_writable w (fan_inputs c)) -> good b (fan_process f w c z).
Proof.
  intros W C A. unfold fan_process, fan_setptProc. apply good_bind.
  - unfold fan_inputProc. cbn [fan_inputs]. apply good_bind; [|intros; exact I]. apply fan_values_good. exact C.
  - intros v _. cbn [fan_pid]. destruct (pid_process (fan_pid c) (z_maximumSetPoint z) v) as [p o].
    unfold fan_outputProc. cbv zeta. apply good_bind; [|intros; exact I]. cbn [fan_inputs].
    apply good_foldM with (P := fun _ => True); [exact I| |auto].
    intros s n _ J. unfold write_fan. destruct (w n) as [wr|] eqn:E.
    + apply good_bind.
      * destruct b.
        -- destruct (wr _ _) as [r|t|t] eqn:Er; [exact I|reflexivity|]. exact (W _ _ _ _ _ E Er).
        -- destruct (A eq_refl n J) as (wr' & E' & R). rewrite E in E'. injection E' as <-.
           destruct (R (ddiv (fan_percent f z o) (D 100)) (z_redundantWrite s)) as (r & Hr).
           rewrite Hr. exact I.
      * intros r _. destruct r; exact I.
    + cbn. destruct b; [reflexivity|]. destruct (A eq_refl n J) as (wr' & E' & _). congruence.
Qed.

Lemma run_fans_good b f w fs : forall z,
  ~ In None fs -> writers_defined w ->
  (forall c n, In (Some c) fs -> In n (fan_inputs c) -> incache b z n) ->
  (b = false -> forall c, In (Some c) fs -> all_writable w (fan_inputs c)) ->
  good b (run_all (opt_fan_process f w) fs z).
Proof.
  induction fs as [|o r IH]; intros z N W C A; cbn [run_all]; [exact I|].
  destruct o as [c|]; [|exfalso; apply N; left; reflexivity].
  apply good_bind.
  - cbn [opt_fan_process]. apply good_bind; [|intros [c' z1] _; exact I].
    apply fan_process_good; [exact W|intros n; apply C; left; reflexivity|].
    intros B. apply (A B). left. reflexivity.
  - intros [c' z1] E. cbn [opt_fan_process] in E. apply bind_ok in E. destruct E as ([c2 z2] & E & E2).
    injection E2 as <- <-. apply fan_process_spec in E. destruct E as (F & _).
    apply good_bind; [|intros [r' z3] _; exact I]. apply IH; [intro; apply N; right; assumption|exact W| |].
    + intros x n J K B. rewrite (ff_cv _ _ F). apply (C x n); [right; exact J|exact K|exact B].
    + intros B x J. apply (A B). right. exact J.
Qed.

Lemma fans_good b f w z :
  ready z -> writers_defined w ->
  (b = false -> full z /\ has_cache z /\ all_writable w (z_fanInputs z)) ->
  good b (processFans f w z).
Proof.
  intros [A B] W H. unfold processFans. apply good_bind; [|intros [fs z1] _; exact I].
  apply run_fans_good; [exact B|exact W| |].
  - intros c n J K E. destruct (H E) as (Fu & Ha & _). apply Ha. unfold is_inputb.
    assert (IN := fu_fan _ Fu c n J K). apply smem_In in IN. rewrite IN. reflexivity.
  - intros E c J n K. destruct (H E) as (Fu & _ & Wr). apply Wr. eapply fu_fan; eauto.
Qed.

(** ** The loop *)
Lemma has_cache_frame z z' : conf z' = conf z ->
  (forall n v, mget n (z_cachedValuesByName z) = Some v -> exists v', mget n (z_cachedValuesByName z') = Some v') ->
  has_cache z -> has_cache z'.
Proof.
  intros C K H n J. rewrite (is_inputb_conf _ _ _ C) in J. destruct (H n J) as (v & V). eapply K. exact V.
Qed.
Lemma cycle_keep f env te z z' n v :
  thermal_cycle f env te z = Ok z' -> mget n (z_cachedValuesByName z) = Some v ->
  exists v', mget n (z_cachedValuesByName z') = Some v'.
Proof.
  intros H E. apply thermal_cycle_split in H. destruct H as (z1 & z2 & H1 & F & _ & _ & _ & D).
  apply determine_frame in D. destruct D as (_ & _ & _ & _ & _ & V & _). rewrite V.
  change (z_cachedValuesByName z2) with (z_cachedValuesByName (set_thermals (z_thermals z1) z2)).
  rewrite (tf_cv _ _ F). eapply polls_keep; [exact H1|exact E].
Qed.

Lemma tick_good b f e l :
  ready (l_zone l) -> event_defined f (LTick e) ->
  (b = false -> full (l_zone l) /\ has_cache (l_zone l) /\
     all_known (tk_fan e) (z_fanInputs (l_zone l)) /\ all_known (tk_therm e) (z_thermalInputs (l_zone l)) /\
     all_writable (tk_write e) (z_fanInputs (l_zone l))) ->
  good b (loop_step f l (LTick e)).
Proof.
  intros R (W & T) H. cbn [loop_step]. unfold loop_tick. destruct (z_manualMode (l_zone l)); [exact I|].
  apply good_bind.
  - unfold updateFanTelemetry. apply good_bind; [|intros; exact I].
    match goal with |- good b (processSensorInputs f true _ (z_fanInputs ?w) _) =>
      assert (z_fanInputs w = z_fanInputs (l_zone l)) as ->
        by (unfold log_tokens; destruct (loggingEnabled f); reflexivity) end.
    apply polls_good. intros B. apply (H B).
  - intros z1 H1. assert (U := updateFanTelemetry_spec _ _ _ _ H1). destruct U as (C1 & _ & _ & K1 & _ & _ & V1 & _).
    assert (S1 := telemetry_sig _ _ _ _ H1).
    assert (R1 : ready z1).
    { eapply ready_frame; [exact S1| |exact R]. unfold ctls in K1. injection K1 as _ _ K1. rewrite K1. eauto. }
    assert (Ei : z_thermalInputs z1 = z_thermalInputs (l_zone l) /\ z_fanInputs z1 = z_fanInputs (l_zone l))
      by (use_conf C1; split; reflexivity).
    destruct Ei as (Ei1 & Ei2).
    assert (X1 : b = false -> full z1 /\ has_cache z1).
    { intros B. destruct (H B) as (Fu & Ha & Kf & _). split; [eapply full_frame; eauto|].
      eapply has_cache_frame; [exact C1| |exact Ha]. intros n v E. rewrite V1.
      destruct (smem n (z_fanInputs (l_zone l))) eqn:Sm; [|eauto]. apply smem_In in Sm.
      destruct (Kf n Sm) as (x & ->). cbn. eauto. }
    apply good_bind.
    + destruct (z_updateThermalsTimeMS z1 <=? l_cycleCnt l)%Z; [|exact I].
      apply good_bind; [|intros; exact I]. apply cycle_good; [exact (rd_obj _ R1)|exact T|].
      intros B. destruct (X1 B) as (Fu & Ha). split; [exact Fu|]. split; [exact Ha|]. rewrite Ei1. apply (H B).
    + intros [z2 cnt] H2. apply good_bind; [|intros; exact I].
      assert (G : (forall n p, mget n (z_pidsControlProcess z1) = Some p -> exists p', mget n (z_pidsControlProcess z2) = Some p') /\
        sig z2 = sig z1 /\ conf z2 = conf z1 /\
        (forall n v, mget n (z_cachedValuesByName z1) = Some v -> exists v', mget n (z_cachedValuesByName z2) = Some v')).
      { destruct (z_updateThermalsTimeMS z1 <=? l_cycleCnt l)%Z.
        - apply bind_ok in H2. destruct H2 as (z4 & H4 & H2). injection H2 as <- <-.
          assert (TF := thermal_cycle_frame _ _ _ _ _ H4). destruct TF as (Cc & _ & _ & _ & En & _).
          split; [apply obj_frame; exact En|]. split; [eapply cycle_sig; eauto|]. split; [exact Cc|].
          intros n v. eapply cycle_keep. exact H4.
        - injection H2 as <- <-. repeat split; eauto. }
      destruct G as (G1 & G2 & G3 & G4).
      assert (Ej : z_thermalInputs z2 = z_thermalInputs z1 /\ z_fanInputs z2 = z_fanInputs z1)
        by (use_conf G3; split; reflexivity). destruct Ej as (Ej1 & Ej2).
      apply fans_good; [eapply ready_frame; eauto|exact W|].
      intros B. destruct (X1 B) as (Fu & Ha). split; [eapply full_frame; eauto|].
      split; [eapply has_cache_frame; eauto|]. rewrite Ej2, Ei2. apply (H B).
Qed.

(** ** From the builder to every reachable state *)
Lemma partial_objs id c pids z : partial id c pids z -> objs z.
Proof.
  intros [[_ _ _ _ _ _ _ Fa Th _ _ _ Ob _] _ _].
  intros t J. destruct (Forall2_In_r _ _ _ _ Th J) as ([nm info] & I & (_ & K)).
  apply (Ob (thermal_id t)). apply in_map_iff. exists (nm, info). split; [|exact I].
  destruct t; cbn in *; destruct K as (_ & K & _); congruence.
Qed.
Lemma partial_ready id c pids z : partial id c pids z -> no_empty_fan_pid pids -> ready z.
Proof.
  intros P N. constructor; [eapply partial_objs; eauto|]. destruct P as [[_ _ _ _ _ _ _ Fa Th _ _ _ Ob _] _ _].
  intros J. destruct (Forall2_In_r _ _ _ _ Fa J) as (e & I & K). cbn in K.
    apply filter_In in I. destruct I as (I & B). exact (N e I B K).
Qed.

Lemma partial_full id c pids z : partial id c pids z -> zeros_finite pids -> full z.
Proof.
  intros [[_ _ _ _ _ _ _ Fa Th Fi _ Ti _ _] _ _] Zf. constructor.
  - intros t i J K. destruct (Forall2_In_r _ _ _ _ Th J) as ([nm info] & I & (_ & L)).
    apply filter_In in I. destruct I as (I & B). apply Ti. exists (nm, info). split; [exact I|]. split; [exact B|].
    unfold names_of. cbn [snd]. destruct t as [id0 i0 ty0 sp0 p0|id0 i0 c0]; cbn in K.
    + destruct L as (_ & _ & -> & _). apply in_map. exact K.
    + destruct L as (_ & _ & -> & _). apply in_map_iff in K. destruct K as (n & <- & K). exact K.
  - intros fc n J K. destruct (Forall2_In_r _ _ _ _ Fa J) as (e & I & (_ & _ & E & _)).
    rewrite Fi. apply in_flat_map. exists e. split; [exact I|]. rewrite <- E. exact K.
  - intros id0 inputs sp p i J K L. destruct (Forall2_In_r _ _ _ _ Th J) as ([nm info] & I & (_ & M)).
    destruct M as (M1 & _ & -> & _). apply filter_In in I. destruct I as (I & _).
    eapply (Zf (nm, info)); eauto.
Qed.

Lemma reachable_sig f z0 l : reachable f z0 l ->
  sig (l_zone l) = sig z0 /\
  (forall n p, mget n (z_pidsControlProcess z0) = Some p -> exists p', mget n (z_pidsControlProcess (l_zone l)) = Some p').
Proof.
  intros (env & te & now & l0 & evs & Hf & H0 & H1).
  assert (S0 := start_sig _ _ _ _ _ _ H0). assert (F0 := loop_start_frame _ _ _ _ _ _ H0).
  destruct F0 as (_ & _ & _ & En & _). assert (O0 := obj_frame _ _ En). clear En H0.
  unfold loop_run in H1. pattern l. eapply foldM_inv; [| |exact H1]; [|auto].
  intros s x s' _ (A & B) Hs. split; [rewrite (step_sig _ _ _ _ Hs); exact A|].
  intros n p E. destruct (B n p E) as (p1 & E1). assert (K := loop_step_enabled _ _ _ _ n Hs).
  rewrite E1 in K. destruct (mget n (z_pidsControlProcess (l_zone s'))) as [q|]; [eauto|].
  exfalso. destruct x as [e|bb|m bb]; cbn in K; try discriminate. destruct (String.eqb n m); discriminate.
Qed.

Lemma reachable_ready f z0 l : reachable f z0 l -> ready z0 -> ready (l_zone l).
Proof. intros R H. destruct (reachable_sig _ _ _ R) as (A & B). eapply ready_frame; eauto. Qed.
Lemma reachable_full f z0 l : reachable f z0 l -> full z0 -> full (l_zone l).
Proof.
  intros R H. destruct (reachable_sig _ _ _ R) as (A & _). destruct (reachable_inv _ _ _ R) as (C & _).
  eapply full_frame; eauto; use_conf C; reflexivity.
Qed.

Lemma start_good b f env te now z :
  fresh z -> objs z -> tuning_readable f te ->
  (b = false -> full z /\ all_known env (z_thermalInputs z)) ->
  good b (loop_start f env te now z).
Proof.
  intros Fr R T H. unfold loop_start. apply good_bind; [|intros; exact I].
  set (z1 := initializeLog f z). assert (Q : quiet_step z z1 []) by apply quiet_log.
  destruct Q as [Qc _ _ Qk Qf _ _ Qt]. destruct Fr as (Fs & Tr & _).
  destruct (initializeCache_frame z1) as (_ & K & _).
  assert (Ff : z_failSafeSensors z1 = []) by congruence.
  destruct (initializeCache_inv z1 Ff) as (_ & Ci & _).
  unfold ctls in K, Qk. injection K as Ka Kb Kc. injection Qk as Qa Qb Qd.
  assert (Sg : sig (initializeCache z1) = sig z) by (unfold sig; congruence).
  assert (Cc : conf (initializeCache z1) = conf z) by congruence.
  apply cycle_good; [eapply objs_frame; [exact Sg| |exact R]; intros n p E; exists p; congruence|exact T|].
  intros B. destruct (H B) as (Fu & Kn).
  assert (Ei : z_thermalInputs (initializeCache z1) = z_thermalInputs z /\ z_fanInputs (initializeCache z1) = z_fanInputs z)
    by (use_conf Cc; split; reflexivity). destruct Ei as (Ei1 & Ei2).
  split; [eapply full_frame; eauto|]. split; [|rewrite Ei1; exact Kn].
  intros n J. unfold initializeCache.
  match goal with |- context [fold_left initializeCache_thermal ?l ?w] =>
    destruct (init_thermal_cells l w n) as [E _] end.
  rewrite E. destruct (init_fan_cells (z_fanInputs z1) z1 n) as [E2 _]. 
  assert (Et : z_thermalInputs (fold_left initializeCache_fan (z_fanInputs z1) z1) = z_thermalInputs z1).
  { assert (I0 : init_inv [] z1).
    { split; [rewrite Ff; apply sorted_nil|]. intros m. rewrite Ff. reflexivity. }
    destruct (init_fold initializeCache_fan (or_introl eq_refl) (z_fanInputs z1) z1 [] I0) as (_ & Bc & _).
    use_conf Bc. reflexivity. }
  rewrite Et, E2. rewrite (is_inputb_conf _ _ _ Ci) in J. unfold is_inputb in J.
  destruct (smem n (z_thermalInputs z1)); [eauto|]. rewrite orb_false_r in J. rewrite J. eauto.
Qed.

(** ** C49 *)
Lemma NoDup_fst_eq {A B : Type} (l : list (A * B)) (k : A) (a b : B) :
  NoDup (map fst l) -> In (k, a) l -> In (k, b) l -> a = b.
Proof.
  induction l as [|[x y] r IH]; [intros _ []|]. cbn [map fst].
  intros N I J. apply NoDup_cons_iff in N. destruct N as (N1 & N2).
  destruct I as [E|I], J as [F|J].
  - congruence.
  - injection E as -> ->. exfalso. apply N1. apply in_map_iff. exists (k, b). auto.
  - injection F as -> ->. exfalso. apply N1. apply in_map_iff. exists (k, a). auto.
  - auto.
Qed.
Lemma built_unique bus_ok confs zp zs id z pids :
  buildZones bus_ok zp confs = Ok zs -> NoDup (map fst zp) -> In (id, pids) zp -> In (id, z) zs ->
  exists c, zget id confs = Some c /\ partial id c pids z.
Proof.
  intros H N J I. destruct (built_In _ _ _ _ _ _ H I) as (p & c & A & B & P).
  rewrite (NoDup_fst_eq _ _ _ _ N J A). eauto.
Qed.

Lemma C49_structure bus_ok zp confs zs :
  buildZones bus_ok zp confs = Ok zs ->
  map fst zs = map fst zp /\
  (NoDup (map fst zp) -> forall id pids z, In (id, pids) zp -> In (id, z) zs ->
    exists c, zget id confs = Some c /\ zone_of id pids c z).
Proof.
  intros H. split.
  - apply buildZones_ok in H. induction H as [|e r l m (E & _) _ IH]; [reflexivity|]. cbn. congruence.
  - intros N id pids z J I. destruct (built_unique _ _ _ _ _ _ _ H N J I) as (c & B & C). exists c.
    split; [exact B|]. apply C.
Qed.

Lemma sig_controllers f z0 l : reachable f z0 l ->
  map thermal_id (z_thermals (l_zone l)) = map thermal_id (z_thermals z0) /\
  map fsig (z_fans (l_zone l)) = map fsig (z_fans z0).
Proof.
  intros R. destruct (reachable_sig _ _ _ R) as (S & _). unfold sig in S. injection S as A B.
  split; [|exact B]. apply (f_equal (map (fun s => fst (fst s)))) in A. rewrite !map_map in A.
  rewrite (map_ext thermal_id (fun t => fst (fst (tsig t)))) by (intros; symmetry; apply tsig_id).
  rewrite A. apply map_ext. apply tsig_id.
Qed.

Lemma C49_persist bus_ok zp confs zs id pids z f l :
  buildZones bus_ok zp confs = Ok zs -> NoDup (map fst zp) -> In (id, pids) zp -> In (id, z) zs ->
  reachable f z l ->
    map thermal_id (z_thermals (l_zone l)) = map fst (filter is_thermal_pid pids) /\
    (no_empty_fan_pid pids ->
     map (option_map fan_id) (z_fans (l_zone l)) = map (fun e => Some (fst e)) (filter is_fan_pid pids)).
Proof.
  intros H ND A I R. destruct (built_unique _ _ _ _ _ _ _ H ND A I) as (c & B & [Z _ _]).
  destruct (sig_controllers _ _ _ R) as (S1 & S2). split.
  - rewrite S1. assert (T := zo_thermals _ _ _ _ Z). clear - T.
    induction T as [|e t l1 l2 K _ IH]; [reflexivity|]. cbn. rewrite IH. f_equal.
    destruct e as [nm info]. destruct K as (_ & K). destruct t; cbn in *; destruct K as (_ & K & _); congruence.
  - intros N. assert (E : map (option_map fan_id) (z_fans (l_zone l)) = map (option_map fan_id) (z_fans z)).
    { apply (f_equal (map (option_map fst))) in S2. rewrite !map_map in S2.
      rewrite (map_ext (option_map fan_id) (fun o => option_map fst (fsig o))) by (intros []; reflexivity).
      rewrite S2. apply map_ext. intros []; reflexivity. }
    rewrite E. assert (T := zo_fans _ _ _ _ Z).
    assert (NN : forall e, In e (filter is_fan_pid pids) -> ci_inputs (snd e) <> []).
    { intros e J. apply filter_In in J. apply N; tauto. }
    clear - T NN. induction T as [|e o l1 l2 K _ IH]; [reflexivity|]. cbn [map]. rewrite IH.
    + f_equal. destruct o as [c|]; cbn in *; [destruct K as (_ & K & _); congruence|].
      exfalso. apply (NN e); [left; reflexivity|exact K].
    + intros x J. apply NN. right. exact J.
Qed.

Lemma C49_once bus_ok zp confs zs id pids z f l env te z' evs :
  buildZones bus_ok zp confs = Ok zs -> NoDup (map fst zp) -> In (id, pids) zp -> In (id, z) zs ->
  reachable f z l ->
  thermal_cycle f env te (l_zone l) = Ok z' -> new_events (l_zone l) z' evs ->
  NoDup (reads_in evs) /\
    (forall n, In n (reads_in evs) <-> listed_by is_thermal_pid pids n).
Proof.
  intros H ND A I R T E. destruct (built_unique _ _ _ _ _ _ _ H ND A I) as (c & B & [Z _ _]).
  apply thermal_cycle_frame in T.
  destruct T as (_ & _ & _ & _ & _ & _ & (evs' & T & Rd & _)).
  unfold new_events in E. rewrite E in T. apply app_inv_tail in T. subst evs'.
  destruct (reachable_inv _ _ _ R) as (C & _).
  assert (Et : z_thermalInputs (l_zone l) = z_thermalInputs z) by (use_conf C; reflexivity).
  rewrite Rd, Et. split; [apply (zo_once _ _ _ _ Z)|apply (zo_thermalInputs _ _ _ _ Z)].
Qed.

Lemma C49_thermal bus_ok zp confs zs id z f l env te :
  buildZones bus_ok zp confs = Ok zs -> In (id, z) zs -> tuning_readable f te -> reachable f z l ->
  defined (thermal_cycle f env te (l_zone l)).
Proof.
  intros H I T R. destruct (built_In _ _ _ _ _ _ H I) as (p & c & A & B & P).
  apply good_defined. destruct (reachable_sig _ _ _ R) as (S & O).
  apply cycle_good; [eapply objs_frame; [exact S|exact O|eapply partial_objs; eauto]|exact T|discriminate].
Qed.

Lemma C49_defined bus_ok zp confs zs id pids z f :
  buildZones bus_ok zp confs = Ok zs -> NoDup (map fst zp) -> In (id, pids) zp -> In (id, z) zs ->
  no_empty_fan_pid pids ->
  (forall env te now, tuning_readable f te -> defined (loop_start f env te now z)) /\
  (forall l ev, reachable f z l -> event_defined f ev -> defined (loop_step f l ev)).
Proof.
  intros H ND A I N. destruct (built_unique _ _ _ _ _ _ _ H ND A I) as (c & B & P).
  assert (Rz := partial_ready _ _ _ _ P N). split.
  - intros env te now T. apply good_defined. apply start_good; [apply P|apply Rz|exact T|discriminate].
  - intros l ev R E. apply good_defined. destruct ev as [e|b|m b]; [|exact Logic.I|exact Logic.I].
    apply tick_good; [eapply reachable_ready; eauto|exact E|discriminate].
Qed.

Lemma C49_returns bus_ok zp confs zs id pids z f :
  buildZones bus_ok zp confs = Ok zs -> NoDup (map fst zp) -> In (id, pids) zp -> In (id, z) zs ->
  no_empty_fan_pid pids -> zeros_finite pids ->
  (forall env te now, tuning_readable f te ->
     all_known env (flat_map names_of (filter is_thermal_pid pids)) ->
     returns (loop_start f env te now z)) /\
  (forall l ev, reachable f z l -> event_defined f ev -> event_served pids ev ->
     returns (loop_step f l ev)).
Proof.
  intros H ND A I N1 N2. destruct (built_unique _ _ _ _ _ _ _ H ND A I) as (c & B & P).
  assert (Rz := partial_ready _ _ _ _ P N1). assert (Fz := partial_full _ _ _ _ P N2).
  destruct P as [Z _ _].
  assert (TI : forall env, all_known env (flat_map names_of (filter is_thermal_pid pids)) -> all_known env (z_thermalInputs z)).
  { intros env K n J. apply (zo_thermalInputs _ _ _ _ Z) in J. destruct J as (e & J1 & J2 & J3). apply K.
    apply in_flat_map. exists e. split; [apply filter_In; auto|exact J3]. }
  split.
  - intros env te now T K. apply good_returns. apply start_good; [apply Z|exact (rd_obj _ Rz)|exact T|].
    intros _. split; [exact Fz|]. apply TI. exact K.
  - intros l ev R E S. apply good_returns. destruct ev as [e|b|m b]; [|exact Logic.I|exact Logic.I].
    destruct S as (S1 & S2 & S3). destruct (reachable_inv _ _ _ R) as (C & _).
    assert (Ei : z_thermalInputs (l_zone l) = z_thermalInputs z /\ z_fanInputs (l_zone l) = z_fanInputs z)
      by (use_conf C; split; reflexivity). destruct Ei as (Ei1 & Ei2).
    apply tick_good; [eapply reachable_ready; eauto|exact E|].
    intros _. rewrite Ei1, Ei2, (zo_fanInputs _ _ _ _ Z).
    split; [eapply reachable_full; eauto|]. split; [apply cells_cache; eapply reachable_cells; eauto|].
    split; [exact S1|]. split; [apply TI; exact S2|exact S3].
Qed.

(** ** C58, C59 *)
Lemma maxopt_is_max l v : maxopt l = Some v -> Forall notnan l -> is_max_of v l.
Proof.
  destruct l as [|x r]; [discriminate|]. cbn. intros H F. injection H as <-. inversion F as [|y l' Hx Hr]; subst.
  split.
  - exists (fold_left dmax r x). split; [apply fold_dmax_in|]. apply deq_refl.
    apply fold_dmax_notnan. exact Hx.
  - intros y [<-|J] Ny; [apply fold_dmax_ge_start; exact Hx|apply fold_dmax_ge; assumption].
Qed.

Lemma C58_lemma bus_ok zp confs zs id pids z :
  buildZones bus_ok zp confs = Ok zs -> NoDup (map fst zp) -> In (id, pids) zp -> In (id, z) zs ->
  exists c, zget id confs = Some c /\
  forall n, Forall notnan (percents_for pids n) ->
    (percents_for pids n = [] -> own_percent z n = zc_failsafePercent c) /\
    (forall v, is_max_of v (percents_for pids n) ->
       (deq v d0 -> own_percent z n = zc_failsafePercent c) /\
       (~ deq v d0 -> deq (own_percent z n) v)).
Proof.
  intros H ND A I. destruct (built_unique _ _ _ _ _ _ _ H ND A I) as (c & B & [Z _ Pc]).
  exists c. split; [exact B|]. intros n F.
  unfold own_percent. rewrite (Pc n), (zo_percent _ _ _ _ Z). split.
  - intros ->. reflexivity.
  - intros v M. destruct (maxopt (percents_for pids n)) as [m|] eqn:E.
    + assert (Mm := maxopt_is_max _ _ E F).
      assert (Q : deq v m).
      { assert (NV : forall w, is_max_of w (percents_for pids n) -> notnan w /\ exists x, In x (percents_for pids n) /\ deq w x).
        { intros w ((x & J & K) & _). split; [|eauto]. apply (deq_notnan _ _ K). }
        destruct M as ((x & Jx & Kx) & Ux). destruct Mm as ((y & Jy & Ky) & Uy).
        rewrite Forall_forall in F. specialize (Uy x Jx (F x Jx)). specialize (Ux y Jy (F y Jy)).
        apply dle_antisym.
        - eapply dle_trans; [apply deq_le; exact Kx|exact Uy].
        - eapply dle_trans; [apply deq_le; exact Ky|exact Ux]. }
      split.
      * intros V0. assert (D : deqb m d0 = true) by (eapply deq_trans; [apply deq_sym; exact Q|exact V0]).
        rewrite D. reflexivity.
      * intros V0. destruct (deqb m d0) eqn:D; [|apply deq_sym; exact Q].
        exfalso. apply V0. eapply deq_trans; [exact Q|exact D].
    + destruct (percents_for pids n); [|discriminate]. destruct M as ((x & [] & _) & _).
Qed.

Lemma C59_lemma bus_ok zp confs zs id pids z n :
  buildZones bus_ok zp confs = Ok zs -> NoDup (map fst zp) -> In (id, pids) zp -> In (id, z) zs ->
  (acceptable z n <-> acceptable_in pids n).
Proof.
  intros H ND A I. destruct (built_unique _ _ _ _ _ _ _ H ND A I) as (c & B & [_ Ac _]). apply Ac.
Qed.
