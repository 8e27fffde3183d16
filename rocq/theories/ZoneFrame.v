(** * Which parts of a zone each method changes (proofs only). *)
From Coq Require Import ZArith Bool List String Lia.
From Verif Require Import Base BaseFacts Dbl PidModel ZoneModel LoopModel SpecZone.
Import ListNotations.
Local Open Scope string_scope.
Local Open Scope list_scope.

(** Groups of fields. *)
Definition conf (z : zone) :=
  (z_zoneId z, z_accumulateSetPoint z, z_minThermalOutputSetPt z, z_zoneFailSafePercent z,
   z_cycleIntervalTimeMS z, z_updateThermalsTimeMS z,
   (z_fanInputs z, z_thermalInputs z, z_missingAcceptable z, z_sensorFailSafePercent z)).
Definition mode (z : zone) := (z_manualMode z, z_redundantWrite z).
Definition sps (z : zone) :=
  (z_setPoints z, z_rpmCeilings z, z_maximumSetPoint z, z_maximumSetPointName z,
   z_maximumSetPointNamePrev z).
Definition ctls (z : zone) := (z_fans z, z_thermals z, z_pidsControlProcess z).

(** Rewrite configuration fields with an equation between [conf]s. *)
Ltac use_conf H :=
  let K := fresh "K" in pose proof H as K; unfold conf in K;
  injection K; clear K; intros;
  repeat match goal with
  | E : ?f ?a = ?f ?b |- context [?f ?a] => rewrite E
  end.

Ltac groups := unfold conf, mode, sps, ctls; simpl.

(** ** Traces *)
Lemma writes_app (a b : list event) : writes_in (a ++ b) = writes_in b ++ writes_in a.
Proof. unfold writes_in. rewrite rev_app_distr, flat_map_app. reflexivity. Qed.
Lemma reads_app (a b : list event) : reads_in (a ++ b) = reads_in b ++ reads_in a.
Proof. unfold reads_in. rewrite rev_app_distr, flat_map_app. reflexivity. Qed.
Lemma cycles_app (a b : list event) :
  thermal_cycles_in (a ++ b) = (thermal_cycles_in a + thermal_cycles_in b)%nat.
Proof. unfold thermal_cycles_in. rewrite filter_app, app_length. reflexivity. Qed.

(** Events that are neither polls nor writes nor cycle marks. *)
Definition plain (e : event) : bool :=
  match e with EvRead _ _ _ | EvWrite _ _ _ | EvThermalCycle => false | _ => true end.
Definition all_plain (l : list event) : Prop := forall e, In e l -> plain e = true.

Lemma plain_nil : all_plain [].
Proof. intros e []. Qed.
Lemma plain_cons e l : plain e = true -> all_plain l -> all_plain (e :: l).
Proof. intros H K x [<-|I]; auto. Qed.
Lemma plain_app a b : all_plain a -> all_plain b -> all_plain (a ++ b).
Proof. intros H K x I. apply in_app_or in I. destruct I; auto. Qed.
Lemma plain_one e : plain e = true -> all_plain [e].
Proof. intros H. apply plain_cons; auto using plain_nil. Qed.

Lemma plain_writes l : all_plain l -> writes_in l = [].
Proof.
  intros H. unfold writes_in. induction l as [|e r IH]; [reflexivity|].
  simpl rev. rewrite flat_map_app. rewrite IH by (intros x I; apply H; simpl; auto).
  specialize (H e (or_introl eq_refl)). destruct e; simpl in *; congruence.
Qed.
Lemma plain_reads l : all_plain l -> reads_in l = [].
Proof.
  intros H. unfold reads_in. induction l as [|e r IH]; [reflexivity|].
  simpl rev. rewrite flat_map_app. rewrite IH by (intros x I; apply H; simpl; auto).
  specialize (H e (or_introl eq_refl)). destruct e; simpl in *; congruence.
Qed.
Lemma plain_cycles l : all_plain l -> thermal_cycles_in l = 0%nat.
Proof.
  intros H. unfold thermal_cycles_in. induction l as [|e r IH]; [reflexivity|].
  simpl. assert (E := H e (or_introl eq_refl)).
  destruct e; simpl in *; try discriminate; apply IH; intros x I; apply H; simpl; auto.
Qed.
Lemma plain_last_poll n l tr : all_plain l -> last_poll n (l ++ tr) = last_poll n tr.
Proof.
  intros H. induction l as [|e r IH]; [reflexivity|].
  assert (E := H e (or_introl eq_refl)).
  destruct e; simpl in *; try discriminate; apply IH; intros x I; apply H; simpl; auto.
Qed.
Lemma writes_last_poll n l tr : (forall e, In e l -> match e with EvRead _ _ _ => False | _ => True end) ->
  last_poll n (l ++ tr) = last_poll n tr.
Proof.
  intros H. induction l as [|e r IH]; [reflexivity|].
  assert (E := H e (or_introl eq_refl)).
  destruct e; simpl in *; try tauto; apply IH; intros x I; apply H; simpl; auto.
Qed.

(** ** Effects of a step, as a record of facts *)

(** The step adds the events [evs] and nothing but events and CSV output. *)
Record quiet_step (z z' : zone) (evs : list event) : Prop := Quiet {
  qs_conf : conf z' = conf z;
  qs_mode : mode z' = mode z;
  qs_sps : sps z' = sps z;
  qs_ctls : ctls z' = ctls z;
  qs_fs : z_failSafeSensors z' = z_failSafeSensors z;
  qs_cv : z_cachedValuesByName z' = z_cachedValuesByName z;
  qs_fo : z_cachedFanOutputs z' = z_cachedFanOutputs z;
  qs_tr : z_trace z' = evs ++ z_trace z
}.

Lemma quiet_refl z : quiet_step z z [].
Proof. constructor; reflexivity. Qed.
Lemma quiet_trans z1 z2 z3 a b :
  quiet_step z1 z2 a -> quiet_step z2 z3 b -> quiet_step z1 z3 (b ++ a).
Proof.
  intros [] []. constructor; try congruence.
  rewrite qs_tr1, qs_tr0. apply app_assoc.
Qed.
Lemma quiet_emit z e : quiet_step z (emit e z) [e].
Proof. constructor; reflexivity. Qed.
Lemma quiet_log f ts z : quiet_step z (log_tokens f ts z) [].
Proof. unfold log_tokens. destruct (loggingEnabled f); constructor; reflexivity. Qed.

(** ** Polling one sensor *)

Definition expected_entry (z : zone) (n : string) (p : option (Z * sensor_view))
  : option (string * dbl) :=
  if smem n (z_missingAcceptable z) then None
  else match bad_reason p with Some r => Some (r, own_percent z n) | None => None end.

Definition fs_after_poll (z : zone) (n : string) (p : option (Z * sensor_view))
    (m : smap (string * dbl)) : smap (string * dbl) :=
  match bad_reason p with
  | Some r => if smem n (z_missingAcceptable z) then m else mset n (r, own_percent z n) m
  | None => mdel n m
  end.

Lemma mdel_absent {V : Type} (m : smap V) k : mmem k m = false -> mdel k m = m.
Proof.
  unfold mmem. induction m as [|[a b] r IH]; simpl; [reflexivity|].
  destruct (String.eqb k a); [discriminate|]. intros H. rewrite IH; auto.
Qed.

Lemma own_percent_eq z n :
  (let p := sensor_percent z n in if deqb p d0 then z_zoneFailSafePercent z else p) = own_percent z n.
Proof.
  unfold sensor_percent, own_percent.
  destruct (mget n (z_sensorFailSafePercent z)); [reflexivity|].
  reflexivity.
Qed.

(** Everything a poll of one sensor does. *)
Record poll_step (now : Z) (n : string) (v : sensor_view) (z z' : zone) : Prop := Poll {
  po_conf : conf z' = conf z;
  po_mode : mode z' = mode z;
  po_sps : sps z' = sps z;
  po_ctls : ctls z' = ctls z;
  po_fo : z_cachedFanOutputs z' = z_cachedFanOutputs z;
  po_cv : z_cachedValuesByName z' =
            mset n (Entry (sv_value v) (sv_unscaled v)) (z_cachedValuesByName z);
  po_fs : z_failSafeSensors z' = fs_after_poll z n (Some (now, v)) (z_failSafeSensors z);
  po_tr : exists evs, all_plain evs /\ z_trace z' = evs ++ EvRead n now v :: z_trace z
}.

Lemma mark_missing_spec n r z :
  exists e, plain e = true /\
  markSensorMissing n r z =
    emit e (if smem n (z_missingAcceptable z) then z
            else set_failSafeSensors (mset n (r, own_percent z n) (z_failSafeSensors z)) z).
Proof.
  unfold markSensorMissing, failsafe_log.
  destruct (smem n (z_missingAcceptable z)).
  - eexists; split; [|reflexivity]; reflexivity.
  - rewrite own_percent_eq. eexists; split; [|reflexivity]; reflexivity.
Qed.

Lemma poll_one f b env z n z' :
  processSensorInput f b env z n = Ok z' ->
  exists v, pe_sensor env n = Some v /\ poll_step (pe_now env) n v z z'.
Proof.
  unfold processSensorInput. destruct (pe_sensor env n) as [v|]; [|discriminate].
  intros H. exists v. split; [reflexivity|].
  remember (set_cachedValuesByName
              (mset n (Entry (sv_value v) (sv_unscaled v))
                 (z_cachedValuesByName (emit (EvRead n (pe_now env) v) z)))
              (emit (EvRead n (pe_now env) v) z)) as z1 eqn:E1.
  cbv zeta in H.
  match type of H with context [if b then ?x else z1] => remember (if b then x else z1) as z2 eqn:E2 end.
  assert (Q : quiet_step z1 z2 []).
  { subst z2. destruct b; [apply quiet_log|apply quiet_refl]. }
  clear E2. destruct Q as [Qc Qm Qs Qk Qf Qv Qo Qt].
  assert (Hfin : forall z3, 
     (exists evs, all_plain evs /\ z_trace z3 = evs ++ z_trace z2) ->
     conf z3 = conf z2 -> mode z3 = mode z2 -> sps z3 = sps z2 -> ctls z3 = ctls z2 ->
     z_cachedFanOutputs z3 = z_cachedFanOutputs z2 ->
     z_cachedValuesByName z3 = z_cachedValuesByName z2 ->
     z_failSafeSensors z3 = fs_after_poll z n (Some (pe_now env, v)) (z_failSafeSensors z) ->
     poll_step (pe_now env) n v z z3).
  { intros z3 (evs & P & T) Hc Hm Hs Hk Ho Hv Hf. constructor; try congruence.
    - rewrite Hc, Qc, E1. reflexivity.
    - rewrite Hm, Qm, E1. reflexivity.
    - rewrite Hs, Qs, E1. reflexivity.
    - rewrite Hk, Qk, E1. reflexivity.
    - rewrite Ho, Qo, E1. reflexivity.
    - rewrite Hv, Qv, E1. reflexivity.
    - exists evs. split; [exact P|]. rewrite T, Qt, E1. reflexivity. }
  assert (Fs2 : z_failSafeSensors z2 = z_failSafeSensors z) by (rewrite Qf, E1; reflexivity).
  assert (C2 : conf z2 = conf z) by (rewrite Qc, E1; reflexivity).
  assert (Ma2 : z_missingAcceptable z2 = z_missingAcceptable z)
    by (unfold conf in C2; congruence).
  assert (Op2 : own_percent z2 n = own_percent z n).
  { unfold own_percent. use_conf C2. reflexivity. }
  clear E1 Qc Qm Qs Qk Qf Qv Qo Qt.
  assert (Mark : forall r, bad_reason (Some (pe_now env, v)) = Some r ->
            poll_step (pe_now env) n v z (markSensorMissing n r z2)).
  { intros r Hr. destruct (mark_missing_spec n r z2) as (e & Pe & ->).
    apply Hfin; try (destruct (smem n (z_missingAcceptable z2)); reflexivity).
    - exists [e]. split; [apply plain_one; exact Pe|].
      destruct (smem n (z_missingAcceptable z2)); reflexivity.
    - unfold fs_after_poll. rewrite Hr, Ma2, Op2, Fs2.
      destruct (smem n (z_missingAcceptable z)); [exact Fs2|]. reflexivity. }
  unfold bad_reason in Mark. unfold bad_reason, timed_out in *.
  unfold whole_seconds in H.
  destruct (sv_failed v) eqn:Ef.
  { injection H as <-. apply Mark. reflexivity. }
  destruct (negb (sv_timeout v =? 0)%Z &&
            (sv_timeout v <=? Z.quot (pe_now env - sv_updated v) 1000000000)%Z)%bool eqn:Et.
  { injection H as <-. specialize (Mark _ eq_refl). destruct Mark as [M1 M2 M3 M4 M5 M6 M7 (evs & P & T)].
    constructor; auto. eexists (_ :: evs). split; [|simpl; rewrite T; reflexivity].
    apply plain_cons; [reflexivity|exact P]. }
  assert (Fa : fs_after_poll z n (Some (pe_now env, v)) (z_failSafeSensors z)
               = mdel n (z_failSafeSensors z)).
  { unfold fs_after_poll, bad_reason, timed_out. rewrite Ef, Et. reflexivity. }
  rewrite Fs2 in H.
  destruct (mmem n (z_failSafeSensors z)) eqn:Em.
  - injection H as <-. apply Hfin; try reflexivity.
    + eexists [_]. split; [|reflexivity]. apply plain_one; reflexivity.
    + rewrite Fa. simpl. reflexivity.
  - injection H as <-. apply Hfin; try reflexivity.
    + exists []. split; [apply plain_nil|reflexivity].
    + rewrite Fa, mdel_absent by exact Em. exact Fs2.
Qed.

(** ** Polling a list of sensors *)

Lemma polls_frame f b env l z z' :
  processSensorInputs f b env l z = Ok z' ->
  conf z' = conf z /\ mode z' = mode z /\ sps z' = sps z /\ ctls z' = ctls z /\
  z_cachedFanOutputs z' = z_cachedFanOutputs z.
Proof.
  unfold processSensorInputs. intros H.
  pattern z'. eapply foldM_inv; [| |exact H]; [|repeat split].
  intros s x s' _ (A & B & C & E & F) Hx.
  apply poll_one in Hx. destruct Hx as (v & _ & []).
  repeat split; congruence.
Qed.

Lemma polls_trace f b env l z z' :
  processSensorInputs f b env l z = Ok z' ->
  exists evs, z_trace z' = evs ++ z_trace z /\ reads_in evs = l /\ writes_in evs = [] /\
    thermal_cycles_in evs = 0%nat.
Proof.
  unfold processSensorInputs. revert z. induction l as [|n r IH]; intros z H; simpl in H.
  - injection H as <-. exists []. repeat split.
  - apply bind_ok in H. destruct H as (z1 & H1 & H2).
    apply poll_one in H1. destruct H1 as (v & _ & []).
    destruct po_tr0 as (e1 & P & T). destruct (IH _ H2) as (e2 & T2 & R & W & C).
    exists (e2 ++ e1 ++ [EvRead n (pe_now env) v]). repeat split.
    + rewrite T2, T. rewrite <- !app_assoc. reflexivity.
    + rewrite !reads_app, R, (plain_reads e1 P). reflexivity.
    + rewrite !writes_app, W, (plain_writes e1 P). reflexivity.
    + rewrite !cycles_app, C, (plain_cycles e1 P). reflexivity.
Qed.

Lemma polls_cache f b env l z z' :
  processSensorInputs f b env l z = Ok z' ->
  forall n, mget n (z_cachedValuesByName z') =
    if smem n l
    then option_map (fun v => Entry (sv_value v) (sv_unscaled v)) (pe_sensor env n)
    else mget n (z_cachedValuesByName z).
Proof.
  unfold processSensorInputs. revert z. induction l as [|x r IH]; intros z H n; simpl in H.
  - injection H as <-. reflexivity.
  - apply bind_ok in H. destruct H as (z1 & H1 & H2).
    apply poll_one in H1. destruct H1 as (v & Ev & []).
    rewrite (IH _ H2 n). simpl. rewrite po_cv0, mget_mset.
    destruct (String.eqb_spec n x) as [E|E].
    + subst x. rewrite Ev. destruct (smem n r); reflexivity.
    + reflexivity.
Qed.

Lemma polls_sensors f b env l z z' :
  processSensorInputs f b env l z = Ok z' ->
  forall n, In n l -> exists v, pe_sensor env n = Some v.
Proof.
  unfold processSensorInputs. revert z. induction l as [|x r IH]; intros z H n I; simpl in *; [tauto|].
  apply bind_ok in H. destruct H as (z1 & H1 & H2).
  apply poll_one in H1. destruct H1 as (v & Ev & _).
  destruct I as [<-|I]; [eauto|]. eapply IH; eauto.
Qed.

(** ** The failsafe invariant (C17) *)

Definition is_inputb (z : zone) (n : string) : bool :=
  smem n (z_fanInputs z) || smem n (z_thermalInputs z).

Definition fs_inv (z : zone) : Prop :=
  sorted_map (z_failSafeSensors z) /\
  forall n, mget n (z_failSafeSensors z) =
    if is_inputb z n then expected_entry z n (last_poll n (z_trace z)) else None.

Lemma own_percent_conf z z' n : conf z' = conf z -> own_percent z' n = own_percent z n.
Proof. unfold own_percent. intros H. use_conf H. reflexivity. Qed.
Lemma is_inputb_conf z z' n : conf z' = conf z -> is_inputb z' n = is_inputb z n.
Proof. unfold is_inputb. intros H. use_conf H. reflexivity. Qed.
Lemma expected_conf z z' n p : conf z' = conf z -> expected_entry z' n p = expected_entry z n p.
Proof.
  intros H. unfold expected_entry. rewrite (own_percent_conf _ _ _ H).
  use_conf H. reflexivity.
Qed.

Lemma fs_inv_frame z z' evs :
  fs_inv z -> conf z' = conf z -> z_failSafeSensors z' = z_failSafeSensors z ->
  z_trace z' = evs ++ z_trace z -> reads_in evs = [] -> fs_inv z'.
Proof.
  intros [S I] Hc Hf Ht Hr. split; [congruence|]. intros n.
  rewrite Hf, I, (is_inputb_conf _ _ _ Hc), (expected_conf _ _ _ _ Hc), Ht.
  rewrite writes_last_poll; [reflexivity|].
  intros e Ie. destruct e; auto. 
  assert (In sensor (reads_in evs)); [|rewrite Hr in H; exact H].
  unfold reads_in. apply in_flat_map. eexists. split; [apply in_rev; rewrite rev_involutive; exact Ie|].
  simpl. auto.
Qed.

Lemma fs_inv_poll now n v z z' :
  is_inputb z n = true -> fs_inv z -> poll_step now n v z z' -> fs_inv z'.
Proof.
  intros In_ [S I] []. destruct po_tr0 as (evs & P & T). split.
  - rewrite po_fs0. unfold fs_after_poll.
    destruct (bad_reason _); [destruct (smem _ _); auto using sorted_mset|apply sorted_mdel; auto].
  - intros m. rewrite (is_inputb_conf _ _ _ po_conf0), (expected_conf _ _ _ _ po_conf0).
    rewrite T, plain_last_poll by exact P. simpl. rewrite po_fs0. unfold fs_after_poll.
    destruct (String.eqb_spec m n) as [E|E].
    + subst m. rewrite In_. unfold expected_entry.
      destruct (bad_reason (Some (now, v))) as [r|] eqn:B.
      * destruct (smem n (z_missingAcceptable z)) eqn:A.
        -- rewrite I, In_. unfold expected_entry. rewrite A. reflexivity.
        -- apply mget_mset_same.
      * rewrite mget_mdel, String.eqb_refl. destruct (smem n (z_missingAcceptable z)); reflexivity.
    + assert (N : String.eqb m n = false) by (apply String.eqb_neq; exact E).
      rewrite <- I. destruct (bad_reason (Some (now, v))).
      * destruct (smem n (z_missingAcceptable z)); [reflexivity|].
        rewrite mget_mset, N. reflexivity.
      * rewrite mget_mdel, N. reflexivity.
Qed.

Lemma fs_inv_polls f b env l z z' :
  (forall n, In n l -> is_inputb z n = true) -> fs_inv z ->
  processSensorInputs f b env l z = Ok z' -> fs_inv z'.
Proof.
  intros L I H. unfold processSensorInputs in H.
  assert (G : fs_inv z' /\ conf z' = conf z); [|tauto].
  pattern z'. eapply foldM_inv; [| |exact H]; [|split; auto].
  intros s x s' Ix (A & B) Hx. apply poll_one in Hx. destruct Hx as (v & _ & Hp).
  split; [|destruct Hp; congruence].
  eapply fs_inv_poll; [|exact A|exact Hp].
  rewrite (is_inputb_conf _ _ _ B). auto.
Qed.

(** ** Start-up *)

Definition init_inv (done : list string) (z : zone) : Prop :=
  sorted_map (z_failSafeSensors z) /\
  forall n, mget n (z_failSafeSensors z) =
    if smem n done then expected_entry z n None else None.

Lemma init_step (z : zone) (n : string) (done : list string) g :
  g = initializeCache_fan \/ g = initializeCache_thermal ->
  init_inv done z ->
  init_inv (done ++ [n]) (g z n) /\ conf (g z n) = conf z /\
  (exists evs, all_plain evs /\ z_trace (g z n) = evs ++ z_trace z).
Proof.
  intros Hg [S I].
  assert (exists z1, conf z1 = conf z /\ z_failSafeSensors z1 = z_failSafeSensors z /\
            z_trace z1 = z_trace z /\ g z n = markSensorMissing n "" z1) as (z1 & C1 & F1 & T1 & ->).
  { destruct Hg as [->| ->]; eexists; (split; [|split; [|split; [|reflexivity]]]); reflexivity. }
  destruct (mark_missing_spec n "" z1) as (e & Pe & ->).
  assert (Ma : z_missingAcceptable z1 = z_missingAcceptable z) by (unfold conf in C1; injection C1; intros; assumption).
  rewrite Ma, (own_percent_conf _ _ _ C1), F1.
  split; [|split].
  - split.
    + destruct (smem n (z_missingAcceptable z)); simpl; [rewrite F1; exact S|].
      apply sorted_mset. exact S.
    + intros m. rewrite smem_app. simpl.
      assert (Ex : expected_entry z m None = expected_entry (emit e
          (if smem n (z_missingAcceptable z) then z1 else
           set_failSafeSensors (mset n ("", own_percent z n) (z_failSafeSensors z)) z1)) m None).
      { symmetry. apply expected_conf. transitivity (conf z1); [|exact C1].
        destruct (smem n (z_missingAcceptable z)); reflexivity. }
      rewrite <- Ex. unfold expected_entry, bad_reason.
      destruct (smem n (z_missingAcceptable z)) eqn:A; simpl.
      * rewrite F1, I. unfold expected_entry, bad_reason.
        destruct (String.eqb_spec m n) as [E|E].
        -- subst m. rewrite A. destruct (smem n done); reflexivity.
        -- rewrite orb_false_r. reflexivity.
      * rewrite mget_mset. destruct (String.eqb_spec m n) as [E|E].
        -- subst m. rewrite orb_true_r, A. reflexivity.
        -- rewrite orb_false_r. rewrite I. unfold expected_entry, bad_reason. reflexivity.
  - transitivity (conf z1); [|exact C1]. destruct (smem n (z_missingAcceptable z)); reflexivity.
  - exists [e]. split; [apply plain_one; exact Pe|].
    destruct (smem n (z_missingAcceptable z)); simpl; rewrite T1; reflexivity.
Qed.

Lemma init_fold g (Hg : g = initializeCache_fan \/ g = initializeCache_thermal) l : forall z done,
  init_inv done z ->
  init_inv (done ++ l) (fold_left g l z) /\ conf (fold_left g l z) = conf z /\
  (exists evs, all_plain evs /\ z_trace (fold_left g l z) = evs ++ z_trace z).
Proof.
  induction l as [|n r IH]; intros z done H; simpl.
  - rewrite app_nil_r. split; [exact H|]. split; [reflexivity|]. exists []. split; [apply plain_nil|reflexivity].
  - destruct (init_step z n done g Hg H) as (A & B & (e1 & P1 & T1)).
    destruct (IH _ _ A) as (A' & B' & (e2 & P2 & T2)).
    rewrite <- app_assoc in A'. split; [exact A'|]. split; [congruence|].
    exists (e2 ++ e1). split; [apply plain_app; auto|]. rewrite T2, T1. apply app_assoc.
Qed.

Lemma initializeCache_inv z : z_failSafeSensors z = [] ->
  init_inv (z_fanInputs z ++ z_thermalInputs z) (initializeCache z) /\
  conf (initializeCache z) = conf z /\
  (exists evs, all_plain evs /\ z_trace (initializeCache z) = evs ++ z_trace z).
Proof.
  intros H. unfold initializeCache.
  assert (H0 : init_inv [] z).
  { split; [rewrite H; apply sorted_nil|]. intros n. rewrite H. reflexivity. }
  destruct (init_fold initializeCache_fan (or_introl eq_refl) (z_fanInputs z) z [] H0) as (A & B & (e1 & P1 & T1)).
  simpl in A.
  assert (Et : z_thermalInputs (fold_left initializeCache_fan (z_fanInputs z) z) = z_thermalInputs z).
  { unfold conf in B. injection B; intros; assumption. }
  destruct (init_fold initializeCache_thermal (or_intror eq_refl)
              (z_thermalInputs (fold_left initializeCache_fan (z_fanInputs z) z)) _ _ A) as (A' & B' & (e2 & P2 & T2)).
  rewrite Et in *. split; [exact A'|]. split; [congruence|].
  exists (e2 ++ e1). split; [apply plain_app; auto|]. rewrite T2, T1. apply app_assoc.
Qed.

Lemma last_poll_none_plain n l : all_plain l -> last_poll n l = None.
Proof. intros H. rewrite <- (app_nil_r l). rewrite plain_last_poll by exact H. reflexivity. Qed.

Lemma initializeCache_fs_inv z : z_failSafeSensors z = [] -> z_trace z = [] -> fs_inv (initializeCache z).
Proof.
  intros H Ht. destruct (initializeCache_inv z H) as ([S I] & C & (evs & P & T)).
  split; [exact S|]. intros n. rewrite I, smem_app, (is_inputb_conf _ _ _ C).
  rewrite T, Ht, app_nil_r, (last_poll_none_plain _ _ P). reflexivity.
Qed.

(** Start-up does not touch modes, controllers or setpoints. *)
Lemma init_frame1 g (Hg : g = initializeCache_fan \/ g = initializeCache_thermal) z n :
  mode (g z n) = mode z /\ ctls (g z n) = ctls z /\ sps (g z n) = sps z.
Proof.
  destruct Hg as [->| ->]; unfold initializeCache_fan, initializeCache_thermal.
  - match goal with |- context [markSensorMissing n "" ?w] =>
      destruct (mark_missing_spec n "" w) as (e & _ & ->); destruct (smem n (z_missingAcceptable w)) end;
    repeat split.
  - match goal with |- context [markSensorMissing n "" ?w] =>
      destruct (mark_missing_spec n "" w) as (e & _ & ->); destruct (smem n (z_missingAcceptable w)) end;
    repeat split.
Qed.
Lemma init_frame g (Hg : g = initializeCache_fan \/ g = initializeCache_thermal) l z :
  mode (fold_left g l z) = mode z /\ ctls (fold_left g l z) = ctls z /\ sps (fold_left g l z) = sps z.
Proof.
  revert z. induction l as [|n r IH]; intros z; simpl; [auto|].
  destruct (init_frame1 g Hg z n) as (A & B & C). destruct (IH (g z n)) as (A' & B' & C').
  repeat split; congruence.
Qed.
Lemma initializeCache_frame z :
  mode (initializeCache z) = mode z /\ ctls (initializeCache z) = ctls z /\
  sps (initializeCache z) = sps z.
Proof.
  unfold initializeCache.
  destruct (init_frame initializeCache_fan (or_introl eq_refl) (z_fanInputs z) z) as (A & B & C).
  match goal with |- context [fold_left initializeCache_thermal ?l ?w] =>
    destruct (init_frame initializeCache_thermal (or_intror eq_refl) l w) as (A' & B' & C') end.
  repeat split; congruence.
Qed.
