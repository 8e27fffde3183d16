(** * Proofs about the messages (C75-C78). *)
From Coq Require Import ZArith Bool List String Lia.
From Verif Require Import Base BaseFacts Dbl DblFacts DblOrder SensorModel SensorProofs PidModel ZoneModel LoopModel
  SpecZone SpecObserve ZoneFrame ZoneThermal ZoneFan ZoneProofs LoopProofs.
Import ListNotations.
Local Open Scope string_scope.
Local Open Scope list_scope.
Local Arguments pid_process : simpl never.
Local Arguments stepwise_process : simpl never.

(** ** Projections of traces *)
Lemma modes_app a b : modes_in (a ++ b) = modes_in b ++ modes_in a.
Proof. unfold modes_in. rewrite rev_app_distr, flat_map_app. reflexivity. Qed.
Lemma requesters_app a b : requesters_in (a ++ b) = requesters_in b ++ requesters_in a.
Proof. unfold requesters_in. rewrite rev_app_distr, flat_map_app. reflexivity. Qed.
Lemma attempts_app a b : attempts_in (a ++ b) = attempts_in b ++ attempts_in a.
Proof. unfold attempts_in. rewrite rev_app_distr, flat_map_app. reflexivity. Qed.

Definition is_poll_ev (e : event) : bool :=
  match e with EvRead _ _ _ | EvFailsafeLog _ _ _ _ => true | _ => false end.
Definition is_fan_ev (e : event) : bool :=
  match e with EvWrite _ _ _ | EvFanMode _ _ _ _ => true | _ => false end.
Definition is_det_ev (e : event) : bool :=
  match e with EvRequester _ _ _ _ | EvFileError _ _ => true | _ => false end.
Definition only (k : event -> bool) (l : list event) : Prop := forall e, In e l -> k e = true.

Lemma only_nil k : only k [].
Proof. intros e []. Qed.
Lemma only_cons k e l : k e = true -> only k l -> only k (e :: l).
Proof. intros H K x [<-|I]; auto. Qed.
Lemma only_app k a b : only k a -> only k b -> only k (a ++ b).
Proof. intros H K x I. apply in_app_or in I. destruct I; auto. Qed.

Lemma flat_map_only {A : Type} (g : event -> list A) k l :
  (forall e, k e = true -> g e = []) -> only k l -> flat_map g (rev l) = [].
Proof.
  intros G H. induction l as [|e r IH]; [reflexivity|]. cbn [rev]. rewrite flat_map_app. cbn.
  rewrite IH, G; [reflexivity| |]; [apply H; left; reflexivity|]. intros x I. apply H. right. exact I.
Qed.

Lemma poll_modes l : only is_poll_ev l -> modes_in l = [].
Proof. apply flat_map_only. intros []; cbn; congruence. Qed.
Lemma poll_requesters l : only is_poll_ev l -> requesters_in l = [].
Proof. apply flat_map_only. intros []; cbn; congruence. Qed.
Lemma fan_requesters l : only is_fan_ev l -> requesters_in l = [].
Proof. apply flat_map_only. intros []; cbn; congruence. Qed.
Lemma fan_attempts l : only is_fan_ev l -> attempts_in l = [].
Proof. apply flat_map_only. intros []; cbn; congruence. Qed.
Lemma det_modes l : only is_det_ev l -> modes_in l = [].
Proof. apply flat_map_only. intros []; cbn; congruence. Qed.
Lemma det_attempts l : only is_det_ev l -> attempts_in l = [].
Proof. apply flat_map_only. intros []; cbn; congruence. Qed.

Lemma expected_other z0 k l tr : (forall e, k e = true -> match e with EvRead _ _ _ => False | _ => True end) ->
  only k l -> expected_attempts z0 (l ++ tr) = expected_attempts z0 tr.
Proof.
  intros K H. induction l as [|e r IH]; [reflexivity|]. cbn [app expected_attempts].
  assert (E := K e (H e (or_introl eq_refl))).
  assert (R : expected_attempts z0 (r ++ tr) = expected_attempts z0 tr)
    by (apply IH; intros x I; apply H; right; exact I).
  destruct e; try exact R. destruct E.
Qed.
Lemma last_requester_other k l tr :
  (forall e, k e = true -> match e with EvRequester _ _ _ _ => False | _ => True end) ->
  only k l -> last_requester (l ++ tr) = last_requester tr.
Proof.
  intros K H. induction l as [|e r IH]; [reflexivity|]. cbn [app last_requester].
  assert (E := K e (H e (or_introl eq_refl))).
  assert (R : last_requester (r ++ tr) = last_requester tr)
    by (apply IH; intros x I; apply H; right; exact I).
  destruct e; try exact R. destruct E.
Qed.
Lemma last_poll_other n k l tr : (forall e, k e = true -> match e with EvRead _ _ _ => False | _ => True end) ->
  only k l -> last_poll n (l ++ tr) = last_poll n tr.
Proof.
  intros K H. induction l as [|e r IH]; [reflexivity|]. cbn [app last_poll].
  assert (E := K e (H e (or_introl eq_refl))).
  assert (R : last_poll n (r ++ tr) = last_poll n tr)
    by (apply IH; intros x I; apply H; right; exact I).
  destruct e; try exact R. destruct E.
Qed.

(** ** Polls *)
Definition is_log_ev (e : event) : bool := match e with EvFailsafeLog _ _ _ _ => true | _ => false end.

(** Logs of one poll, given the state after it. *)
Lemma poll_logs f b env z n z' :
  processSensorInput f b env z n = Ok z' ->
  exists v logs, pe_sensor env n = Some v /\ only is_log_ev logs /\
    z_trace z' = logs ++ EvRead n (pe_now env) v :: z_trace z /\
    attempts_in logs =
      (let w t := (z_zoneId z, getFailSafeMode z', n, t) in
       if sv_failed v then [w (missing_text z n)]
       else if timed_out (pe_now env) v then [w (missing_text z n); w "The sensor has timed out."]
       else if mmem n (z_failSafeSensors z) then [w "The sensor has recovered."] else []).
Proof.
  unfold processSensorInput. destruct (pe_sensor env n) as [v|]; [|discriminate].
  intros H. exists v.
  set (z1 := set_cachedValuesByName _ (emit (EvRead n (pe_now env) v) z)) in *.
  match type of H with (if sv_failed v then Ok (markSensorMissing n _ ?w) else _) = _ => set (z2 := w) in * end.
  assert (Q : quiet_step z1 z2 []).
  { unfold z2. destruct b; [apply quiet_log|apply quiet_refl]. }
  destruct Q as [Qc _ _ _ Qf _ _ Qt]. cbn [app] in Qt.
  assert (T2 : z_trace z2 = EvRead n (pe_now env) v :: z_trace z) by (rewrite Qt; reflexivity).
  assert (F2 : z_failSafeSensors z2 = z_failSafeSensors z) by (rewrite Qf; reflexivity).
  assert (C2 : conf z2 = conf z) by (rewrite Qc; reflexivity).
  assert (I2 : z_zoneId z2 = z_zoneId z) by (use_conf C2; reflexivity).
  assert (A2 : z_missingAcceptable z2 = z_missingAcceptable z) by (use_conf C2; reflexivity).
  assert (M : forall r, exists z3, markSensorMissing n r z2 =
     emit (EvFailsafeLog (z_zoneId z) (getFailSafeMode z3) n (missing_text z n)) z3 /\
     z_trace z3 = EvRead n (pe_now env) v :: z_trace z /\ z_zoneId z3 = z_zoneId z).
  { intros r. unfold markSensorMissing, failsafe_log, missing_text. rewrite A2.
    destruct (smem n (z_missingAcceptable z)).
    - exists z2. rewrite <- I2. auto.
    - eexists (set_failSafeSensors _ z2). rewrite <- I2. split; [reflexivity|].
      split; [exact T2|reflexivity]. }
  unfold timed_out. unfold whole_seconds in H.
  destruct (sv_failed v).
  - destruct (M (sv_reason v)) as (z3 & E & T3 & _). rewrite E in H. injection H as <-.
    exists [EvFailsafeLog (z_zoneId z) (getFailSafeMode z3) n (missing_text z n)].
    split; [reflexivity|]. split; [repeat (apply only_cons; [reflexivity|]); apply only_nil|].
    split; [cbn [app z_trace emit set_trace]; rewrite T3; reflexivity|]. reflexivity.
  - destruct (negb (sv_timeout v =? 0)%Z && (sv_timeout v <=? Z.quot (pe_now env - sv_updated v) 1000000000)%Z)%bool.
    + destruct (M "Sensor timeout") as (z3 & E & T3 & I3). rewrite E in H. injection H as <-.
      exists [EvFailsafeLog (z_zoneId z) (getFailSafeMode z3) n "The sensor has timed out.";
              EvFailsafeLog (z_zoneId z) (getFailSafeMode z3) n (missing_text z n)].
      split; [reflexivity|]. split; [repeat (apply only_cons; [reflexivity|]); apply only_nil|].
      split; [|reflexivity]. unfold failsafe_log.
      change (z_zoneId (emit (EvFailsafeLog (z_zoneId z) (getFailSafeMode z3) n (missing_text z n)) z3)) with (z_zoneId z3).
      cbn [app z_trace emit set_trace]. rewrite T3, I3. reflexivity.
    + rewrite F2 in H. destruct (mmem n (z_failSafeSensors z)).
      * injection H as <-.
        exists [EvFailsafeLog (z_zoneId z) (getFailSafeMode (set_failSafeSensors (mdel n (z_failSafeSensors z)) z2)) n
                  "The sensor has recovered."].
        split; [reflexivity|].
        split; [repeat (apply only_cons; [reflexivity|]); apply only_nil|].
        split; [|reflexivity]. unfold failsafe_log.
        change (z_zoneId (set_failSafeSensors (mdel n (z_failSafeSensors z)) z2)) with (z_zoneId z2).
        cbn [app z_trace emit set_trace set_failSafeSensors]. rewrite T2, I2. reflexivity.
      * injection H as <-. exists []. split; [reflexivity|]. split; [apply only_nil|]. split; [exact T2|reflexivity].
Qed.

Lemma polls_events f b env l z z' :
  processSensorInputs f b env l z = Ok z' ->
  exists evs, z_trace z' = evs ++ z_trace z /\ only is_poll_ev evs.
Proof.
  unfold processSensorInputs. revert z. induction l as [|n r IH]; intros z H; cbn [foldM] in H.
  - injection H as <-. exists []. split; [reflexivity|apply only_nil].
  - apply bind_ok in H. destruct H as (z1 & H1 & H2).
    apply poll_logs in H1. destruct H1 as (v & logs & _ & O & T & _).
    destruct (IH _ H2) as (e2 & T2 & O2). exists (e2 ++ logs ++ [EvRead n (pe_now env) v]).
    split; [rewrite T2, T, <- !app_assoc; reflexivity|].
    apply only_app; [exact O2|]. apply only_app; [|apply only_cons; [reflexivity|apply only_nil]].
    intros e I. specialize (O e I). destruct e; cbn in *; congruence.
Qed.

(** ** C78 *)
Lemma in_failsafe_iff z0 z : conf z = conf z0 -> fs_inv z ->
  getFailSafeMode z = in_failsafe z0 (z_trace z).
Proof.
  intros C I. apply eq_true_iff_eq. rewrite (fs_mode z I). destruct I as [_ I]. unfold in_failsafe.
  rewrite existsb_exists. split.
  - intros (n & e & E). rewrite I, (is_inputb_conf _ _ _ C), (expected_conf _ _ _ _ C) in E.
    unfold is_inputb, expected_entry in E. exists n.
    destruct (smem n (z_fanInputs z0) || smem n (z_thermalInputs z0)) eqn:Ei; [|discriminate].
    split.
    + apply in_or_app. apply orb_true_iff in Ei. rewrite <- !smem_In. exact Ei.
    + destruct (smem n (z_missingAcceptable z0)); [discriminate|].
      destruct (bad_reason (last_poll n (z_trace z))); [reflexivity|discriminate].
  - intros (n & Hn & B). apply andb_true_iff in B. destruct B as [B1 B2]. exists n.
    destruct (bad_reason (last_poll n (z_trace z))) as [r|] eqn:Er; [|discriminate].
    exists (r, own_percent z0 n). rewrite I, (is_inputb_conf _ _ _ C), (expected_conf _ _ _ _ C).
    unfold is_inputb, expected_entry. rewrite Er.
    assert (smem n (z_fanInputs z0) || smem n (z_thermalInputs z0) = true) as ->.
    { apply orb_true_iff. apply in_app_or in Hn. rewrite !smem_In. exact Hn. }
    destruct (smem n (z_missingAcceptable z0)); [discriminate|reflexivity].
Qed.

Lemma in_failsafe_other z0 k l tr : (forall e, k e = true -> match e with EvRead _ _ _ => False | _ => True end) ->
  only k l -> in_failsafe z0 (l ++ tr) = in_failsafe z0 tr.
Proof.
  intros K O. unfold in_failsafe. induction (z_fanInputs z0 ++ z_thermalInputs z0) as [|n r IH]; [reflexivity|].
  cbn [existsb]. rewrite IH, (last_poll_other n k l tr K O). reflexivity.
Qed.

Lemma missing_text_conf z z0 n : conf z = conf z0 -> missing_text z n = missing_text z0 n.
Proof. intros C. unfold missing_text. use_conf C. reflexivity. Qed.

(** What holds of every state. *)
Record msg_inv (z0 z : zone) : Prop := MsgInv {
  mi_conf : conf z = conf z0;
  mi_fs : fs_inv z;
  mi_attempts : attempts_in (z_trace z) = expected_attempts z0 (z_trace z);
  mi_prev : z_maximumSetPointNamePrev z0 = "" -> z_maximumSetPointNamePrev z = last_requester (z_trace z)
}.

Lemma log_not_read e : is_log_ev e = true -> match e with EvRead _ _ _ => False | _ => True end.
Proof. destruct e; cbn; congruence || auto. Qed.

Lemma msg_poll z0 f b env z n z' :
  is_inputb z0 n = true -> msg_inv z0 z -> processSensorInput f b env z n = Ok z' -> msg_inv z0 z'.
Proof.
  intros In_ [C I A P] H. assert (H' := H). apply poll_one in H'. destruct H' as (v & Ev & Hp).
  assert (I' : fs_inv z').
  { eapply fs_inv_poll; [|exact I|exact Hp]. rewrite (is_inputb_conf _ _ _ C). exact In_. }
  assert (C' : conf z' = conf z0) by (destruct Hp; congruence).
  apply poll_logs in H. destruct H as (v' & logs & Ev' & O & T & L).
  assert (v' = v) by congruence. subst v'.
  assert (G : getFailSafeMode z' = in_failsafe z0 (EvRead n (pe_now env) v :: z_trace z)).
  { rewrite (in_failsafe_iff z0 z' C' I'), T. apply (in_failsafe_other z0 is_log_ev); [exact log_not_read|exact O]. }
  assert (Mm : mmem n (z_failSafeSensors z) = negb (smem n (z_missingAcceptable z0)) &&
     match bad_reason (last_poll n (z_trace z)) with Some _ => true | None => false end).
  { unfold mmem. destruct I as [_ I]. rewrite I, (is_inputb_conf _ _ _ C), (expected_conf _ _ _ _ C), In_.
    unfold expected_entry. destruct (smem n (z_missingAcceptable z0)); [reflexivity|].
    destruct (bad_reason _); reflexivity. }
  constructor; [exact C'|exact I'| |].
  - rewrite T, attempts_app, (expected_other z0 is_log_ev logs _ log_not_read O).
    change (attempts_in (EvRead n (pe_now env) v :: z_trace z)) with (attempts_in ([EvRead n (pe_now env) v] ++ z_trace z)).
    rewrite attempts_app. cbn [expected_attempts]. rewrite A. cbn [attempts_in rev flat_map app]. rewrite app_nil_r.
    f_equal. rewrite L, G, Mm. unfold poll_attempts. rewrite (missing_text_conf _ _ n C).
    assert (z_zoneId z = z_zoneId z0) as -> by (use_conf C; reflexivity). reflexivity.
  - destruct Hp as [_ _ Sp _ _ _ _ _]. unfold sps in Sp.
    assert (z_maximumSetPointNamePrev z' = z_maximumSetPointNamePrev z) as -> by congruence.
    intros Z0. rewrite (P Z0), T. symmetry.
    rewrite (last_requester_other is_log_ev logs); [reflexivity| |exact O].
    intros e. destruct e; cbn; congruence || auto.
Qed.

Lemma msg_polls z0 f b env l z z' :
  (forall n, In n l -> is_inputb z0 n = true) -> msg_inv z0 z ->
  processSensorInputs f b env l z = Ok z' -> msg_inv z0 z'.
Proof.
  intros L I H. unfold processSensorInputs in H. pattern z'. eapply foldM_inv; [| |exact H]; [|exact I].
  intros s x s' Ix A Hx. eapply msg_poll; eauto.
Qed.

Lemma msg_frame z0 z z' evs :
  msg_inv z0 z -> conf z' = conf z -> z_failSafeSensors z' = z_failSafeSensors z ->
  z_trace z' = evs ++ z_trace z ->
  (forall e, In e evs -> match e with EvRead _ _ _ | EvFailsafeLog _ _ _ _ => False | _ => True end) ->
  (z_maximumSetPointNamePrev z0 = "" -> z_maximumSetPointNamePrev z' = last_requester (evs ++ z_trace z)) ->
  msg_inv z0 z'.
Proof.
  intros [C I A P] Hc Hf Ht He Hr.
  set (k := fun e => match e with EvRead _ _ _ | EvFailsafeLog _ _ _ _ => false | _ => true end).
  assert (O : only k evs). { intros e J. specialize (He e J). destruct e; cbn in *; tauto. }
  constructor.
  - congruence.
  - eapply fs_inv_frame; eauto. unfold reads_in. eapply flat_map_only; [|exact O]. intros []; cbn; congruence.
  - rewrite Ht, attempts_app, A, (expected_other z0 k); [| |exact O].
    + replace (attempts_in evs) with (@nil (Z * bool * string * string)); [apply app_nil_r|]. symmetry.
      unfold attempts_in. eapply flat_map_only; [|exact O]. intros []; cbn; congruence.
    + intros []; cbn; congruence || auto.
  - rewrite Ht. exact Hr.
Qed.

Lemma inputs_are_inputs z n : (In n (z_fanInputs z) -> is_inputb z n = true) /\
  (In n (z_thermalInputs z) -> is_inputb z n = true).
Proof.
  unfold is_inputb. split; intros I; apply smem_In in I; rewrite I; [reflexivity|]. apply orb_true_r.
Qed.

(** Choosing the setpoint. *)
Definition requester_msg (z z' : zone) : list (Z * dbl * string * list string) :=
  if dleb (z_maximumSetPoint z') (z_minThermalOutputSetPt z) then []
  else if String.eqb (z_maximumSetPointName z') (z_maximumSetPointNamePrev z) then []
  else [(z_zoneId z, z_maximumSetPoint z', z_maximumSetPointName z', not_fan_sensors z)].

Lemma det_core_req z :
  exists evs, z_trace (det_core z) = evs ++ z_trace z /\ only is_det_ev evs /\
    requesters_in evs = requester_msg z (det_core z) /\
    z_maximumSetPointNamePrev (det_core z) =
      match requester_msg z (det_core z) with [] => z_maximumSetPointNamePrev z | (_, _, n, _) :: _ => n end /\
    (requester_msg z (det_core z) = [] -> evs = []) /\
    (forall i v n s, requester_msg z (det_core z) = [(i, v, n, s)] -> evs = [EvRequester i v n s]).
Proof.
  unfold det_core.
  set (z1 := apply_ceilings z).
  set (z2 := if z_accumulateSetPoint z1 then _ else z1).
  assert (F : z_trace z2 = z_trace z /\ z_minThermalOutputSetPt z2 = z_minThermalOutputSetPt z /\
     z_maximumSetPointNamePrev z2 = z_maximumSetPointNamePrev z /\ z_zoneId z2 = z_zoneId z /\
     not_fan_sensors z2 = not_fan_sensors z).
  { assert (F : z_trace z1 = z_trace z /\ z_minThermalOutputSetPt z1 = z_minThermalOutputSetPt z /\
       z_maximumSetPointNamePrev z1 = z_maximumSetPointNamePrev z /\ z_zoneId z1 = z_zoneId z /\
       not_fan_sensors z1 = not_fan_sensors z).
    { unfold z1, apply_ceilings. destruct (z_rpmCeilings z); [repeat split|]. cbv zeta.
      destruct (dltb _ _); repeat split. }
    unfold z2. destruct (z_accumulateSetPoint z1); exact F. }
  destruct F as (F1 & F2 & F3 & F4 & F5).
  unfold requester_msg. rewrite <- F2, <- F3, <- F4, <- F5. rewrite <- F1. clearbody z2. clear z1 F1 F2 F3 F4 F5 z.
  unfold dgeb. destruct (dleb (z_maximumSetPoint z2) (z_minThermalOutputSetPt z2)) eqn:E.
  - exists []. cbn [z_maximumSetPoint set_maximumSetPointName set_maximumSetPoint].
    assert (N : notnan (z_minThermalOutputSetPt z2)) by (apply dle_notnan in E; tauto).
    assert (R := dle_refl _ N). unfold dle in R.
    change (z_maximumSetPoint (set_maximumSetPointName "Minimum" (set_maximumSetPoint (z_minThermalOutputSetPt z2) z2)))
      with (z_minThermalOutputSetPt z2). rewrite R.
    split; [reflexivity|]. split; [apply only_nil|]. split; [reflexivity|]. split; [reflexivity|].
    split; [reflexivity|]. intros; discriminate.
  - destruct (String.eqb (z_maximumSetPointName z2) (z_maximumSetPointNamePrev z2)) eqn:En; cbn [negb].
    + exists []. rewrite E, En.
      split; [reflexivity|]. split; [apply only_nil|]. split; [reflexivity|]. split; [reflexivity|].
      split; [reflexivity|]. intros; discriminate.
    + match goal with |- context [emit ?ev z2] => exists [ev] end.
      set (z3 := set_maximumSetPointNamePrev _ _).
      change (z_maximumSetPoint z3) with (z_maximumSetPoint z2).
      change (z_maximumSetPointName z3) with (z_maximumSetPointName z2). rewrite E, En.
      split; [reflexivity|]. split; [apply only_cons; [reflexivity|apply only_nil]|].
      split; [reflexivity|]. split; [reflexivity|]. split; [discriminate|].
      intros i v n s Q. injection Q as <- <- <- <-. reflexivity.
Qed.

Lemma requester_msg_cases z z' : requester_msg z z' = [] \/ exists i v n s, requester_msg z z' = [(i, v, n, s)].
Proof. unfold requester_msg. destruct (dleb _ _); [auto|]. destruct (String.eqb _ _); eauto 6. Qed.

Lemma fileParse_shape g c z z' : fileParseRpm g c z = Ok z' ->
  z_trace z' = rev (map (EvFileError g) (file_complaint c)) ++ z_trace z /\
  z' = set_maximumSetPoint (match file_setpoint c with Some v => v | None => z_maximumSetPoint z end)
         (set_trace (z_trace z') z).
Proof.
  unfold fileParseRpm, file_complaint, file_setpoint. destruct c as [|v|]; [| |discriminate].
  - intros H. injection H as <-. split; [reflexivity|]. destruct z; reflexivity.
  - destruct (v <=? 0)%Z eqn:E0; [|destruct (v <=? 100)%Z eqn:E1]; intros H; injection H as <-.
    + assert ((100 <? v)%Z = false) as -> by lia. split; [reflexivity|]. destruct z; reflexivity.
    + assert ((100 <? v)%Z = false) as -> by lia. split; [reflexivity|]. destruct z; reflexivity.
    + assert ((100 <? v)%Z = true) as -> by lia. split; [reflexivity|]. destruct z; reflexivity.
Qed.

Lemma msg_det z0 f te z z' : msg_inv z0 z -> determineMaxSetPointRequest f te z = Ok z' ->
  msg_inv z0 z' /\ exists evs, z_trace z' = evs ++ z_trace z /\ only is_det_ev evs /\
    requesters_in evs = requester_msg z (det_core z).
Proof.
  intros I H. rewrite determine_split in H.
  destruct (det_core_req z) as (e0 & T0 & O0 & R0 & P0 & N0 & S0).
  destruct (det_core_frame z) as (_ & C0 & _ & _ & F0 & _).
  assert (Ne : forall e, is_det_ev e = true -> match e with EvRead _ _ _ | EvFailsafeLog _ _ _ _ => False | _ => True end).
  { intros []; cbn; congruence || auto. }
  assert (I0 : msg_inv z0 (det_core z)).
  { eapply msg_frame; [exact I|exact C0|exact F0|exact T0|intros e J; apply Ne, O0; exact J|].
    rewrite P0. destruct I as [_ _ _ P]. destruct (requester_msg_cases z (det_core z)) as [Q|(i & v & n & s & Q)].
    - rewrite Q, (N0 Q). exact P.
    - rewrite Q, (S0 _ _ _ _ Q). intros _. reflexivity. }
  destruct (tuningEnabled f).
  - apply bind_ok in H. destruct H as (z1 & H1 & H2).
    apply fileParse_shape in H1. destruct H1 as (T1 & E1).
    apply fileParse_shape in H2. destruct H2 as (T2 & E2).
    assert (Oe : forall g c, only is_det_ev (rev (map (EvFileError g) (file_complaint c)))).
    { intros g c e J. apply in_rev in J. apply in_map_iff in J. destruct J as (t & <- & _). reflexivity. }
    assert (Lr : forall g c tr, last_requester (rev (map (EvFileError g) (file_complaint c)) ++ tr) = last_requester tr).
    { intros g c tr. apply (last_requester_other (fun e => match e with EvFileError _ _ => true | _ => false end)).
      - intros []; cbn; congruence || auto.
      - intros e J. apply in_rev in J. apply in_map_iff in J. destruct J as (t & <- & _). reflexivity. }
    assert (Rq : forall g c, requesters_in (rev (map (EvFileError g) (file_complaint c))) = []).
    { intros g c. apply (flat_map_only _ (fun e => match e with EvFileError _ _ => true | _ => false end)).
      - intros []; cbn; congruence.
      - intros e J. apply in_rev in J. apply in_map_iff in J. destruct J as (t & <- & _). reflexivity. }
    assert (I1 : msg_inv z0 z1).
    { eapply msg_frame; [exact I0| | |exact T1|intros e J; apply Ne, (Oe _ _ e J)|].
      - rewrite E1. reflexivity.
      - rewrite E1. reflexivity.
      - rewrite Lr, E1. apply I0. }
    split.
    + eapply msg_frame; [exact I1| | |exact T2|intros e J; apply Ne, (Oe _ _ e J)|].
      * rewrite E2. reflexivity.
      * rewrite E2. reflexivity.
      * rewrite Lr, E2. apply I1.
    + eexists. split; [rewrite T2, T1, T0, !app_assoc; reflexivity|]. split.
      * apply only_app; [apply only_app|exact O0]; apply Oe.
      * rewrite !requesters_app, !Rq, R0, app_nil_r. reflexivity.
  - injection H as <-. split; [exact I0|]. exists e0. auto.
Qed.

(** A thermal cycle. *)
Lemma msg_cycle z0 f env te z z' : msg_inv z0 z -> thermal_cycle f env te z = Ok z' ->
  msg_inv z0 z' /\
  exists evs z2, z_trace z' = evs ++ z_trace z /\ modes_in evs = [] /\ thermal_cycles_in evs = 1%nat /\
    requesters_in evs = requester_msg z2 (det_core z2) /\ determineMaxSetPointRequest f te z2 = Ok z' /\
    z_maximumSetPointNamePrev z2 = z_maximumSetPointNamePrev z /\ conf z2 = conf z0.
Proof.
  intros I H. assert (Hs := thermal_cycle_split _ _ _ _ _ H).
  assert (Fr := thermal_cycle_frame _ _ _ _ _ H). destruct Fr as (_ & _ & _ & _ & _ & _ & (ef & Tf & _ & _ & Nf)).
  destruct Hs as (z1 & z2 & H1 & F & _ & _ & _ & D).
  unfold updateSensors in H1.
  assert (Ic : msg_inv z0 (emit EvThermalCycle z)).
  { eapply msg_frame with (evs := [EvThermalCycle]); [exact I|reflexivity|reflexivity|reflexivity| |].
    - intros e [<-|[]]. exact Logic.I.
    - cbn. apply I. }
  assert (Pf := polls_frame _ _ _ _ _ _ H1). destruct Pf as (_ & _ & Sp & _).
  destruct (polls_events _ _ _ _ _ _ H1) as (e1 & T1 & O1).
  apply (msg_polls z0) in H1; [| |exact Ic].
  2:{ intros n J. apply (inputs_are_inputs z0 n). destruct I as [C _ _ _].
      cbn in J. use_conf (eq_sym C). exact J. }
  destruct F as [Fc Fm Ff Fv Fo Ft Fl Ffan Fth Fp Fe]. cbn in Fp, Ff, Ft.
  change (conf (set_thermals (z_thermals z1) z2)) with (conf z2) in Fc.
  assert (I2 : msg_inv z0 z2).
  { eapply msg_frame with (evs := []); [exact H1|exact Fc|exact Ff|exact Ft|intros e []|].
    rewrite Fp. apply H1. }
  assert (I2' := I2). apply (msg_det _ _ te _ _ I2) in D as Dd. destruct Dd as (I3 & e3 & T3 & O3 & R3).
  split; [exact I3|]. exists ef, z2. split; [exact Tf|].
  assert (E : ef = e3 ++ e1 ++ [EvThermalCycle]).
  { apply (app_inv_tail (z_trace z)). rewrite <- Tf, T3, Ft, T1. cbn. rewrite <- !app_assoc. reflexivity. }
  split; [|split; [exact Nf|]].
  - rewrite E, !modes_app, (det_modes _ O3), (poll_modes _ O1). reflexivity.
  - split; [|split; [exact D|]].
    + rewrite E, !requesters_app, (poll_requesters _ O1), R3. reflexivity.
    + split; [rewrite Fp; unfold sps in Sp; cbn in Sp; congruence|apply I2'].
Qed.

(** ** Fans *)
Definition mode_msg (f : flags) (z : zone) (c : FanController) : list (Z * bool * dbl * list (string * string)) :=
  if negb (tuningEnabled f) && negb (debugEnabled f) &&
     (fan_failsafeTransition c || negb (Bool.eqb (fan_failsafePrevState c) (getFailSafeMode z)))
  then [(z_zoneId z, getFailSafeMode z, fan_percent f z (fan_output z c),
         map (fun s => (fst s, fst (snd s))) (z_failSafeSensors z))]
  else [].

Lemma write_fans_only w p init names : forall z z',
  foldM (write_fan w p init) names z = Ok z' ->
  exists evs, z_trace z' = evs ++ z_trace z /\ only is_fan_ev evs /\ modes_in evs = [].
Proof.
  induction names as [|n r IH]; intros z z' H; cbn [foldM] in H.
  - injection H as <-. exists []. split; [reflexivity|]. split; [apply only_nil|reflexivity].
  - apply bind_ok in H. destruct H as (z1 & H1 & H2).
    unfold write_fan in H1. destruct (w n) as [wr|]; [|discriminate].
    apply bind_ok in H1. destruct H1 as (raw & Hr & H1).
    destruct (match raw with Some v => Some v | None => init end); [|discriminate].
    injection H1 as <-. apply IH in H2. destruct H2 as (evs & T & O & M).
    eexists (evs ++ [_]). rewrite T. cbn. rewrite <- app_assoc. split; [reflexivity|].
    split; [apply only_app; [exact O|apply only_cons; [reflexivity|apply only_nil]]|].
    rewrite modes_app, M. reflexivity.
Qed.

Lemma fan_process_modes f w c z c' z' :
  fan_process f w c z = Ok (c', z') ->
  (exists evs, z_trace z' = evs ++ z_trace z /\ only is_fan_ev evs /\ modes_in evs = mode_msg f z c) /\
  (tuningEnabled f = false -> debugEnabled f = false ->
   fan_failsafeTransition c' = false /\ fan_failsafePrevState c' = getFailSafeMode z).
Proof.
  unfold fan_process, fan_setptProc. intros H.
  apply bind_ok in H. destruct H as (v & Hv & H).
  apply fan_inputProc_spec in Hv. cbn [fan_inputs fan_pid] in *.
  unfold mode_msg, fan_output. rewrite <- Hv.
  destruct (pid_process (fan_pid c) (z_maximumSetPoint z) v) as [p o]. cbn [snd].
  unfold fan_outputProc in H. cbn [fan_failsafeTransition fan_failsafePrevState fan_id fan_inputs fan_pid fan_setpoint fan_direction] in H.
  apply bind_ok in H. destruct H as (z1 & H1 & H2). injection H2 as <- <-.
  cbn [fan_failsafeTransition fan_failsafePrevState].
  apply write_fans_only in H1. destruct H1 as (evs & T & O & M).
  split.
  - destruct (tuningEnabled f); cbn [negb andb] in *; [exists evs; auto|].
    destruct (debugEnabled f); cbn [negb andb] in *; [exists evs; auto|].
    destruct (fan_failsafeTransition c || negb (Bool.eqb (fan_failsafePrevState c) (getFailSafeMode z))) eqn:E.
    + eexists (evs ++ [_]). rewrite T. cbn [z_trace emit set_trace]. rewrite <- app_assoc. split; [reflexivity|].
      split; [apply only_app; [exact O|apply only_cons; [reflexivity|apply only_nil]]|].
      rewrite modes_app, M. reflexivity.
    + exists evs. auto.
  - intros -> ->. cbn [negb andb].
    destruct (fan_failsafeTransition c || negb (Bool.eqb (fan_failsafePrevState c) (getFailSafeMode z))); auto.
Qed.

Lemma mode_msg_frame f z z' c : fan_frame z z' -> mode_msg f z' c = mode_msg f z c.
Proof.
  intros F. unfold mode_msg. rewrite (fan_percent_frame _ _ _ _ F), (fan_output_frame _ _ _ F).
  destruct F as [C M S K Fs V _]. unfold getFailSafeMode. rewrite Fs. use_conf C. reflexivity.
Qed.

Definition settled (m : bool) (c : FanController) : Prop :=
  fan_failsafeTransition c = false /\ fan_failsafePrevState c = m.

Lemma run_fans_modes f w fs : forall z fs' z',
  run_all (opt_fan_process f w) fs z = Ok (fs', z') ->
  (exists evs, z_trace z' = evs ++ z_trace z /\ only is_fan_ev evs /\
    modes_in evs = flat_map (fun o => match o with Some c => mode_msg f z c | None => [] end) fs) /\
  (tuningEnabled f = false -> debugEnabled f = false ->
   Forall (fun o => match o with Some c => settled (getFailSafeMode z) c | None => True end) fs').
Proof.
  induction fs as [|c r IH]; intros z fs' z' H; cbn [run_all] in H.
  - injection H as <- <-. split; [|constructor]. exists []. split; [reflexivity|]. split; [apply only_nil|reflexivity].
  - apply bind_ok in H. destruct H as ([c1 z1] & H1 & H).
    apply bind_ok in H. destruct H as ([r1 z2] & H2 & H). injection H as <- <-.
    destruct c as [c|]; cbn [opt_fan_process] in H1; [|discriminate].
    apply bind_ok in H1. destruct H1 as ([c2 z3] & H1 & H3). injection H3 as <- <-.
    assert (F := fan_process_spec _ _ _ _ _ _ H1). destruct F as (F & _).
    apply fan_process_modes in H1. destruct H1 as ((e1 & T1 & O1 & M1) & S1).
    apply IH in H2. destruct H2 as ((e2 & T2 & O2 & M2) & S2).
    split.
    + exists (e2 ++ e1). rewrite T2, T1, app_assoc. split; [reflexivity|]. split; [apply only_app; auto|].
      rewrite modes_app, M1, M2. cbn [flat_map]. f_equal. apply flat_map_ext.
      intros [a|]; [|reflexivity]. apply mode_msg_frame. exact F.
    + intros Tn Db. constructor; [exact (S1 Tn Db)|]. specialize (S2 Tn Db).
      assert (E : getFailSafeMode z3 = getFailSafeMode z) by (unfold getFailSafeMode; rewrite (ff_fs _ _ F); reflexivity).
      rewrite E in S2. exact S2.
Qed.

Lemma processFans_modes f w z z' :
  processFans f w z = Ok z' ->
  (exists evs, z_trace z' = evs ++ z_trace z /\ only is_fan_ev evs /\
    modes_in evs = flat_map (mode_msg f z) (fan_ctls z)) /\
  (tuningEnabled f = false -> debugEnabled f = false -> Forall (settled (getFailSafeMode z)) (fan_ctls z')).
Proof.
  unfold processFans. intros H. apply bind_ok in H. destruct H as ([fs z1] & H1 & H).
  injection H as <-. apply run_fans_modes in H1. destruct H1 as ((evs & T & O & M) & S).
  assert (E : flat_map (fun o => match o with Some c => mode_msg f z c | None => [] end) (z_fans z)
              = flat_map (mode_msg f z) (fan_ctls z)).
  { unfold fan_ctls. clear. induction (z_fans z) as [|[c|] r IH]; cbn; congruence. }
  rewrite E in M. clear E.
  assert (G : forall w, z_fans w = fs -> Forall (fun o => match o with Some c => settled (getFailSafeMode z) c | None => True end) fs ->
            Forall (settled (getFailSafeMode z)) (fan_ctls w)).
  { intros x Ef Q. unfold fan_ctls. rewrite Ef. clear -Q.
    induction Q as [|[c|] r A B IH]; cbn; [constructor|constructor; assumption|assumption]. }
  change (z_redundantWrite (set_fans fs z1)) with (z_redundantWrite z1).
  destruct (z_redundantWrite z1); (split; [exists evs; auto|]); intros Tn Db; apply G; auto.
Qed.

(** ** Start-up *)
Definition state_after (z0 : zone) (state : bool) (l : list string) : bool :=
  state || existsb (fun s => negb (smem s (z_missingAcceptable z0))) l.

Lemma start_attempts_app z0 a : forall b state,
  start_attempts z0 state (a ++ b) = start_attempts z0 state a ++ start_attempts z0 (state_after z0 state a) b.
Proof.
  unfold state_after. induction a as [|n r IH]; intros b state; cbn [app start_attempts existsb].
  - rewrite orb_false_r. reflexivity.
  - rewrite IH, orb_assoc. reflexivity.
Qed.

Lemma init_attempts z0 g (Hg : g = initializeCache_fan \/ g = initializeCache_thermal) l : forall z,
  conf z = conf z0 ->
  let z' := fold_left g l z in
  conf z' = conf z0 /\ z_maximumSetPointNamePrev z' = z_maximumSetPointNamePrev z /\
  getFailSafeMode z' = state_after z0 (getFailSafeMode z) l /\
  exists evs, only is_log_ev evs /\ z_trace z' = evs ++ z_trace z /\
    attempts_in evs = start_attempts z0 (getFailSafeMode z) l.
Proof.
  induction l as [|n r IH]; intros z C; cbn [fold_left].
  - split; [exact C|]. split; [reflexivity|]. unfold state_after. cbn. rewrite orb_false_r. split; [reflexivity|].
    exists []. split; [apply only_nil|]. split; reflexivity.
  - assert (exists z1, conf z1 = conf z0 /\ z_failSafeSensors z1 = z_failSafeSensors z /\ z_trace z1 = z_trace z /\
      z_maximumSetPointNamePrev z1 = z_maximumSetPointNamePrev z /\ g z n = markSensorMissing n "" z1)
      as (z1 & C1 & F1 & T1 & P1 & E).
    { destruct Hg as [->| ->]; eexists; (split; [|split; [|split; [|split; [|reflexivity]]]]);
        reflexivity || exact C. }
    assert (K : conf (g z n) = conf z0 /\ z_maximumSetPointNamePrev (g z n) = z_maximumSetPointNamePrev z /\
       getFailSafeMode (g z n) = getFailSafeMode z || negb (smem n (z_missingAcceptable z0)) /\
       z_trace (g z n) = EvFailsafeLog (z_zoneId z0) (getFailSafeMode (g z n)) n (missing_text z0 n) :: z_trace z).
    { rewrite E. unfold markSensorMissing, missing_text, failsafe_log.
      assert (z_missingAcceptable z1 = z_missingAcceptable z0) as -> by (use_conf C1; reflexivity).
      assert (Zi : z_zoneId z1 = z_zoneId z0) by (use_conf C1; reflexivity).
      destruct (smem n (z_missingAcceptable z0)).
      - split; [exact C1|]. split; [exact P1|]. split.
        + cbn [negb]. rewrite orb_false_r. transitivity (getFailSafeMode z1); [reflexivity|].
          unfold getFailSafeMode. rewrite F1. reflexivity.
        + rewrite <- Zi, <- T1. reflexivity.
      - split; [exact C1|]. split; [exact P1|]. split.
        + cbn [negb]. rewrite orb_true_r.
          match goal with |- getFailSafeMode (emit _ ?w) = _ => change (getFailSafeMode w = true) end.
          unfold getFailSafeMode.
          match goal with |- context [mset n ?x ?m] => assert (Q := mget_mset_same m n x) end.
          match goal with |- context [set_failSafeSensors ?m z1] =>
            change (z_failSafeSensors (set_failSafeSensors m z1)) with m end.
          match goal with |- context [mset n ?x ?m] => destruct (mset n x m) as [|y q] end;
            [discriminate Q|reflexivity].
        + rewrite <- Zi, <- T1. reflexivity. }
    destruct K as (Cg & Pg & Gg & Tg).
    destruct (IH (g z n) Cg) as (Ci & Pi & Gi & (evs & O & T & A)).
    split; [exact Ci|]. split; [congruence|]. split.
    + rewrite Gi, Gg. unfold state_after. cbn [existsb]. rewrite orb_assoc. reflexivity.
    + exists (evs ++ [EvFailsafeLog (z_zoneId z0) (getFailSafeMode (g z n)) n (missing_text z0 n)]).
      split; [apply only_app; [exact O|apply only_cons; [reflexivity|apply only_nil]]|].
      split; [rewrite T, Tg, <- app_assoc; reflexivity|].
      rewrite attempts_app, A. cbn [start_attempts]. rewrite <- Gg. reflexivity.
Qed.

Lemma msg_start f env te now z0 l0 :
  fresh z0 -> loop_start f env te now z0 = Ok l0 ->
  msg_inv z0 (l_zone l0) /\
  exists zi, msg_inv z0 zi /\ z_maximumSetPointNamePrev zi = z_maximumSetPointNamePrev z0 /\
    requesters_in (z_trace zi) = [] /\ last_requester (z_trace zi) = "" /\
    thermal_cycle f env te zi = Ok (l_zone l0).
Proof.
  intros (F1 & F2 & _) H. unfold loop_start in H. apply bind_ok in H. destruct H as (z1 & H1 & H).
  injection H as <-. cbn [l_zone].
  assert (Q : quiet_step z0 (initializeLog f z0) []) by apply quiet_log.
  destruct Q as [Qc _ Qs _ Qf _ _ Qt]. cbn [app] in Qt.
  set (zl := initializeLog f z0) in *.
  assert (Fs : fs_inv (initializeCache zl)) by (apply initializeCache_fs_inv; congruence).
  assert (Hi : msg_inv z0 (initializeCache zl) /\
     z_maximumSetPointNamePrev (initializeCache zl) = z_maximumSetPointNamePrev z0 /\
     exists evs, only is_log_ev evs /\ z_trace (initializeCache zl) = evs).
  { unfold initializeCache in *. cbv zeta in *.
    destruct (init_attempts z0 _ (or_introl eq_refl) (z_fanInputs zl) zl Qc) as (Ca & Pa & Ga & (ea & Oa & Ta & Aa)).
    destruct (init_attempts z0 _ (or_intror eq_refl)
      (z_thermalInputs (fold_left initializeCache_fan (z_fanInputs zl) zl)) _ Ca) as (Cb & Pb & Gb & (eb & Ob & Tb & Ab)).
    assert (Et : z_thermalInputs (fold_left initializeCache_fan (z_fanInputs zl) zl) = z_thermalInputs z0)
      by (use_conf Ca; reflexivity).
    assert (Ef : z_fanInputs zl = z_fanInputs z0) by (use_conf Qc; reflexivity).
    rewrite Et, Ef in *.
    assert (G0 : getFailSafeMode zl = false) by (unfold getFailSafeMode; rewrite Qf, F1; reflexivity).
    rewrite G0 in *.
    assert (Pz : z_maximumSetPointNamePrev zl = z_maximumSetPointNamePrev z0) by (unfold sps in Qs; congruence).
    assert (T0 : z_trace (fold_left initializeCache_thermal (z_thermalInputs z0)
              (fold_left initializeCache_fan (z_fanInputs z0) zl)) = eb ++ ea).
    { rewrite Tb, Ta, Qt, F2, app_nil_r. reflexivity. }
    assert (Oab : only is_log_ev (eb ++ ea)) by (apply only_app; assumption).
    split; [|split; [congruence|exists (eb ++ ea); auto]].
    constructor; [exact Cb|exact Fs| |].
    - rewrite T0. rewrite <- (app_nil_r (eb ++ ea)) at 2.
      rewrite (expected_other z0 is_log_ev _ _ log_not_read Oab). cbn [expected_attempts].
      rewrite attempts_app, Aa, Ab, Ga, start_attempts_app. reflexivity.
    - intros Z0. rewrite T0. rewrite <- (app_nil_r (eb ++ ea)).
      rewrite (last_requester_other is_log_ev _ _); [cbn; congruence| |exact Oab].
      intros []; cbn; congruence || auto. }
  destruct Hi as (Hi & Pi & (ei & Oi & Ti)).
  split; [exact (proj1 (msg_cycle _ _ _ _ _ _ Hi H1))|].
  exists (initializeCache zl). split; [exact Hi|]. split; [exact Pi|]. rewrite Ti. split.
  - unfold requesters_in. eapply flat_map_only; [|exact Oi]. intros []; cbn; congruence.
  - split; [|exact H1]. rewrite <- (app_nil_r ei). apply (last_requester_other is_log_ev); [|exact Oi].
    intros []; cbn; congruence || auto.
Qed.

(** ** One event *)
Lemma msg_tick z0 f e l l' z1 z2 : auto_tick f e l l' z1 z2 -> msg_inv z0 (l_zone l) ->
  msg_inv z0 (l_zone l') /\ msg_inv z0 z1 /\ msg_inv z0 z2 /\
  z_maximumSetPointNamePrev z1 = z_maximumSetPointNamePrev (l_zone l) /\
  exists e1 e2 e3, z_trace (l_zone l') = e3 ++ e2 ++ e1 ++ z_trace (l_zone l) /\
    only is_poll_ev e1 /\ only is_fan_ev e3 /\ z_trace z1 = e1 ++ z_trace (l_zone l) /\
    z_trace z2 = e2 ++ z_trace z1 /\
    modes_in e2 = [] /\ modes_in e3 = flat_map (mode_msg f z2) (fan_ctls z2) /\
    (if (z_updateThermalsTimeMS (l_zone l) <=? l_cycleCnt l)%Z then True else e2 = []) /\
    (tuningEnabled f = false -> debugEnabled f = false ->
     Forall (settled (getFailSafeMode (l_zone l'))) (fan_ctls (l_zone l'))) /\
    sps (l_zone l') = sps z2 /\ z_failSafeSensors (l_zone l') = z_failSafeSensors z2 /\ conf z1 = conf (l_zone l).
Proof.
  intros [A B C (z3 & P & Z) _ _] I.
  assert (Bs := updateFanTelemetry_spec _ _ _ _ B). destruct Bs as (C1 & _ & S1 & _).
  unfold updateFanTelemetry in B. apply bind_ok in B. destruct B as (zp & Bp & Bq). injection Bq as Bq.
  match type of Bp with processSensorInputs _ _ _ _ (log_tokens _ _ ?w) = _ =>
    match type of Bp with processSensorInputs _ _ _ _ ?x = _ => set (za := x) in * end end.
  assert (Qa : quiet_step (l_zone l) za []) by apply quiet_log.
  destruct Qa as [Qac _ Qas _ Qaf _ _ Qat]. cbn [app] in Qat.
  assert (Ia : msg_inv z0 za).
  { eapply msg_frame with (evs := []); [exact I|exact Qac|exact Qaf|exact Qat|intros e0 []|].
    assert (z_maximumSetPointNamePrev za = z_maximumSetPointNamePrev (l_zone l)) as -> by (unfold sps in Qas; congruence).
    apply I. }
  destruct (polls_events _ _ _ _ _ _ Bp) as (e1 & T1 & O1).
  assert (Ip : msg_inv z0 zp).
  { eapply msg_polls; [|exact Ia|exact Bp]. intros n J. apply (proj1 (inputs_are_inputs z0 n)).
    destruct Ia as [Ca _ _ _]. use_conf (eq_sym Ca). exact J. }
  assert (Qp : quiet_step zp z1 []) by (rewrite <- Bq; apply quiet_log).
  destruct Qp as [Qpc _ Qps _ Qpf _ _ Qpt]. cbn [app] in Qpt.
  assert (I1 : msg_inv z0 z1).
  { eapply msg_frame with (evs := []); [exact Ip|exact Qpc|exact Qpf|exact Qpt|intros e0 []|].
    assert (z_maximumSetPointNamePrev z1 = z_maximumSetPointNamePrev zp) as -> by (unfold sps in Qps; congruence).
    apply Ip. }
  assert (Tz1 : z_trace z1 = e1 ++ z_trace (l_zone l)) by congruence.
  assert (K : msg_inv z0 z2 /\ exists e2, z_trace z2 = e2 ++ z_trace z1 /\ modes_in e2 = [] /\
     (if (z_updateThermalsTimeMS (l_zone l) <=? l_cycleCnt l)%Z then True else e2 = [])).
  { destruct (z_updateThermalsTimeMS (l_zone l) <=? l_cycleCnt l)%Z.
    - apply (msg_cycle z0) in C; [|exact I1]. destruct C as (I2 & e2 & zz & T2 & M2 & _).
      split; [exact I2|]. exists e2. auto.
    - subst z2. split; [exact I1|]. exists []. repeat split. }
  destruct K as (I2 & e2 & T2 & M2 & D2).
  assert (Ps := processFans_spec _ _ _ _ P). destruct Ps as (C3 & _ & _ & S3 & _ & _ & F3 & _).
  apply processFans_modes in P. destruct P as ((e3 & T3 & O3 & M3) & St).
  assert (Ql : quiet_step z3 (l_zone l') []) by (rewrite Z; apply quiet_log).
  destruct Ql as [Qlc _ Qls Qlk Qlf _ _ Qlt]. cbn [app] in Qlt.
  assert (Sp : sps (l_zone l') = sps z2) by congruence.
  split; [|split; [exact I1|split; [exact I2|split; [unfold sps in S1; congruence|]]]].
  { eapply msg_frame with (evs := e3); [exact I2|congruence|congruence|congruence| |].
    - intros e0 J. specialize (O3 e0 J). destruct e0; cbn in *; congruence || auto.
    - assert (z_maximumSetPointNamePrev (l_zone l') = z_maximumSetPointNamePrev z2) as -> by (unfold sps in Sp; congruence).
      rewrite (last_requester_other is_fan_ev e3); [apply I2| |exact O3]. intros []; cbn; congruence || auto. }
  exists e1, e2, e3. split; [rewrite Qlt, T3, T2, Tz1; reflexivity|].
  split; [exact O1|]. split; [exact O3|]. split; [exact Tz1|]. split; [exact T2|]. split; [exact M2|].
  split; [exact M3|]. split; [exact D2|]. split; [|split; [exact Sp|split; [congruence|exact C1]]].
  intros Tn Db. specialize (St Tn Db).
  assert (getFailSafeMode (l_zone l') = getFailSafeMode z2) as -> by (unfold getFailSafeMode; rewrite Qlf, F3; reflexivity).
  assert (fan_ctls (l_zone l') = fan_ctls z3) as ->; [|exact St].
  unfold fan_ctls. unfold ctls in Qlk. congruence.
Qed.

Lemma msg_step z0 f ev l l' : msg_inv z0 (l_zone l) -> loop_step f l ev = Ok l' -> msg_inv z0 (l_zone l').
Proof.
  intros I H. destruct ev as [e|b|m b]; cbn [loop_step] in H.
  - apply loop_tick_cases in H. destruct H as [(_ & ->)|(z1 & z2 & T)]; [exact I|].
    apply (msg_tick z0) in T; [|exact I]. exact (proj1 T).
  - injection H as <-. cbn [l_zone with_zone].
    eapply msg_frame with (evs := []); [exact I| | | |intros e []|];
      [destruct b; reflexivity..|]. destruct b; apply I.
  - injection H as <-. cbn [l_zone with_zone]. unfold setProcessEnabled.
    destruct (mget m (z_pidsControlProcess (l_zone l))); [|exact I].
    eapply msg_frame with (evs := []); [exact I|reflexivity..|intros e []|]. apply I.
Qed.

Lemma reachable_msg f z0 l : reachable f z0 l -> msg_inv z0 (l_zone l).
Proof.
  intros (env & te & now & l0 & evs & F & H0 & H1). apply (msg_start _ _ _ _ _ _ F) in H0. destruct H0 as (I0 & _).
  unfold loop_run in H1. pattern l. eapply foldM_inv; [| |exact H1]; [|exact I0].
  intros s x s' _ I H. eapply msg_step; eauto.
Qed.

Lemma C78_lemma f z0 l : reachable f z0 l ->
  attempts_in (z_trace (l_zone l)) = expected_attempts z0 (z_trace (l_zone l)).
Proof. intros R. apply reachable_msg in R. apply R. Qed.

Lemma C78_state_lemma f z0 l : reachable f z0 l ->
  getFailSafeMode (l_zone l) = in_failsafe z0 (z_trace (l_zone l)).
Proof. intros R. apply reachable_msg in R. apply in_failsafe_iff; apply R. Qed.

(** ** Failing sensors *)
Lemma sorted_keys_NoDup {V : Type} (m : smap V) : sorted_map m -> NoDup (map fst m).
Proof.
  induction m as [|[k v] r IH]; intros S; cbn; [constructor|].
  inversion S as [|x y S1 S2]; subst. constructor; [|apply IH; exact S1].
  intros J. apply in_map_iff in J. destruct J as ([k' v'] & E & J). cbn in E. subst k'.
  rewrite Forall_forall in S2. specialize (S2 _ J). unfold key_lt in S2. cbn [fst] in S2. rewrite ltb_irrefl in S2. discriminate.
Qed.

Lemma lists_failing_reachable f z0 l : reachable f z0 l ->
  lists_failing z0 (z_trace (l_zone l)) (map (fun s => (fst s, fst (snd s))) (z_failSafeSensors (l_zone l))).
Proof.
  intros R. assert (I := reachable_msg _ _ _ R). destruct I as [C [S I] _ _]. split.
  - rewrite map_map. cbn. apply sorted_keys_NoDup. exact S.
  - intros s r. rewrite in_map_iff. split.
    + intros ([k [r' p]] & E & J). cbn in E. injection E as -> ->.
      apply (sorted_In_mget _ _ _ S) in J. apply (fs_entry _ _ _ _ R) in J. tauto.
    + intros (A & B & E). exists (s, (r, own_percent z0 s)). split; [reflexivity|].
      apply mget_In. apply (fs_entry _ _ _ _ R). auto.
Qed.

(** ** C75 *)
Lemma mode_msg_some f z c : tuningEnabled f = false -> debugEnabled f = false ->
  (fan_failsafeTransition c = true \/ fan_failsafePrevState c <> getFailSafeMode z) ->
  mode_msg f z c = [(z_zoneId z, getFailSafeMode z, fan_percent f z (fan_output z c),
         map (fun s => (fst s, fst (snd s))) (z_failSafeSensors z))].
Proof.
  intros Tn Db H. unfold mode_msg. rewrite Tn, Db. cbn [negb andb].
  destruct H as [->|H]; [reflexivity|].
  destruct (Bool.eqb (fan_failsafePrevState c) (getFailSafeMode z)) eqn:E; [apply eqb_prop in E; congruence|].
  rewrite orb_true_r. reflexivity.
Qed.
Lemma mode_msg_none f z c : settled (getFailSafeMode z) c -> mode_msg f z c = [].
Proof.
  intros [A B]. unfold mode_msg. rewrite A, B, eqb_reflx. cbn. rewrite andb_false_r. reflexivity.
Qed.

Lemma fan_state f env te now z0 l0 evs : forall l,
  fresh z0 -> loop_start f env te now z0 = Ok l0 -> loop_run f evs l0 = Ok l ->
  tuningEnabled f = false -> debugEnabled f = false ->
  if Nat.eqb (auto_ticks false evs) 0 then z_fans (l_zone l) = z_fans z0
  else Forall (settled (getFailSafeMode (l_zone l))) (fan_ctls (l_zone l)).
Proof.
  induction evs as [|ev r IH] using rev_ind; intros l Fr H0 H1 Tn Db.
  - cbn in *. injection H1 as <-. apply loop_start_frame in H0. tauto.
  - rewrite loop_run_app in H1. apply bind_ok in H1. destruct H1 as (l1 & H1 & H2).
    cbn in H2. apply bind_ok in H2. destruct H2 as (l2 & H2 & H3). injection H3 as ->.
    assert (M := loop_run_mode _ _ _ _ _ _ H1 (start_mode _ _ _ _ _ _ Fr H0)). unfold mode in M. injection M as M1 M2.
    assert (I1 : msg_inv z0 (l_zone l1)) by (apply (reachable_msg f); exists env, te, now, l0, r; auto).
    specialize (IH _ Fr H0 H1 Tn Db). rewrite auto_ticks_app.
    destruct ev as [e|b|m b]; cbn [auto_ticks loop_step] in *.
    + apply loop_tick_cases in H2. destruct H2 as [(A & ->)|(z1 & z2 & T)].
      * rewrite M1 in A. rewrite A. cbn [l_zone rearm]. rewrite !Nat.add_0_r. exact IH.
      * assert (A : manual_after false r = false) by (destruct T; congruence). rewrite A.
        apply (msg_tick z0) in T; [|exact I1].
        destruct T as (_ & _ & _ & _ & (e1 & e2 & e3 & _ & _ & _ & _ & _ & _ & _ & _ & St & _)).
        replace (auto_ticks false r + (1 + 0))%nat with (S (auto_ticks false r)) by lia. cbn [Nat.eqb].
        exact (St Tn Db).
    + injection H2 as <-. rewrite Nat.add_0_r. destruct (Nat.eqb (auto_ticks false r) 0); destruct b; exact IH.
    + injection H2 as <-. rewrite Nat.add_0_r. cbn [l_zone with_zone]. unfold setProcessEnabled.
      destruct (mget m (z_pidsControlProcess (l_zone l1))); exact IH.
Qed.

Lemma flat_map_lines {A B : Type} (g : A -> list B) (P : A -> B -> Prop) l :
  (forall x, In x l -> exists y, g x = [y] /\ P x y) -> Forall2 P l (flat_map g l).
Proof.
  induction l as [|x r IH]; intros H; cbn; [constructor|].
  destruct (H x (or_introl eq_refl)) as (y & -> & Py). cbn. constructor; [exact Py|].
  apply IH. intros x' J. apply H. right. exact J.
Qed.
Lemma flat_map_none {A B : Type} (g : A -> list B) l : (forall x, In x l -> g x = []) -> flat_map g l = [].
Proof.
  induction l as [|x r IH]; intros H; cbn; [reflexivity|].
  rewrite (H x (or_introl eq_refl)). apply IH. intros x' J. apply H. right. exact J.
Qed.

Lemma C75_lemma f env te now z0 l0 evs l e l' new :
  fresh z0 -> (forall c, In c (fan_ctls z0) -> fan_failsafeTransition c = true) ->
  loop_start f env te now z0 = Ok l0 -> loop_run f evs l0 = Ok l ->
  loop_step f l (LTick e) = Ok l' -> new_events (l_zone l) (l_zone l') new ->
  (tuningEnabled f = false -> debugEnabled f = false -> manual_after false evs = false ->
   auto_ticks false evs = 0%nat \/ getFailSafeMode (l_zone l) <> getFailSafeMode (l_zone l') ->
   Forall2 (mode_line z0 new l') (fan_ctls (l_zone l)) (modes_in new)) /\
  (tuningEnabled f = true \/ debugEnabled f = true \/ manual_after false evs = true \/
   (auto_ticks false evs <> 0%nat /\ getFailSafeMode (l_zone l) = getFailSafeMode (l_zone l')) ->
   modes_in new = []).
Proof.
  intros Fr Tr H0 H1 H2 N.
  assert (R : reachable f z0 l) by (exists env, te, now, l0, evs; auto).
  assert (R' := reachable_step _ _ _ _ _ R H2).
  assert (I := reachable_msg _ _ _ R).
  assert (M := loop_run_mode _ _ _ _ _ _ H1 (start_mode _ _ _ _ _ _ Fr H0)). unfold mode in M. injection M as M1 M2.
  assert (Fst := fun A B => fan_state _ _ _ _ _ _ _ _ Fr H0 H1 A B).
  apply loop_step_tick in H2. apply loop_tick_cases in H2. destruct H2 as [(A & E)|(z1 & z2 & T)].
  - assert (new = []) as ->.
    { subst l'. unfold new_events in N. cbn [l_zone rearm] in N. apply (app_inv_tail (z_trace (l_zone l))). symmetry. exact N. }
    split; [|reflexivity]. intros _ _ Mf. congruence.
  - assert (Au : manual_after false evs = false) by (destruct T; congruence).
    assert (Tf := T). apply auto_tick_facts in Tf. destruct Tf as (evs' & Tf).
    assert (new = evs') by (eapply new_events_unique; [exact N|apply (tf_trace _ _ _ _ _ _ Tf)]). subst evs'.
    assert (W := tf_writes _ _ _ _ _ _ Tf). assert (Fa := tf_fans2 _ _ _ _ _ _ Tf).
    assert (Cz := tf_conf2 _ _ _ _ _ _ Tf).
    apply (msg_tick z0) in T; [|exact I].
    destruct T as (_ & _ & _ & _ & (e1 & e2 & e3 & Tr3 & O1 & O3 & _ & _ & Me2 & Me3 & _ & _ & _ & Fs & _)).
    assert (En : new = e3 ++ e2 ++ e1).
    { eapply new_events_unique; [exact N|]. rewrite Tr3, !app_assoc. reflexivity. }
    assert (Mn : modes_in new = flat_map (mode_msg f z2) (fan_ctls z2)).
    { rewrite En, !modes_app, Me2, Me3, (poll_modes _ O1). reflexivity. }
    assert (Gm : getFailSafeMode z2 = getFailSafeMode (l_zone l')) by (unfold getFailSafeMode; rewrite Fs; reflexivity).
    assert (Fc : fan_ctls z2 = fan_ctls (l_zone l)) by (unfold fan_ctls; rewrite Fa; reflexivity).
    rewrite Mn, Fc. split.
    + intros Tn Db _ Hc. specialize (Fst Tn Db).
      assert (L := lists_failing_reachable _ _ _ R'). rewrite Fs in L.
      apply flat_map_lines. intros c J. eexists. split.
      * apply mode_msg_some; [exact Tn|exact Db|]. rewrite Gm.
        destruct (Nat.eqb_spec (auto_ticks false evs) 0) as [Z|Z].
        -- left. apply Tr. unfold fan_ctls in *. rewrite <- Fst. exact J.
        -- right. destruct Hc as [Hc|Hc]; [contradiction|].
           rewrite Forall_forall in Fst. destruct (Fst c J) as [_ ->]. exact Hc.
      * eexists _, _. split; [|split; [exact L|]].
        -- rewrite Gm. destruct I as [Ci _ _ _]. assert (Ck : conf z2 = conf z0) by congruence.
           assert (z_zoneId z2 = z_zoneId z0) as -> by (use_conf Ck; reflexivity). reflexivity.
        -- intros n Jn. exists (z_redundantWrite z2). rewrite W. unfold all_fan_writes. apply in_flat_map.
           exists c. rewrite Fc. split; [exact J|]. unfold fan_writes. apply in_map_iff. exists n. split; [reflexivity|exact Jn].
    + intros Hc. apply flat_map_none. intros c J.
      destruct (tuningEnabled f) eqn:Tn; [unfold mode_msg; rewrite Tn; reflexivity|].
      destruct (debugEnabled f) eqn:Db; [unfold mode_msg; rewrite Tn, Db; reflexivity|].
      destruct Hc as [Hc|[Hc|[Hc|(Hc & Ge)]]]; [congruence..|].
      specialize (Fst eq_refl eq_refl). destruct (Nat.eqb_spec (auto_ticks false evs) 0) as [Z|Z]; [contradiction|].
      apply mode_msg_none. rewrite Gm, <- Ge. rewrite Forall_forall in Fst. exact (Fst c J).
Qed.

(** ** C76 *)
Lemma NoDup_filter {A : Type} (g : A -> bool) l : NoDup l -> NoDup (filter g l).
Proof.
  induction 1 as [|x r N D IH]; cbn; [constructor|]. destruct (g x); [|exact IH]. constructor; [|exact IH].
  intros J. apply filter_In in J. tauto.
Qed.

Lemma requester_sensors f z0 l z : reachable f z0 l -> z_failSafeSensors (l_zone l) = z_failSafeSensors z ->
  NoDup (not_fan_sensors z) /\ forall s, In s (not_fan_sensors z) <->
      is_input z0 s /\ ~ acceptable z0 s /\ bad_reason (last_poll s (z_trace (l_zone l))) <> None /\
      ~ (exists a b, s = (a ++ "Fan" ++ b)%string).
Proof.
  intros R E. unfold not_fan_sensors. rewrite <- E.
  assert (I := reachable_msg _ _ _ R). destruct I as [_ [S _] _ _]. split.
  - apply NoDup_filter, sorted_keys_NoDup. exact S.
  - intros s. rewrite filter_In, negb_true_iff, <- not_true_iff_false, str_contains_iff by discriminate.
    assert (K : In s (map fst (z_failSafeSensors (l_zone l))) <->
       exists e, mget s (z_failSafeSensors (l_zone l)) = Some e).
    { rewrite in_map_iff. split.
      - intros ([k e] & <- & J). exists e. apply sorted_In_mget; assumption.
      - intros (e & J). exists (s, e). split; [reflexivity|]. apply mget_In. exact J. }
    rewrite K, (fs_member _ _ _ _ R). tauto.
Qed.

(** A cycle of the zone [z], ending in the zone [z2] and shown by the loop as [l']. *)
Lemma requester_cycle f env te z0 z z2 l' :
  msg_inv z0 z -> tuningEnabled f = false -> thermal_cycle f env te z = Ok z2 -> reachable f z0 l' ->
  z_failSafeSensors (l_zone l') = z_failSafeSensors z2 -> sps (l_zone l') = sps z2 ->
  exists evs, z_trace z2 = evs ++ z_trace z /\
    (dle (z_maximumSetPoint (l_zone l')) (z_minThermalOutputSetPt z0) \/
     z_maximumSetPointName (l_zone l') = z_maximumSetPointNamePrev z -> requesters_in evs = []) /\
    (~ dle (z_maximumSetPoint (l_zone l')) (z_minThermalOutputSetPt z0) ->
     z_maximumSetPointName (l_zone l') <> z_maximumSetPointNamePrev z ->
     exists m, requesters_in evs = [m] /\ requester_line z0 (l_zone l') m).
Proof.
  intros I Tn H R Ef Es. apply (msg_cycle z0) in H; [|exact I].
  destruct H as (_ & evs & y & T & _ & _ & Rq & D & Pv & Cy0). exists evs. split; [exact T|].
  rewrite determine_split, Tn in D. injection D as D.
  destruct (det_core_frame y) as (_ & Cy & _ & _ & Fy & _).
  assert (Cl := proj1 (reachable_inv _ _ _ R)).
  assert (Ky : z_minThermalOutputSetPt y = z_minThermalOutputSetPt z0 /\ z_zoneId y = z_zoneId z0).
  { split; use_conf Cy0; reflexivity. }
  destruct Ky as [Ky1 Ky2].
  rewrite Rq. unfold requester_msg. rewrite D, Ky1, Ky2, Pv.
  assert (z_maximumSetPoint z2 = z_maximumSetPoint (l_zone l')) as -> by (unfold sps in Es; congruence).
  assert (z_maximumSetPointName z2 = z_maximumSetPointName (l_zone l')) as -> by (unfold sps in Es; congruence).
  unfold dle. split.
  - intros [->|E]; [reflexivity|]. destruct (dleb _ _); [reflexivity|]. rewrite E, String.eqb_refl. reflexivity.
  - intros Nd Ne. destruct (dleb _ _); [congruence|].
    destruct (String.eqb_spec (z_maximumSetPointName (l_zone l')) (z_maximumSetPointNamePrev z)); [contradiction|].
    eexists. split; [reflexivity|]. exists (not_fan_sensors y). split; [reflexivity|].
    apply (requester_sensors f); [exact R|]. rewrite Ef, <- D, Fy. reflexivity.
Qed.

Lemma C76_lemma f z0 l e l' new :
  reachable f z0 l -> z_maximumSetPointNamePrev z0 = "" -> tuningEnabled f = false ->
  loop_step f l (LTick e) = Ok l' -> new_events (l_zone l) (l_zone l') new ->
  let sp := z_maximumSetPoint (l_zone l') in
  let name := z_maximumSetPointName (l_zone l') in
  (thermal_cycles_in new = 0%nat \/ dle sp (z_minThermalOutputSetPt z0) \/
   name = last_requester (z_trace (l_zone l)) -> requesters_in new = []) /\
  (thermal_cycles_in new <> 0%nat -> ~ dle sp (z_minThermalOutputSetPt z0) ->
   name <> last_requester (z_trace (l_zone l)) ->
   exists m, requesters_in new = [m] /\ requester_line z0 (l_zone l') m).
Proof.
  intros R P0 Tn H N. cbv zeta.
  assert (R' := reachable_step _ _ _ _ _ R H). assert (I := reachable_msg _ _ _ R).
  apply loop_step_tick in H. apply loop_tick_cases in H. destruct H as [(A & E)|(z1 & z2 & T)].
  - assert (new = []) as ->.
    { subst l'. unfold new_events in N. cbn [l_zone rearm] in N. apply (app_inv_tail (z_trace (l_zone l))). symmetry. exact N. }
    split; [reflexivity|]. intros K. contradiction K. reflexivity.
  - assert (Tf := T). apply auto_tick_facts in Tf. destruct Tf as (evs' & Tf).
    assert (new = evs') by (eapply new_events_unique; [exact N|apply (tf_trace _ _ _ _ _ _ Tf)]). subst evs'.
    rewrite (tf_cycles _ _ _ _ _ _ Tf). assert (Th := at_therm _ _ _ _ _ _ T).
    apply (msg_tick z0) in T; [|exact I].
    destruct T as (_ & I1 & _ & Pv & (e1 & e2 & e3 & Tr3 & O1 & O3 & _ & T2 & _ & _ & D2 & _ & Sp & Fs & _)).
    assert (En : new = e3 ++ e2 ++ e1).
    { eapply new_events_unique; [exact N|]. rewrite Tr3, !app_assoc. reflexivity. }
    assert (Rn : requesters_in new = requesters_in e2).
    { rewrite En, !requesters_app, (fan_requesters _ O3), (poll_requesters _ O1), app_nil_r. reflexivity. }
    rewrite Rn. destruct (z_updateThermalsTimeMS (l_zone l) <=? l_cycleCnt l)%Z.
    + destruct (requester_cycle _ _ _ _ _ _ _ I1 Tn Th R' Fs Sp) as (e2' & T2' & K1 & K2).
      assert (e2' = e2) by (apply (app_inv_tail (z_trace z1)); congruence). subst e2'.
      rewrite Pv, (mi_prev _ _ I P0) in K1, K2. split.
      * intros [K|K]; [discriminate|auto].
      * intros _. exact K2.
    + subst e2. split; [reflexivity|]. intros K. contradiction K. reflexivity.
Qed.

(** The first cycle, at start-up. *)
Lemma C76_start_lemma f env te now z0 l0 :
  fresh z0 -> z_maximumSetPointNamePrev z0 = "" -> tuningEnabled f = false ->
  loop_start f env te now z0 = Ok l0 ->
  let sp := z_maximumSetPoint (l_zone l0) in
  (dle sp (z_minThermalOutputSetPt z0) \/ z_maximumSetPointName (l_zone l0) = "" ->
   requesters_in (z_trace (l_zone l0)) = []) /\
  (~ dle sp (z_minThermalOutputSetPt z0) -> z_maximumSetPointName (l_zone l0) <> "" ->
   exists m, requesters_in (z_trace (l_zone l0)) = [m] /\ requester_line z0 (l_zone l0) m).
Proof.
  intros Fr P0 Tn H. cbv zeta.
  assert (R : reachable f z0 l0) by (exists env, te, now, l0, []; auto).
  destruct (msg_start _ _ _ _ _ _ Fr H) as (_ & zi & Ii & Pi & Ri & _ & Th).
  destruct (requester_cycle _ _ _ _ _ _ _ Ii Tn Th R eq_refl eq_refl) as (evs & T & K1 & K2).
  rewrite T, requesters_app, Ri. cbn [app]. rewrite Pi, P0 in K1, K2. auto.
Qed.

(** ** C77 *)
Lemma updateSensors_flags f env z : updateSensors (without_tuning f) env z = updateSensors f env z.
Proof. reflexivity. Qed.

Lemma thermal_cycle_tuning f env te z :
  tuningEnabled f = true ->
  thermal_cycle f env te z =
  bind (thermal_cycle (without_tuning f) env te z)
    (fun y => bind (fileParseRpm true (te_global te) y) (fileParseRpm false (te_zone te))).
Proof.
  intros Tn. unfold thermal_cycle. rewrite (updateSensors_flags f).
  destruct (updateSensors f env (emit EvThermalCycle z)) as [z1|s|s]; [|reflexivity..]. cbn [bind].
  destruct (processThermals (clearRPMCeilings (clearSetPoints z1))) as [z2|s|s]; [|reflexivity..]. cbn [bind].
  rewrite !determine_split, Tn. reflexivity.
Qed.

Lemma file_errors_app a b : file_errors_in (a ++ b) = file_errors_in b ++ file_errors_in a.
Proof. unfold file_errors_in. rewrite rev_app_distr, flat_map_app. reflexivity. Qed.
Lemma file_errors_rev g ts : file_errors_in (rev (map (EvFileError g) ts)) = map (pair g) ts.
Proof. unfold file_errors_in. rewrite rev_involutive. induction ts; cbn; congruence. Qed.

Lemma C77_lemma f env te z z' :
  tuningEnabled f = true -> thermal_cycle f env te z = Ok z' ->
  exists y complaints, thermal_cycle (without_tuning f) env te z = Ok y /\
    z_trace z' = complaints ++ z_trace y /\
    file_errors_in complaints =
      map (pair true) (file_complaint (te_global te)) ++ map (pair false) (file_complaint (te_zone te)) /\
    (forall ev, In ev complaints -> exists g t, ev = EvFileError g t) /\
    z' = set_trace (z_trace z')
          (set_maximumSetPoint
             (match file_setpoint (te_zone te) with
              | Some v => v
              | None => match file_setpoint (te_global te) with Some v => v | None => z_maximumSetPoint y end
              end) y).
Proof.
  intros Tn H. rewrite (thermal_cycle_tuning _ _ _ _ Tn) in H.
  apply bind_ok in H. destruct H as (y & Hy & H). apply bind_ok in H. destruct H as (y1 & H1 & H2).
  apply fileParse_shape in H1. destruct H1 as (T1 & E1). apply fileParse_shape in H2. destruct H2 as (T2 & E2).
  exists y. eexists (_ ++ _). split; [exact Hy|]. split; [rewrite T2, T1, app_assoc; reflexivity|].
  split; [rewrite file_errors_app, !file_errors_rev; reflexivity|]. split.
  - intros ev J. apply in_app_or in J. destruct J as [J|J]; apply in_rev in J; apply in_map_iff in J;
      destruct J as (t & <- & _); eauto.
  - rewrite E2 at 1.
    assert (Em : z_maximumSetPoint y1 = match file_setpoint (te_global te) with Some v => v | None => z_maximumSetPoint y end)
      by (rewrite E1; reflexivity).
    rewrite Em. clear Em E2. rewrite E1. destruct (file_setpoint (te_zone te)); reflexivity.
Qed.

Lemma C77_runs_lemma f env te z y :
  tuningEnabled f = true -> thermal_cycle (without_tuning f) env te z = Ok y ->
  te_global te <> FileEmpty -> te_zone te <> FileEmpty ->
  exists z', thermal_cycle f env te z = Ok z'.
Proof.
  intros Tn H G Z. rewrite (thermal_cycle_tuning _ _ _ _ Tn), H. cbn [bind].
  assert (K : forall g c w, c <> FileEmpty -> exists w', fileParseRpm g c w = Ok w').
  { intros g c w Hc. destruct c as [|v|]; [eexists; reflexivity| |contradiction]. cbn.
    destruct (v <=? 0)%Z; [|destruct (v <=? 100)%Z]; eexists; reflexivity. }
  destruct (K true _ y G) as (w & ->). cbn [bind]. apply K. exact Z.
Qed.
