(** * Consequences over whole runs of the loop (proofs only). *)
From Coq Require Import ZArith Bool List String Lia.
From Verif Require Import Base BaseFacts Dbl DblFacts PidModel ZoneModel LoopModel SpecZone ZoneFrame
  ZoneThermal ZoneFan ZoneProofs LoopProofs ReactionProofs CacheProofs.
Import ListNotations.
Local Open Scope string_scope.
Local Open Scope list_scope.

(** ** C16 *)
Definition sp_ok (z : zone) : Prop :=
  notnan (z_maximumSetPoint z) /\
  (notnan (z_minThermalOutputSetPt z) -> dle (z_minThermalOutputSetPt z) (z_maximumSetPoint z)).

Lemma sp_ok_frame z z' : conf z' = conf z -> z_maximumSetPoint z' = z_maximumSetPoint z -> sp_ok z -> sp_ok z'.
Proof.
  intros C M [A B]. unfold sp_ok. rewrite M.
  assert (E : z_minThermalOutputSetPt z' = z_minThermalOutputSetPt z) by (use_conf C; reflexivity).
  rewrite E. auto.
Qed.
Lemma sp_ok_cycle f env te z z' : thermal_cycle f env te z = Ok z' -> tuningEnabled f = false -> sp_ok z'.
Proof.
  intros H T. destruct (C16_lemma _ _ _ _ _ H T) as [A B]. apply thermal_cycle_frame in H.
  destruct H as (C & _). unfold sp_ok.
  assert (E : z_minThermalOutputSetPt z' = z_minThermalOutputSetPt z) by (use_conf C; reflexivity).
  rewrite E. auto.
Qed.
Lemma sps_max z z' : sps z' = sps z -> z_maximumSetPoint z' = z_maximumSetPoint z.
Proof. unfold sps. intros H. injection H. auto. Qed.

Lemma sp_ok_step f l ev l' :
  tuningEnabled f = false -> loop_step f l ev = Ok l' -> sp_ok (l_zone l) -> sp_ok (l_zone l').
Proof.
  intros Tn H K. destruct ev as [e|b|n b].
  - apply loop_step_tick, loop_tick_cases in H. destruct H as [(_ & ->)|(z1 & z2 & T)]; [exact K|].
    destruct T as [_ H1 H2 (z3 & P & ->) _ _].
    apply processFans_spec in P. destruct P as (C3 & _ & _ & S3 & _).
    destruct (quiet_log f [LComma; LBool (getFailSafeMode z3); LEndl] z3) as [C4 _ S4 _ _ _ _ _].
    apply sp_ok_frame with (z := z2); [congruence|apply sps_max; congruence|].
    destruct (z_updateThermalsTimeMS (l_zone l) <=? l_cycleCnt l)%Z.
    + eapply sp_ok_cycle; eauto.
    + subst z2. apply updateFanTelemetry_spec in H1. destruct H1 as (C1 & _ & S1 & _).
      eapply sp_ok_frame; [exact C1|apply sps_max, S1|exact K].
  - injection H as <-. destruct b; exact K.
  - injection H as <-. simpl. unfold setProcessEnabled. destruct (mget _ _); exact K.
Qed.
Lemma sp_ok_run f evs : tuningEnabled f = false -> forall l l',
  loop_run f evs l = Ok l' -> sp_ok (l_zone l) -> sp_ok (l_zone l').
Proof.
  intros Tn. induction evs as [|e r IH]; intros l l' H K; simpl in H.
  - injection H as <-. exact K.
  - apply bind_ok in H. destruct H as (l1 & H1 & H2). eapply IH; [exact H2|]. eapply sp_ok_step; eauto.
Qed.
Lemma C16_reach f z0 l :
  reachable f z0 l -> tuningEnabled f = false ->
  notnan (z_maximumSetPoint (l_zone l)) /\
  (notnan (z_minThermalOutputSetPt z0) -> dle (z_minThermalOutputSetPt z0) (z_maximumSetPoint (l_zone l))).
Proof.
  intros R Tn. destruct (reachable_inv _ _ _ R) as (C & _).
  assert (E : z_minThermalOutputSetPt (l_zone l) = z_minThermalOutputSetPt z0) by (use_conf C; reflexivity).
  rewrite <- E. destruct R as (env & te & now & l0 & evs & _ & H0 & H1).
  eapply sp_ok_run; [exact Tn|exact H1|]. unfold loop_start in H0. apply bind_ok in H0.
  destruct H0 as (z1 & H0 & H). injection H as <-. eapply sp_ok_cycle; eauto.
Qed.

(** ** C17-C21 in terms of [failing] *)
Lemma failing_entry f z0 l s : reachable f z0 l ->
  (exists e, mget s (z_failSafeSensors (l_zone l)) = Some e) <-> failing z0 (z_trace (l_zone l)) s.
Proof. intros R. unfold failing. apply fs_member with (f := f). exact R. Qed.

Lemma failing_mode f z0 l : reachable f z0 l ->
  getFailSafeMode (l_zone l) = true <-> exists s, failing z0 (z_trace (l_zone l)) s.
Proof.
  intros R. destruct (reachable_inv _ _ _ R) as (_ & I). rewrite (fs_mode _ I).
  split; intros (s & H); exists s; apply (failing_entry f z0 l s R); exact H.
Qed.

Lemma failing_percent f z0 l : reachable f z0 l -> percents_ok z0 ->
  getFailSafeMode (l_zone l) = true -> top_percent z0 (z_trace (l_zone l)) (getFailSafePercent (l_zone l)).
Proof.
  intros R P M. destruct (C19_lemma _ _ _ R P M) as ((n & e & En & Q) & A). split.
  - exists n. split; [|exact Q]. apply (failing_entry f z0 l n R). eauto.
  - intros s Fs. apply (failing_entry f z0 l s R) in Fs. destruct Fs as (x & Ex). eapply A; eauto.
Qed.

Lemma C20_failing f z0 l e l' evs n v b s :
  reachable f z0 l -> loop_step f l (LTick e) = Ok l' -> z_manualMode (l_zone l) = false ->
  tuningEnabled f = false -> percents_ok z0 -> new_events (l_zone l) (l_zone l') evs ->
  In (n, v, b) (writes_in evs) -> notnan v -> failing z0 (z_trace (l_zone l')) s ->
  dle (ddiv (own_percent z0 s) (D 100)) v.
Proof.
  intros R H M Tn P Nw I Nn Fl. eapply C20_lemma; eauto.
  apply (failing_entry f z0 l' s); [eapply reachable_step; eauto|exact Fl].
Qed.

Lemma C21_failing f z0 l e l' evs n v b :
  reachable f z0 l -> loop_step f l (LTick e) = Ok l' -> z_manualMode (l_zone l) = false ->
  tuningEnabled f = false -> STRICT_FAILSAFE_PWM f = true -> percents_ok z0 ->
  new_events (l_zone l) (l_zone l') evs ->
  In (n, v, b) (writes_in evs) -> (exists s, failing z0 (z_trace (l_zone l')) s) ->
  exists p, v = ddiv p (D 100) /\ top_percent z0 (z_trace (l_zone l')) p.
Proof.
  intros R H M Tn S P Nw I Fl. assert (R' := reachable_step _ _ _ _ _ R H).
  apply (failing_mode f z0 l' R') in Fl.
  exists (getFailSafePercent (l_zone l')). split; [eapply (C21_lemma f z0 l e l'); eauto|apply (failing_percent f); auto].
Qed.

(** ** C25 *)
Lemma manual_frozen f evs : forall l,
  z_manualMode (l_zone l) = true -> ~ In (LManual false) evs ->
  exists l', loop_run f evs l = Ok l' /\
    z_trace (l_zone l') = z_trace (l_zone l) /\ z_log (l_zone l') = z_log (l_zone l) /\
    z_manualMode (l_zone l') = true /\ l_cycleCnt l' = l_cycleCnt l /\
    z_fans (l_zone l') = z_fans (l_zone l) /\ z_thermals (l_zone l') = z_thermals (l_zone l) /\
    z_failSafeSensors (l_zone l') = z_failSafeSensors (l_zone l) /\
    z_maximumSetPoint (l_zone l') = z_maximumSetPoint (l_zone l).
Proof.
  induction evs as [|e r IH]; intros l M N.
  - exists l. repeat split; auto.
  - assert (Nr : ~ In (LManual false) r) by (intros I; apply N; right; exact I).
    assert (S : exists l1, loop_step f l e = Ok l1 /\
       z_trace (l_zone l1) = z_trace (l_zone l) /\ z_log (l_zone l1) = z_log (l_zone l) /\
       z_manualMode (l_zone l1) = true /\ l_cycleCnt l1 = l_cycleCnt l /\
       z_fans (l_zone l1) = z_fans (l_zone l) /\ z_thermals (l_zone l1) = z_thermals (l_zone l) /\
       z_failSafeSensors (l_zone l1) = z_failSafeSensors (l_zone l) /\
       z_maximumSetPoint (l_zone l1) = z_maximumSetPoint (l_zone l)).
    { destruct e as [t|b|n b].
      - simpl. unfold loop_tick. rewrite M. eexists. split; [reflexivity|]. repeat split; exact M.
      - destruct b; [|exfalso; apply N; left; reflexivity].
        eexists. split; [reflexivity|]. repeat split.
      - simpl. eexists. split; [reflexivity|]. simpl. unfold setProcessEnabled.
        destruct (mget _ _); repeat split; exact M. }
    destruct S as (l1 & E & A1 & A2 & A3 & A4 & A5 & A6 & A7 & A8).
    destruct (IH l1 A3 Nr) as (l' & E' & B1 & B2 & B3 & B4 & B5 & B6 & B7 & B8).
    exists l'. split; [unfold loop_run; cbn [foldM]; rewrite E; exact E'|]. repeat split; congruence.
Qed.

(** ** C23, C24 *)
Lemma acceptable_none f z0 l s :
  reachable f z0 l -> acceptable z0 s -> mget s (z_failSafeSensors (l_zone l)) = None.
Proof.
  intros R A. destruct (mget s (z_failSafeSensors (l_zone l))) as [[r p]|] eqn:E; [|reflexivity].
  apply (fs_entry f z0 l s R) in E. tauto.
Qed.
Lemma stale_entry f z0 l s now v :
  reachable f z0 l -> is_input z0 s -> ~ acceptable z0 s ->
  last_poll s (z_trace (l_zone l)) = Some (now, v) ->
  (1 <= sv_timeout v)%Z -> (sv_updated v + sv_timeout v * 1000000000 <= now)%Z ->
  exists reason, mget s (z_failSafeSensors (l_zone l)) = Some (reason, own_percent z0 s) /\
    (sv_failed v = false -> reason = "Sensor timeout").
Proof.
  intros R I A P T1 T2. apply (timed_out_iff now v T1) in T2.
  exists (if sv_failed v then sv_reason v else "Sensor timeout").
  split; [|intros ->; reflexivity].
  apply (fs_entry f z0 l s R). rewrite P. cbn [bad_reason].
  split; [exact I|]. split; [exact A|]. split; [|reflexivity].
  rewrite T2. destruct (sv_failed v); reflexivity.
Qed.
Lemma fresh_entry f z0 l s now v :
  reachable f z0 l -> last_poll s (z_trace (l_zone l)) = Some (now, v) -> sv_failed v = false ->
  sv_timeout v = 0%Z \/ ((1 <= sv_timeout v) /\ (now < sv_updated v + sv_timeout v * 1000000000))%Z ->
  mget s (z_failSafeSensors (l_zone l)) = None.
Proof.
  intros R P F T. destruct (mget s (z_failSafeSensors (l_zone l))) as [[r p]|] eqn:E; [|reflexivity].
  apply (fs_entry f z0 l s R) in E. destruct E as (_ & _ & B & _). rewrite P in B. cbn [bad_reason] in B.
  rewrite F in B. destruct T as [T|(T1 & T2)].
  - rewrite (timed_out_zero _ _ T) in B. discriminate.
  - destruct (timed_out now v) eqn:O; [|discriminate]. apply (timed_out_iff now v T1) in O. lia.
Qed.
