(** * The raw fan output in the log (C55; proofs only). *)
From Coq Require Import ZArith Bool List String Lia.
From Verif Require Import Base BaseFacts Dbl DblFacts PidModel ZoneModel LoopModel SpecZone ZoneFrame
  ZoneThermal ZoneFan ZoneProofs LoopProofs ReactionProofs CacheProofs ConfigModel SensorModel WriteModel
  SystemModel SpecSystem SystemProofs SystemProofs2 SystemProofs3.
Import ListNotations.
Local Open Scope string_scope.
Local Open Scope list_scope.
Local Arguments pid_process : simpl never.

Definition commanded (n : string) (tr : list event) : Prop := exists v b, In (EvWrite n v b) tr.
Definition no_write (e : event) : bool := match e with EvWrite _ _ _ => false | _ => true end.

Lemma no_write_last n l tr : forallb no_write l = true -> last_written n (l ++ tr) = last_written n tr.
Proof.
  induction l as [|e r IH]; [reflexivity|]. simpl. rewrite andb_true_iff. intros [E H].
  destruct e; simpl in *; try discriminate; auto.
Qed.
Lemma no_write_commanded n l tr : forallb no_write l = true -> commanded n (l ++ tr) <-> commanded n tr.
Proof.
  intros H. split; intros (v & b & I).
  - apply in_app_or in I. destruct I as [I|I]; [|exists v, b; exact I].
    rewrite forallb_forall in H. apply H in I. discriminate.
  - exists v, b. apply in_or_app. right. exact I.
Qed.
Lemma silent_no_write l : forallb silent l = true -> forallb no_write l = true.
Proof.
  rewrite !forallb_forall. intros H e I. apply H in I. destruct e; simpl in *; congruence.
Qed.

(** [R n v r]: a write of [v] to [n] may answer [r]. *)
Definition honest (R : string -> dbl -> option Z -> Prop) (w : write_env) : Prop :=
  forall n wr v force r, w n = Some wr -> wr v force = Ok r -> R n v r.
Definition raw_of (r : option Z) : dbl := D (match r with Some v => v | None => -1 end).

Section Cells.
  Variable R : string -> dbl -> option Z -> Prop.

  Definition rawc (z : zone) : Prop := forall n, smem n (z_fanInputs z) = true ->
    exists raw, mget n (z_cachedFanOutputs z) = Some (Entry (last_written n (z_trace z)) raw) /\
      ((~ commanded n (z_trace z) /\ raw = dnan) \/
       (commanded n (z_trace z) /\ exists r, R n (last_written n (z_trace z)) r /\ raw = raw_of r)).

  Lemma rawc_frame z z' evs :
    conf z' = conf z -> z_cachedFanOutputs z' = z_cachedFanOutputs z -> z_trace z' = evs ++ z_trace z ->
    forallb no_write evs = true -> rawc z -> rawc z'.
  Proof.
    intros C F T S B n.
    assert (E : z_fanInputs z' = z_fanInputs z) by (use_conf C; reflexivity).
    rewrite E, F, T, no_write_last by exact S. intros I. destruct (B n I) as (raw & M & D).
    exists raw. split; [exact M|]. rewrite no_write_commanded by exact S. exact D.
  Qed.

  Lemma rawc_polls f b env l z z' : processSensorInputs f b env l z = Ok z' -> rawc z -> rawc z'.
  Proof.
    unfold processSensorInputs. intros H K. pattern z'. eapply foldM_inv; [| |exact H]; [|exact K].
    intros s x s' _ I Hx. apply poll_one in Hx. destruct Hx as (v & _ & [C _ _ _ F V _ (evs & P & T)]).
    apply plain_silent, silent_no_write in P.
    match type of T with _ = evs ++ ?e :: _ =>
      eapply rawc_frame with (evs := evs ++ [e]) (z := s); [exact C|exact F| | |exact I] end.
    - rewrite <- app_assoc. exact T.
    - rewrite forallb_app, P. reflexivity.
  Qed.

  Lemma rawc_log f ts z : rawc z -> rawc (log_tokens f ts z).
  Proof.
    intros K. destruct (quiet_log f ts z) as [C _ _ _ _ V F T].
    eapply rawc_frame with (evs := []); eauto.
  Qed.

  Lemma rawc_fan_telemetry f env z z' : updateFanTelemetry f env z = Ok z' -> rawc z -> rawc z'.
  Proof.
    unfold updateFanTelemetry. intros H K. apply bind_ok in H. destruct H as (z1 & H1 & H). injection H as <-.
    apply rawc_log. eapply rawc_polls; [exact H1|]. apply rawc_log. exact K.
  Qed.

  Lemma rawc_thermal_cycle f env te z z' : thermal_cycle f env te z = Ok z' -> rawc z -> rawc z'.
  Proof.
    intros H K. apply thermal_cycle_split in H. destruct H as (z1 & z2 & H1 & F & _ & _ & _ & H4).
    assert (K1 : rawc z1).
    { unfold updateSensors in H1. eapply rawc_polls; [exact H1|].
      eapply rawc_frame with (evs := [EvThermalCycle]) (z := z); try exact K; reflexivity. }
    apply determine_frame in H4. destruct H4 as ((evs & P & T) & C & _ & _ & _ & V & O & _).
    destruct F as [Fc _ _ Fv Fo Ft _ _ _ _ _].
    change (conf z2 = conf z1) in Fc.
    change (z_cachedFanOutputs z2 = z_cachedFanOutputs z1) in Fo. change (z_trace z2 = z_trace z1) in Ft.
    apply plain_silent, silent_no_write in P. eapply rawc_frame with (evs := evs) (z := z1); try assumption; congruence.
  Qed.

  Lemma rawc_write w p z n z' : honest R w -> write_fan w p (Some (-1)%Z) z n = Ok z' -> rawc z -> rawc z'.
  Proof.
    unfold write_fan. intros Hw. destruct (w n) as [wr|] eqn:Ew; [|discriminate]. intros H B.
    apply bind_ok in H. destruct H as (r & Hr & H).
    assert (E : match r with Some v => Some v | None => Some (-1)%Z end =
                Some (match r with Some v => v | None => (-1)%Z end)) by (destruct r; reflexivity).
    rewrite E in H. injection H as <-. intros m I. cbn [z_cachedFanOutputs z_trace setOutputCache emit].
    simpl. rewrite mget_mset. destruct (String.eqb_spec m n) as [->|Nm].
    - eexists. split; [reflexivity|]. right. split; [eexists _, _; left; reflexivity|].
      exists r. split; [eapply Hw; eauto|reflexivity].
    - destruct (B m I) as (raw & M & D). exists raw. split; [exact M|].
      assert (Q : commanded m (EvWrite n p (z_redundantWrite z) :: z_trace z) <-> commanded m (z_trace z)).
      { split; intros (v & b & J).
        - destruct J as [J|J]; [injection J; intros; congruence|]. exists v, b. exact J.
        - exists v, b. right. exact J. }
      unfold commanded in Q, D |- *. simpl in Q |- *. rewrite Q. exact D.
  Qed.

  Lemma rawc_fan f w c z c' z' : honest R w -> fan_process f w c z = Ok (c', z') -> rawc z -> rawc z'.
  Proof.
    intros Hw. unfold fan_process. destruct (fan_setptProc c z) as [c1 sp]. intros H K.
    apply bind_ok in H. destruct H as (i & _ & H). destruct (pid_process (fan_pid c1) sp i) as [p o].
    unfold fan_outputProc in H.
    match type of H with context [foldM _ _ (if ?b then emit ?e z else z)] =>
      assert (K1 : rawc (if b then emit e z else z)) by
       (destruct b; [|exact K]; eapply rawc_frame with (evs := [e]) (z := z); try exact K; reflexivity);
      set (z1 := if b then emit e z else z) in * end.
    apply bind_ok in H. destruct H as (z2 & H & E). injection E as _ <-.
    pattern z2. eapply foldM_inv; [| |exact H]; [|exact K1].
    intros s x s' _ I Hx. eapply rawc_write; eauto.
  Qed.

  Lemma rawc_fans f w z z' : honest R w -> processFans f w z = Ok z' -> rawc z -> rawc z'.
  Proof.
    intros Hw. unfold processFans. intros H K. apply bind_ok in H. destruct H as ([fs z1] & H1 & H). injection H as <-.
    assert (K1 : rawc z1).
    { revert H1 K. generalize (z_fans z) as l. intros l. revert z fs z1.
      induction l as [|o r IH]; intros y fs z1 H K; simpl in H.
      - injection H as _ <-. exact K.
      - apply bind_ok in H. destruct H as ([o1 y1] & H1 & H). apply bind_ok in H. destruct H as ([r1 y2] & H2 & H).
        injection H as _ <-. eapply IH; [exact H2|].
        unfold opt_fan_process in H1. destruct o as [c|]; [|discriminate].
        apply bind_ok in H1. destruct H1 as ([c1 y3] & H1 & E). injection E as _ <-.
        eapply rawc_fan; eauto. }
    change (z_redundantWrite (set_fans fs z1)) with (z_redundantWrite z1).
    destruct (z_redundantWrite z1); exact K1.
  Qed.

  Lemma rawc_step f l ev l' : (forall e, ev = LTick e -> honest R (tk_write e)) ->
    loop_step f l ev = Ok l' -> rawc (l_zone l) -> rawc (l_zone l').
  Proof.
    intros Hw H K. destruct ev as [e|b|n b].
    - apply loop_step_tick, loop_tick_cases in H. destruct H as [(_ & ->)|(z1 & z2 & T)]; [exact K|].
      destruct T as [_ H1 H2 (z3 & P & ->) _ _]. apply rawc_log. eapply rawc_fans; [apply Hw; reflexivity|exact P|].
      apply rawc_fan_telemetry in H1; [|exact K].
      destruct (z_updateThermalsTimeMS (l_zone l) <=? l_cycleCnt l)%Z; [|subst; exact H1].
      eapply rawc_thermal_cycle; eauto.
    - injection H as <-. destruct b; exact K.
    - injection H as <-. simpl. unfold setProcessEnabled. destruct (mget _ _); exact K.
  Qed.

  Lemma rawc_start f env te now z0 l : fresh z0 -> loop_start f env te now z0 = Ok l -> rawc (l_zone l).
  Proof.
    intros (Fs & Tr & _) H. unfold loop_start in H. apply bind_ok in H. destruct H as (z1 & H1 & H). injection H as <-.
    eapply rawc_thermal_cycle; [exact H1|]. clear z1 H1.
    match goal with |- rawc (initializeCache ?w) => assert (Q : quiet_step z0 w []) by apply quiet_log; set (z := w) in * end.
    clearbody z. destruct Q as [C _ _ _ Qf _ _ Qt]. rewrite Fs in Qf. rewrite Tr in Qt. cbn [app] in Qt.
    destruct (initializeCache_inv z Qf) as (_ & Ci & evs & P & T). rewrite Qt, app_nil_r in T.
    assert (Et : z_thermalInputs (fold_left initializeCache_fan (z_fanInputs z) z) = z_thermalInputs z).
    { assert (I0 : init_inv [] z).
      { split; [rewrite Qf; apply sorted_nil|]. intros n. rewrite Qf. reflexivity. }
      destruct (init_fold initializeCache_fan (or_introl eq_refl) (z_fanInputs z) z [] I0) as (_ & B & _).
      use_conf B. reflexivity. }
    apply plain_silent, silent_no_write in P. intros n I. exists dnan.
    rewrite T. rewrite <- (app_nil_r evs), no_write_last by exact P.
    assert (E : z_fanInputs (initializeCache z) = z_fanInputs z) by (use_conf Ci; reflexivity). rewrite E in I.
    split.
    - unfold initializeCache. rewrite Et.
      destruct (init_thermal_cells (z_thermalInputs z) (fold_left initializeCache_fan (z_fanInputs z) z) n) as [_ ->].
      destruct (init_fan_cells (z_fanInputs z) z n) as [_ ->]. rewrite I. reflexivity.
    - left. split; [|reflexivity]. rewrite no_write_commanded by exact P. intros (v & b & []).
  Qed.
End Cells.

(** ** The system *)

Definition answers (w : writer) (v : dbl) (r : option Z) : Prop :=
  match w with
  | WDbus _ _ => r = wraw w v /\ r <> None
  | _ => r = None
  end.
Definition sys_answers (g : string -> option writer) (n : string) (v : dbl) (r : option Z) : Prop :=
  exists w, g n = Some w /\ answers w v r.

Lemma sensors_honest s : honest (sys_answers (wcoref s)) (sensors_write_env (sy_sensors s)).
Proof.
  intros n wr v force r. unfold sensors_write_env, sys_answers, wcoref.
  destruct (mget n (sy_sensors s)) as [[t rd w i|t i h]|]; cbn [option_map]; [| |discriminate].
  - intros E H. injection E as <-. exists (wcore w). split; [reflexivity|].
    destruct w as [p d|p a b c|]; cbn [sensor_write] in H.
    + apply bind_ok in H. destruct H as ([d' raw] & H & E). injection E as <-. cbn [snd].
      unfold answers. cbn [wcore wraw]. split; [|discriminate].
      unfold dbus_write in H. change (dw_target (dbus_writer_new (dw_percent d) (dw_min d) (dw_max d)) v) with (dw_target d v).
      destruct (to_int64 (dw_target d v)) as [x|]; [|discriminate].
      destruct (Z.eqb_spec (dw_oldValue d) x) as [->|_]; destruct force; cbn [andb negb] in H;
        try (injection H as _ <-; reflexivity);
        (destruct (to_uint64 (dw_target d v)); [|discriminate]); injection H as _ <-; reflexivity.
    + apply bind_ok in H. destruct H as (o & _ & H). injection H as <-. reflexivity.
    + injection H as <-. reflexivity.
  - intros E H. injection E as <-. discriminate.
Qed.

Definition all_rawc (g : string -> option writer) (s : system) : Prop :=
  Forall (fun l => rawc (sys_answers g) (l_zone l)) (sy_loops s).

Lemma nth_all {A} (P : A -> Prop) (l : list A) : (forall i x, nth_error l i = Some x -> P x) -> Forall P l.
Proof.
  intros H. apply Forall_forall. intros x I. apply In_nth_error in I. destruct I as (i & E). eapply H; exact E.
Qed.

Lemma update_all {A} (P : A -> Prop) i (g : A -> outcome A) l l' :
  (forall x y, g x = Ok y -> P x -> P y) -> update_nth i g l = Ok l' -> Forall P l -> Forall P l'.
Proof.
  intros Hg. revert l l'. induction i as [|i IH]; intros [|x r] l' H F; simpl in H;
    try (injection H as <-; exact F); inversion F; subst.
  - apply bind_ok in H. destruct H as (y & H1 & H). injection H as <-. constructor; eauto.
  - apply bind_ok in H. destruct H as (y & H1 & H). injection H as <-. constructor; eauto.
Qed.

Lemma all_rawc_step f sf pow10 g s e s' : (forall n, wcoref s n = g n) ->
  sys_step f sf pow10 s e = Ok s' -> all_rawc g s -> all_rawc g s'.
Proof.
  intros G H K. unfold all_rawc in *.
  destruct e as [path m|n' v t|m|c|i w|i b|i p b]; cbn [sys_step] in H.
  - apply bind_ok in H. destruct H as (l & _ & H). injection H as <-. exact K.
  - injection H as <-. exact K.
  - apply bind_ok in H. destruct H as (l & _ & H). injection H as <-. exact K.
  - injection H as <-. exact K.
  - apply tick_split in H.
    destruct H as [(_ & ->)|(l & l' & ls & k' & E1 & H & E2 & Eo & _ & ->)]; [exact K|].
    apply nth_all. intros j x Ej. destruct (Nat.eq_dec j i) as [->|Nj].
    + rewrite E2 in Ej. injection Ej as <-. eapply rawc_step; [|exact H|].
      * intros e E. injection E as <-. cbn [tk_write tick_of].
        intros n wr v0 force r A B. destruct (sensors_honest s n wr v0 force r A B) as (w0 & C & D).
        exists w0. rewrite <- G. split; assumption.
      * eapply (proj1 (Forall_forall _ _) K). eapply nth_error_In. exact E1.
    + rewrite Eo in Ej by exact Nj. eapply (proj1 (Forall_forall _ _) K). eapply nth_error_In. exact Ej.
  - apply bind_ok in H. destruct H as (ls & H1 & H). injection H as <-. cbn [sy_loops set_loops].
    eapply update_all; [|exact H1|exact K]. cbv beta. intros x y Hx. eapply rawc_step; [|exact Hx]. discriminate.
  - apply bind_ok in H. destruct H as (ls & H1 & H). injection H as <-. cbn [sy_loops set_loops].
    eapply update_all; [|exact H1|exact K]. cbv beta. intros x y Hx. eapply rawc_step; [|exact Hx]. discriminate.
Qed.

Lemma all_rawc_run f sf pow10 g evs : forall s s', (forall n, wcoref s n = g n) ->
  sys_run f sf pow10 evs s = Ok s' -> all_rawc g s -> all_rawc g s'.
Proof.
  unfold sys_run. induction evs as [|e r IH]; intros s s' G H K; cbn [foldM] in H.
  - injection H as <-. exact K.
  - apply bind_ok in H. destruct H as (s1 & H1 & H2). eapply IH; [|exact H2|].
    + intros n. rewrite (step_wcoref _ _ _ _ _ _ n H1). apply G.
    + eapply all_rawc_step; eauto.
Qed.

Lemma runs_rawc f sf pow10 sb config failures first devices zs evs s :
  runs f sf pow10 sb config failures first devices zs evs s -> all_rawc (wcoref s) s.
Proof.
  intros [Nd Fr (m & s0 & B & St & R)].
  assert (W : forall n, wcoref s0 n = wcoref s n) by (intros n; symmetry; eapply run_wcoref; exact R).
  eapply all_rawc_run; [exact W|exact R|].
  apply start_rest in St. cbn in St. destruct St as (_ & _ & _ & _ & ls & E & F2).
  unfold all_rawc. rewrite E. clear - Fr F2.
  induction F2 as [|e l zs ls (env & H) F2 IH]; [constructor|]. inversion Fr; subst.
  constructor; [|apply IH; assumption]. eapply rawc_start; eassumption.
Qed.

(** What the configuration says about the writer of a fan. *)
Lemma runs_fan_writer f sf pow10 sb config failures first devices zs evs s name info :
  runs f sf pow10 sb config failures first devices zs evs s ->
  In (name, info) config -> sc_type info = "fan" ->
  exists w, wcoref s name = Some w /\
    (bus_out (sc_writePath info) -> exists p d, w = WDbus p d /\ forall v, wraw w v = raw_for info v) /\
    (sysfs_out (sc_writePath info) -> forall p d, w <> WDbus p d).
Proof.
  intros [Nd Fr (m & s0 & B & St & R)] I Ty.
  destruct (C60_lemma _ _ _ _ _ B Nd) as (A1 & A2).
  assert (K : known_type (sc_type info)) by (left; exact Ty).
  destruct (A1 _ _ I K) as (x0 & E0 & S0).
  apply start_rest in St. cbn in St. destruct St as (E1 & _).
  assert (Wf : wcoref s name = match mget name m with Some (Pluggable _ _ w _) => Some (wcore w) | _ => None end).
  { rewrite (run_wcoref _ _ _ _ name _ _ R). unfold wcoref. rewrite E1. reflexivity. }
  destruct S0 as (_ & S0). destruct x0 as [t r w0 i|t i h]; [|destruct S0 as (S0 & _); contradiction].
  destruct S0 as (_ & _ & _ & _ & Wr). rewrite E0 in Wf. exists (wcore w0). split; [exact Wf|].
  assert (P0 : forall v, percent_ovalue (sc_min info) (sc_max info) v =
                 dadd (dmul (dsub (D (sc_max info)) (D (sc_min info))) v) (D (sc_min info))) by reflexivity.
  destruct w0 as [p d|p a b c|]; cbn in Wr.
  - destruct Wr as (_ & Wo & -> & _ & W1 & W2 & W3 & W4 & _). split.
    + intros _. eexists _, _. split; [reflexivity|].
      intros v. change (wraw (wcore (WDbus (sc_writePath info) d)) v = raw_for info v).
      rewrite wraw_core. cbn [wraw]. unfold dw_target, raw_for. rewrite W2, W3, P0.
      destruct (Z.ltb_spec 0 (sc_max info)), (dw_percent d); try reflexivity; intuition (congruence || lia).
    + intros X. exfalso. exact (bus_not_sysfs_out _ Wo X).
  - destruct Wr as (_ & Wo & _). split; [intros X; exfalso; exact (bus_not_sysfs_out _ X Wo)|].
    intros _ p' d'. discriminate.
  - split.
    + intros X. exfalso. unfold bus_out in *. tauto.
    + intros _ p' d'. discriminate.
Qed.

Lemma C55_raw_lemma f sf pow10 sb config failures first devices zs evs s i w s' l l' :
  runs f sf pow10 sb config failures first devices zs evs s -> loggingEnabled f = true ->
  sys_step f sf pow10 s (STick i w) = Ok s' ->
  nth_error (sy_loops s) i = Some l -> nth_error (sy_loops s') i = Some l' ->
  z_manualMode (l_zone l) = false ->
  exists fan therm,
    rev (z_log (l_zone l')) = rev (z_log (l_zone l)) ++
      csv_line (csv_row (l_zone l) (z_maximumSetPoint (l_zone l)) (z_maximumSetPointName (l_zone l))
                 fan therm (getFailSafeMode (l_zone l'))) /\
    forall name info, In name (z_fanInputs (l_zone l)) -> In (name, info) config -> sc_type info = "fan" ->
      let v := last_written name (z_trace (l_zone l)) in
      scaled (snd (fan name)) = v /\
      (~ (exists u b, In (EvWrite name u b) (z_trace (l_zone l))) -> unscaled (snd (fan name)) = dnan) /\
      ((exists u b, In (EvWrite name u b) (z_trace (l_zone l))) ->
       (bus_out (sc_writePath info) ->
          exists raw, raw_for info v = Some raw /\ unscaled (snd (fan name)) = D raw) /\
       (sysfs_out (sc_writePath info) -> unscaled (snd (fan name)) = D (-1))).
Proof.
  intros Rn L H El El' M. assert (K := runs_rawc _ _ _ _ _ _ _ _ _ _ _ Rn).
  cbn [sys_step] in H. apply tick_split in H.
  destruct H as [(E & _)|(l1 & l2 & ls & k' & E1 & H & E2 & _ & _ & E3)]; [congruence|].
  rewrite El in E1. injection E1 as <-. rewrite E3, E2 in El'. injection El' as ->.
  destruct (tick_step _ _ _ _ H M) as (z1 & z2 & new & T & _).
  assert (Lg := tick_log _ _ _ _ _ _ T L).
  eexists _, _. split; [rewrite Lg, rev_app_distr, rev_involutive; reflexivity|].
  intros name info I Ic Ty v. cbn [fst snd].
  assert (Kl := proj1 (Forall_forall _ _) K l (nth_error_In _ _ El)).
  destruct (Kl name) as (raw & Er & D0); [apply smem_In; exact I|].
  unfold cached_or_default. rewrite Er. cbn [scaled unscaled]. split; [reflexivity|].
  split; [intros N; destruct D0 as [(_ & X)|(X & _)]; [exact X|contradiction]|].
  intros C. destruct D0 as [(X & _)|(_ & r & (w0 & Ew & An) & ->)]; [contradiction|].
  destruct (runs_fan_writer _ _ _ _ _ _ _ _ _ _ _ _ _ Rn Ic Ty) as (w1 & Ew1 & Hb & Hs).
  rewrite Ew in Ew1. injection Ew1 as <-. split.
  - intros Bo. destruct (Hb Bo) as (p & d & -> & Wr). cbn [answers] in An. destruct An as (-> & Nn).
    rewrite Wr in Nn |- *. fold v in Nn |- *. destruct (raw_for info v) as [x|]; [|congruence].
    exists x. split; reflexivity.
  - intros So. assert (r = None) as ->; [|reflexivity].
    destruct w0 as [p d|p a b c|]; [exfalso; exact (Hs So p d eq_refl)|exact An|exact An].
Qed.
