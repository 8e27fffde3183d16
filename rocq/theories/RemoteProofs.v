(** * Proofs about IPMI requests to the running daemon. *)
From Coq Require Import ZArith Bool List String Lia.
From Verif Require Import Base BaseFacts Dbl PidModel ZoneModel LoopModel SpecZone ZoneFrame ZoneProofs LoopProofs SensorModel WriteModel SystemModel SpecSystem
  SystemProofs SystemProofs3 SystemProofs4 BuilderRun ConfigModel SensorModel JsonModel DbusConfigModel MainModel SpecMain MainProofs MainProofs2 ConfigModel ReloadModel StartModel SpecStart StartProofs
  DaemonModel SpecDaemon DaemonProofs DaemonProofs2 DaemonProofs4 StopProofs StopProofs2 SpecLife LifeProofs LifeProofs2 IpmiModel ConfigProofs RemoteModel SpecRemote.
From Verif Require BuilderModel.
Import ListNotations.
Local Open Scope string_scope.

(** ** Objects of zones *)

Lemma control_path n : BuilderModel.getControlPath n = object_of n.
Proof. reflexivity. Qed.
Lemma object_inj a b : object_of a = object_of b -> a = b.
Proof. unfold object_of. intros E. apply append_inj in E. exact (to_string_inj _ _ E). Qed.

(** [zone_at] finds the first zone with the number. *)
Lemma zone_at_first n ls : forall i z, zone_at (object_of n) ls = Some (i, z) <->
  (exists l, nth_error ls i = Some l /\ l_zone l = z /\ z_zoneId z = n) /\ forall j l, j < i -> nth_error ls j = Some l -> z_zoneId (l_zone l) <> n.
Proof.
  induction ls as [|x r IH]; intros i z; cbn [zone_at].
  - split; [discriminate|]. intros ((l & E & _) & _). destruct i; discriminate E.
  - rewrite control_path. destruct (String.eqb_spec (object_of (z_zoneId (l_zone x))) (object_of n)) as [E|E].
    + apply object_inj in E. split.
      * intros H. injection H as <- <-. split; [exists x; auto|]. intros j l L. lia.
      * intros ((l & H & <- & <-) & F). destruct i as [|i]; [injection H as <-; reflexivity|].
        exfalso. exact (F 0 x ltac:(lia) eq_refl E).
    + assert (N : z_zoneId (l_zone x) <> n) by (intros X; apply E; f_equal; exact X). split.
      * intros H. destruct (zone_at (object_of n) r) as [(i' & z')|] eqn:Ez; [|discriminate H]. injection H as <- <-.
        destruct (proj1 (IH i' z') eq_refl) as (A & B). split; [exact A|]. intros [|j] l L X; [injection X as <-; exact N|]. exact (B j l ltac:(lia) X).
      * intros ((l & H & Hz & Hn) & F). destruct i as [|i]; [injection H as <-; subst z; elim (N Hn)|].
        assert (X : zone_at (object_of n) r = Some (i, z)).
        { apply IH. split; [exists l; auto|]. intros j l' L X. exact (F (S j) l' ltac:(lia) X). }
        rewrite X. reflexivity.
Qed.
Lemma zone_at_none n ls : zone_at (object_of n) ls = None <-> ~ In n (map (fun l => z_zoneId (l_zone l)) ls).
Proof.
  induction ls as [|x r IH]; cbn [zone_at map]; [split; [intros _ []|reflexivity]|].
  rewrite control_path. destruct (String.eqb_spec (object_of (z_zoneId (l_zone x))) (object_of n)) as [E|E].
  - apply object_inj in E. split; [discriminate|]. intros X. elim X. left. exact E.
  - destruct (zone_at (object_of n) r) as [p|]; cbn [option_map].
    + split; [discriminate|]. intros X. assert (Y : Some p = None) by (apply IH; intros I; apply X; right; exact I). discriminate Y.
    + split; [|reflexivity]. intros _ [X|X]; [apply E; f_equal; exact X|]. exact (proj1 IH eq_refl X).
Qed.
Lemma zone_at_unique n ls i l : NoDup (map (fun l => z_zoneId (l_zone l)) ls) -> nth_error ls i = Some l -> z_zoneId (l_zone l) = n ->
  zone_at (object_of n) ls = Some (i, l_zone l).
Proof.
  intros Nd E <-. apply zone_at_first. split; [exists l; auto|]. intros j l' L X Eq. assert (j = i); [|lia].
  apply (proj1 (NoDup_nth_error _) Nd); [rewrite map_length; apply nth_error_Some; congruence|].
  rewrite (map_nth_error _ _ _ E), (map_nth_error _ _ _ X), Eq. reflexivity.
Qed.

(** The mode and the number of a zone depend on little. *)
Lemma zone_at_kept n ls ls' i z z' : zone_at (object_of n) ls = Some (i, z) ->
  map (fun l => z_zoneId (l_zone l)) ls' = map (fun l => z_zoneId (l_zone l)) ls -> 
  (exists l', nth_error ls' i = Some l' /\ l_zone l' = z') -> zone_at (object_of n) ls' = Some (i, z').
Proof.
  intros H M (l' & E' & <-). apply zone_at_first in H. destruct H as ((l & E & <- & Hn) & F).
  assert (Same : forall j x y, nth_error ls' j = Some x -> nth_error ls j = Some y -> z_zoneId (l_zone x) = z_zoneId (l_zone y)).
  { intros j x y X Y. apply (map_nth_error (fun l => z_zoneId (l_zone l))) in X, Y. rewrite M in X. congruence. }
  apply zone_at_first. split; [exists l'; rewrite (Same _ _ _ E' E); auto|]. intros j x L X.
  destruct (nth_error ls j) as [y|] eqn:Y; [rewrite (Same _ _ _ X Y); exact (F j y L Y)|].
  exfalso. apply nth_error_None in Y. apply (f_equal (@List.length Z)) in M. rewrite !map_length in M.
  assert (Z : nth_error ls' j <> None) by congruence. apply nth_error_Some in Z. lia.
Qed.

(** ** Answers *)

Lemma low_paths zone : (0 <= zone < 128)%Z -> ipmi_getControlPath zone = object_of zone.
Proof. intros L. exact (proj1 (low_zone_path zone L)). Qed.

Lemma answers_zone others sends d zone rest i z : (0 <= zone < 128)%Z -> m_stopped (dm_main d) = false ->
  zone_at (object_of zone) (sy_loops (dm_sys d)) = Some (i, z) ->
  let a c := answer others sends d (c :: zone :: rest) in
  rp_code (a 0%Z) = Ok 0%Z /\ rp_data (a 0%Z) = Some (if z_manualMode z then 1 else 0)%Z /\
  rp_code (a 2%Z) = Ok 0%Z /\ rp_data (a 2%Z) = Some (if getFailSafeMode z then 1 else 0)%Z.
Proof.
  intros L St E a. destruct (C42_dbus_lemma (daemon_bus others d) sends zone L) as (_ & G). cbv zeta in G.
  pose proof (G 0%Z "Manual" rest (or_introl (conj eq_refl eq_refl))) as G0. pose proof (G 2%Z "FailSafe" rest (or_intror (conj eq_refl eq_refl))) as G2.
  clear G. unfold a, answer. fold (object_of zone) in G0, G2.
  assert (B : daemon_bus others d (object_of zone) = Some (zone_props z)) by (unfold daemon_bus; rewrite St, E; reflexivity).
  rewrite B in G0, G2. destruct G0 as (A1 & A2), G2 as (A3 & A4). rewrite A1, A2, A3, A4. cbn.
  split; [reflexivity|]. split; [destruct (z_manualMode z); reflexivity|]. split; [reflexivity|]. destruct (getFailSafeMode z); reflexivity.
Qed.

Lemma answers_nobody others sends d zone rest : (0 <= zone < 128)%Z -> ~ In zone (zone_numbers d) \/ m_stopped (dm_main d) = true ->
  forall c, c = 0%Z \/ c = 2%Z -> let a := answer others sends d (c :: zone :: rest) in rp_code a = Ok 193%Z /\ rp_data a = None.
Proof.
  intros L N c C a. destruct (C42_dbus_lemma (daemon_bus others d) sends zone L) as (_ & G). cbv zeta in G.
  assert (B : daemon_bus others d (object_of zone) = None).
  { unfold daemon_bus. destruct (m_stopped (dm_main d)) eqn:St; [reflexivity|]. destruct N as [N|N]; [|discriminate N].
    assert (X : zone_at (object_of zone) (sy_loops (dm_sys d)) = None) by (apply zone_at_none; intros I; apply N; apply in_or_app; left; exact I).
    rewrite X. match goal with |- (if ?b then _ else _) = None => destruct b eqn:Ex end; [|reflexivity].
    exfalso. apply existsb_exists in Ex. destruct Ex as (j & I & Ej). apply String.eqb_eq in Ej. apply object_inj in Ej. apply N, in_or_app. right.
    rewrite <- Ej. apply in_map, I. }
  unfold a, answer. destruct C as [-> | ->].
  - specialize (G 0%Z "Manual" rest (or_introl (conj eq_refl eq_refl))). fold (object_of zone) in G. rewrite B in G. exact G.
  - specialize (G 2%Z "FailSafe" rest (or_intror (conj eq_refl eq_refl))). fold (object_of zone) in G. rewrite B in G. exact G.
Qed.

Lemma failsafe_some z : getFailSafeMode z = true <-> some_failure z.
Proof.
  unfold getFailSafeMode, some_failure. destruct (z_failSafeSensors z) as [|(n & p) r]; cbn.
  - split; [discriminate|]. intros (n & X). elim X. reflexivity.
  - split; [|reflexivity]. intros _. exists n. rewrite String.eqb_refl. discriminate.
Qed.

(** ** One event of the daemon *)

Lemma sys_numbers f sf pow10 s e s' : sys_step f sf pow10 s e = Ok s' ->
  map (fun l => z_zoneId (l_zone l)) (sy_loops s') = map (fun l => z_zoneId (l_zone l)) (sy_loops s) /\
  forall i l l', nth_error (sy_loops s) i = Some l -> nth_error (sy_loops s') i = Some l' ->
    (forall b, e <> SManual i b) -> z_manualMode (l_zone l') = z_manualMode (l_zone l).
Proof.
  intros H.
  assert (Each : forall i l, nth_error (sy_loops s) i = Some l -> exists l', nth_error (sy_loops s') i = Some l' /\
    z_zoneId (l_zone l') = z_zoneId (l_zone l) /\ ((forall b, e <> SManual i b) -> z_manualMode (l_zone l') = z_manualMode (l_zone l))).
  { intros i l E. destruct (step_loops _ _ _ _ _ _ _ _ H E) as (l' & E' & R). exists l'. split; [exact E'|].
    cbn [proj] in R. rewrite H, app_nil_r in R.
    assert (Q : forall x, loop_run f [x] l = Ok l' -> z_zoneId (l_zone l') = z_zoneId (l_zone l) /\ ((forall b, x <> LManual b) -> z_manualMode (l_zone l') = z_manualMode (l_zone l))).
    { intros x X. unfold loop_run in X. cbn [foldM] in X. apply bind_ok in X. destruct X as (l1 & X & Y). injection Y as ->.
      destruct (loop_step_conf _ _ _ _ X) as (C & _). split; [use_conf C; reflexivity|]. intros N. rewrite (count_mode _ _ _ _ X).
      destruct x as [t|b|p b]; cbn; try reflexivity. elim (N b eq_refl). }
    assert (Nothing : loop_run f [] l = Ok l' -> z_zoneId (l_zone l') = z_zoneId (l_zone l) /\ z_manualMode (l_zone l') = z_manualMode (l_zone l)).
    { intros X. injection X as <-. auto. }
    destruct e as [p m|n' v t|m|c|j w|j b|j p b]; try (destruct (Nothing R); auto; fail); destruct (Nat.eqb_spec j i) as [->|N]; try (destruct (Nothing R); auto; fail).
    - destruct (Q _ R) as (A & B). split; [exact A|]. intros _. apply B. discriminate.
    - destruct (Q _ R) as (A & B). split; [exact A|]. intros X. elim (X b eq_refl).
    - destruct (Q _ R) as (A & B). split; [exact A|]. intros _. apply B. discriminate. }
  assert (Len : List.length (sy_loops s') = List.length (sy_loops s)).
  { assert (Upd : forall i g ls, update_nth i g (sy_loops s) = Ok ls -> List.length ls = List.length (sy_loops s)) by (intros i g ls U; apply update_nth_spec in U; apply U).
    destruct e as [p m|n' v t|m|c|i w|i b|i p b]; cbn [sys_step] in H; try (apply bind_ok in H; destruct H as (x & U & H)); try (injection H as <-; reflexivity).
    - unfold sys_tick in H. destruct (nth_error (sy_loops s) i) as [li|]; [|injection H as <-; reflexivity].
      apply bind_ok in H. destruct H as ([] & _ & H). apply bind_ok in H. destruct H as (ls & U & H). apply bind_ok in H. destruct H as (ks & W & H).
      injection H as <-. rewrite <- (Upd _ _ _ U). destruct (nth_error ls i); [|injection W as <-; reflexivity].
      destruct ks as (k2 & s2). apply writes_rest in W. destruct W as (_ & _ & _ & W). apply (f_equal (@List.length loop)) in W. exact W.
    - injection H as <-. exact (Upd _ _ _ U).
    - injection H as <-. exact (Upd _ _ _ U). }
  split.
  - apply (nth_ext _ _ 0%Z 0%Z); [rewrite !map_length; exact Len|]. intros i L. rewrite map_length in L.
    destruct (nth_error (sy_loops s) i) as [l|] eqn:E; [|apply nth_error_None in E; lia].
    destruct (Each i l E) as (l' & E' & Z & _).
    rewrite (nth_error_nth _ _ _ (map_nth_error (fun l => z_zoneId (l_zone l)) _ _ E)), (nth_error_nth _ _ _ (map_nth_error (fun l => z_zoneId (l_zone l)) _ _ E')). exact Z.
  - intros i l l' E E' N. destruct (Each i l E) as (l2 & E2 & _ & X). rewrite E2 in E'. injection E' as <-. exact (X N).
Qed.

Lemma update_manual f v ls : forall i, exists x, update_nth i (fun l => loop_step f l (LManual v)) ls = Ok x.
Proof.
  induction ls as [|y r IH]; intros [|i]; cbn; try (eexists; reflexivity).
  destruct (IH i) as (x & X). cbn [loop_step] in X. rewrite X. eexists. reflexivity.
Qed.

Section Remote.
Context (f : flags) (sf : sflags) (pow10 : Z -> dbl) (re : regex) (named : string).
Notation step := (daemon_step f sf pow10 re named).
Notation run := (daemon_run f sf pow10 re named).
Notation wstep := (world_step f sf pow10 re named).
Notation wrun := (world_run f sf pow10 re named).

Lemma step_numbers d e d1 : step d e = Ok d1 -> m_stopped (dm_main d1) = false ->
  nstops (m_log (dm_main d1)) = nstops (m_log (dm_main d)) ->
  running_numbers d1 = running_numbers d /\
  forall i l l', nth_error (sy_loops (dm_sys d)) i = Some l -> nth_error (sy_loops (dm_sys d1)) i = Some l' ->
    (forall b, e <> DSys (SManual i b)) -> z_manualMode (l_zone l') = z_manualMode (l_zone l).
Proof.
  intros H Sp Q. assert (Same : dm_sys d1 = dm_sys d -> running_numbers d1 = running_numbers d /\
    forall i l l', nth_error (sy_loops (dm_sys d)) i = Some l -> nth_error (sy_loops (dm_sys d1)) i = Some l' ->
    (forall b, e <> DSys (SManual i b)) -> z_manualMode (l_zone l') = z_manualMode (l_zone l)).
  { intros E. unfold running_numbers. rewrite E. split; [reflexivity|]. intros. congruence. }
  destruct (m_stopped (dm_main d)) eqn:St.
  { unfold daemon_step in H. rewrite St in H. injection H as <-. apply Same. reflexivity. }
  pose proof (step_kind f sf pow10 re named d e d1 St H) as K.
  destruct K as [e d1 l K1 K2 K3 K4 K5 K6|x s K1 K2|x K1|w k i m s K1 K2 K3|w k i K1 K2|w k i m t K1 K2 K3|w k r m d' b ex s bus K1 K2 K3 K4|w k o r m K1 K2 K3 K4|w k r m d' K1 K2 K3].
  - apply Same. rewrite K5. reflexivity.
  - destruct (sys_numbers _ _ _ _ _ _ K2) as (A & B). split; [exact A|]. intros i l l' E E' N. apply (B i l l' E E'). intros b0 ->. exact (N b0 eq_refl).
  - discriminate Sp.
  - destruct (sys_numbers f sf pow10 (dm_sys d) (STick m k) s K3) as (A & B). split; [exact A|]. intros j l l' E E' N. apply (B j l l' E E'). discriminate.
  - apply Same. reflexivity.
  - apply Same. reflexivity.
  - exfalso. pose proof (stop_shown _ _ _ _ true b St K1 eq_refl K2) as L.
    unfold dm_main in L at 2. rewrite <- (reload_run_main (dm_reload d) true b bus St) in L. change (dm_main (let rl := reload_step (dm_reload d) (VRun true b bus) in
       Daemon rl s (dm_ids d' ++ firstn (started b) (m_zones (rl_main rl))) ex)) with (rl_main (reload_step (dm_reload d) (VRun true b bus))) in Q. lia.
  - discriminate Sp.
  - exfalso. pose proof (stop_shown _ _ _ _ true BNotReady St K1 eq_refl K2) as L. destruct (clear_reload f _ _ _ _ K3) as (X & _).
    unfold dm_main in L at 2. rewrite <- (reload_run_main (dm_reload d) true BNotReady false St) in L.
    change (dm_main (plain d')) with (rl_main (reload_step (dm_reload d') (VRun true BNotReady false))) in Q. rewrite X in Q. lia.
Qed.

(** ** One event of the world *)

Lemma wstep_daemon w e w1 : wstep w e = Ok w1 ->
  match daemon_event w e with Some x => step (wd_daemon w) x = Ok (wd_daemon w1) | None => wd_daemon w1 = wd_daemon w end.
Proof.
  unfold world_step. intros H. apply bind_ok in H. destruct H as (d & H1 & H).
  assert (E : wd_daemon w1 = d) by (destruct e; injection H as <-; reflexivity). rewrite E.
  destruct (daemon_event w e); [exact H1|]. injection H1 as <-. reflexivity.
Qed.
Lemma same_message_iff a b : same_message a b = true <-> a = b.
Proof.
  unfold same_message. rewrite andb_true_iff, String.eqb_eq, Bool.eqb_true_iff. destruct a, b; cbn.
  split; [intros (-> & ->); reflexivity|]. intros X. injection X as -> ->. auto.
Qed.
Lemma take_in m x l : In x (take m l) -> In x l.
Proof. induction l as [|y r IH]; cbn; [auto|]. destruct (same_message m y); [auto|]. intros [X|X]; auto. Qed.

(** ** Setting *)

Lemma set_sends w others sends zone v rest w1 : (0 <= zone < 128)%Z -> sends (object_of zone) = true ->
  wstep w (WRequest others sends (1%Z :: zone :: v :: rest)) = Ok w1 ->
  wd_daemon w1 = wd_daemon w /\ wd_flight w1 = (wd_flight w ++ [(object_of zone, negb (v =? 0)%Z)])%list.
Proof.
  intros L Se H. unfold world_step in H. cbn [daemon_event bind] in H. injection H as <-. cbn [wd_daemon wd_flight]. split; [reflexivity|]. f_equal.
  destruct (C42_set_does_lemma (dbus_backend (daemon_bus others (wd_daemon w)) sends) zone v rest) as (Ca & _ & _).
  destruct (C42_dbus_lemma (daemon_bus others (wd_daemon w)) sends zone L) as (G & _). specialize (G v rest). cbv zeta in G. fold (object_of zone) in G.
  rewrite Se in G. unfold messages_sent. rewrite G, Ca. cbn [flat_map app]. rewrite (low_paths zone L). reflexivity.
Qed.

Lemma queries_send_nothing w others sends req w1 : (forall rest, req <> 1%Z :: rest) ->
  wstep w (WRequest others sends req) = Ok w1 -> wd_daemon w1 = wd_daemon w /\ wd_flight w1 = wd_flight w.
Proof.
  intros N H. unfold world_step in H. cbn [daemon_event bind] in H. injection H as <-. cbn [wd_daemon wd_flight]. split; [reflexivity|].
  unfold messages_sent. match goal with |- context [rp_calls ?r] => set (a := r) end.
  assert (E : flat_map (fun c => match c with ZcSet zone v _ => [(ipmi_getControlPath zone, v)] | ZcGet _ _ => [] end) (rp_calls a) = []).
  { assert (F : forall c, In c (rp_calls a) -> exists z p, c = ZcGet z p).
    { intros [z p|z v p] I; [eauto|]. apply C42_set_lemma in I. destruct I as (x & r & E & _). elim (N _ E). }
    induction (rp_calls a) as [|c r IH]; [reflexivity|]. cbn [flat_map]. destruct (F c (or_introl eq_refl)) as (z & p & ->). apply IH. intros c I. apply F. right. exact I. }
  rewrite E. destruct (rp_code a) as [[| |]|m|m]; apply app_nil_r.
Qed.

(** ** The mode that was set stays *)

Lemma run_app_world a b w w2 : wrun (a ++ b) w = Ok w2 -> exists w1, wrun a w = Ok w1 /\ wrun b w1 = Ok w2.
Proof. unfold world_run. rewrite foldM_app. intros H. apply bind_ok in H. exact H. Qed.

(** The events of the daemon in a run of the world. *)
Lemma world_daemon evs : forall w w1, wrun evs w = Ok w1 -> exists l, run l (wd_daemon w) = Ok (wd_daemon w1) /\
  forall x, In x l -> In (WDaemon x) evs \/ exists pre path v post wa i z, evs = (pre ++ WArrive path v :: post)%list /\ wrun pre w = Ok wa /\
    zone_at path (sy_loops (dm_sys (wd_daemon wa))) = Some (i, z) /\ x = DSys (SManual i v).
Proof.
  induction evs as [|e r IH]; intros w w1 H; unfold world_run in H; cbn [foldM] in H.
  - injection H as <-. exists []. split; [reflexivity|]. intros x [].
  - apply bind_ok in H. destruct H as (wm & H1 & H). destruct (IH _ _ H) as (l & R & F). pose proof (wstep_daemon _ _ _ H1) as D.
    assert (F' : forall x, In x l -> In (WDaemon x) (e :: r) \/ exists pre path v post wa i z, e :: r = (pre ++ WArrive path v :: post)%list /\ wrun pre w = Ok wa /\
      zone_at path (sy_loops (dm_sys (wd_daemon wa))) = Some (i, z) /\ x = DSys (SManual i v)).
    { intros x I. destruct (F x I) as [J|(pre & path & v & post & wa & i & z & -> & A & B & C)]; [left; right; exact J|].
      right. exists (e :: pre), path, v, post, wa, i, z. split; [reflexivity|]. split; [|auto]. unfold world_run. cbn [foldM]. rewrite H1. exact A. }
    destruct (daemon_event w e) as [x|] eqn:De.
    + exists (x :: l). split; [unfold daemon_run; cbn [foldM]; rewrite D; exact R|]. intros y [<-|I]; [|exact (F' y I)].
      destruct e as [o s q|path v|y]; cbn [daemon_event] in De; [discriminate De| |injection De as ->; left; left; reflexivity].
      destruct (existsb _ _); [|discriminate De]. destruct (zone_at path (sy_loops (dm_sys (wd_daemon w)))) as [(i & z)|] eqn:Z; [|discriminate De].
      injection De as <-. right. exists [], path, v, r, w, i, z. split; [reflexivity|]. split; [reflexivity|]. auto.
    + exists l. rewrite D in R. auto.
Qed.

Lemma world_stops evs w w1 : wrun evs w = Ok w1 -> nstops (m_log (dm_main (wd_daemon w))) <= nstops (m_log (dm_main (wd_daemon w1))).
Proof. intros H. destruct (world_daemon _ _ _ H) as (l & R & _). apply (grows_le _ _ (grows_run f sf pow10 re named _ _ _ R)). Qed.
Lemma world_stopped evs w w1 : wrun evs w = Ok w1 -> m_stopped (dm_main (wd_daemon w1)) = false -> m_stopped (dm_main (wd_daemon w)) = false.
Proof.
  intros H S. destruct (world_daemon _ _ _ H) as (l & R & _). destruct (m_stopped (dm_main (wd_daemon w))) eqn:X; [|reflexivity].
  pose proof (stopped_run f sf pow10 re named l _ _ X R). congruence.
Qed.

Lemma mode_stays evs : forall w w1 n i z, wrun evs w = Ok w1 -> m_stopped (dm_main (wd_daemon w1)) = false ->
  nstops (m_log (dm_main (wd_daemon w1))) = nstops (m_log (dm_main (wd_daemon w))) ->
  zone_at (object_of n) (sy_loops (dm_sys (wd_daemon w))) = Some (i, z) ->
  (forall v, ~ In (WArrive (object_of n) v) evs) -> (forall v, ~ In (WDaemon (DSys (SManual i v))) evs) ->
  exists z1, zone_at (object_of n) (sy_loops (dm_sys (wd_daemon w1))) = Some (i, z1) /\ z_manualMode z1 = z_manualMode z /\
    running_numbers (wd_daemon w1) = running_numbers (wd_daemon w).
Proof.
  induction evs as [|e r IH]; intros w w1 n i z H Sp Q Z Na Nd.
  - injection H as <-. exists z. auto.
  - assert (H' := H). unfold world_run in H. cbn [foldM] in H. apply bind_ok in H. destruct H as (wm & H1 & H). change (wrun r wm = Ok w1) in H.
    pose proof (world_stops _ _ _ H) as L2. pose proof (world_stopped _ _ _ H Sp) as Spm.
    assert (L1 : nstops (m_log (dm_main (wd_daemon w))) <= nstops (m_log (dm_main (wd_daemon wm)))).
    { apply (world_stops [e] w wm). unfold world_run. cbn [foldM]. rewrite H1. reflexivity. }
    assert (M : exists zm, zone_at (object_of n) (sy_loops (dm_sys (wd_daemon wm))) = Some (i, zm) /\ z_manualMode zm = z_manualMode z /\
      running_numbers (wd_daemon wm) = running_numbers (wd_daemon w)).
    { pose proof (wstep_daemon _ _ _ H1) as D. destruct (daemon_event w e) as [x|] eqn:De.
      - destruct (step_numbers _ _ _ D Spm) as (Nu & Mo); [lia|].
        assert (Ex : exists lm, nth_error (sy_loops (dm_sys (wd_daemon wm))) i = Some lm).
        { apply zone_at_first in Z. destruct Z as ((l & E & _) & _). destruct (nth_error (sy_loops (dm_sys (wd_daemon wm))) i) as [lm|] eqn:Em; [eauto|].
          exfalso. apply nth_error_None in Em. unfold running_numbers in Nu. apply (f_equal (@List.length Z)) in Nu. rewrite !map_length in Nu.
          assert (Y : nth_error (sy_loops (dm_sys (wd_daemon w))) i <> None) by congruence. apply nth_error_Some in Y. lia. }
        destruct Ex as (lm & Em). exists (l_zone lm). split; [exact (zone_at_kept _ _ _ _ _ _ Z Nu (ex_intro _ lm (conj Em eq_refl)))|]. split; [|exact Nu].
        assert (Z' := Z). apply zone_at_first in Z'. destruct Z' as ((l & E & <- & Hn) & Fi). apply (Mo i l lm E Em). intros b ->.
        destruct e as [o s q|path v|y]; cbn [daemon_event] in De; [discriminate De| |injection De as ->; exact (Nd b (or_introl eq_refl))].
        destruct (existsb _ _); [|discriminate De]. destruct (zone_at path (sy_loops (dm_sys (wd_daemon w)))) as [(j & zj)|] eqn:Zj; [|discriminate De].
        injection De as -> ->. apply (Na b). left. f_equal.
        assert (P : forall p ls k zz, zone_at p ls = Some (k, zz) -> p = object_of (z_zoneId zz) /\ exists l, nth_error ls k = Some l /\ l_zone l = zz).
        { intros p ls. induction ls as [|y ls0 IHl]; intros k zz X; cbn [zone_at] in X; [discriminate X|].
          destruct (String.eqb_spec (BuilderModel.getControlPath (z_zoneId (l_zone y))) p) as [Ep|_].
          - injection X as <- <-. split; [exact (eq_sym Ep)|]. exists y. auto.
          - destruct (zone_at p ls0) as [(k' & z')|]; [|discriminate X]. injection X as <- <-. exact (IHl _ _ eq_refl). }
        destruct (P _ _ _ _ Zj) as (-> & lj & Ej & <-). rewrite E in Ej. injection Ej as <-. f_equal. exact Hn.
      - exists z. rewrite D. auto. }
    destruct M as (zm & Zm & Mm & Nm). destruct (IH wm w1 n i zm H Sp) as (z1 & A & B & C); [lia|exact Zm| | |].
    + intros v I. exact (Na v (or_intror I)).
    + intros v I. exact (Nd v (or_intror I)).
    + exists z1. split; [exact A|]. split; congruence.
Qed.

(** An arriving message sets the mode. *)
Lemma arrival_sets w n v w1 i z : m_stopped (dm_main (wd_daemon w)) = false -> In (object_of n, v) (wd_flight w) ->
  zone_at (object_of n) (sy_loops (dm_sys (wd_daemon w))) = Some (i, z) -> wstep w (WArrive (object_of n) v) = Ok w1 ->
  exists z1, zone_at (object_of n) (sy_loops (dm_sys (wd_daemon w1))) = Some (i, z1) /\ z_manualMode z1 = v /\
    dm_main (wd_daemon w1) = dm_main (wd_daemon w) /\ step (wd_daemon w) (DSys (SManual i v)) = Ok (wd_daemon w1).
Proof.
  intros St I Z H. pose proof (wstep_daemon _ _ _ H) as D. cbn [daemon_event] in D.
  assert (X : existsb (same_message (object_of n, v)) (wd_flight w) = true) by (apply existsb_exists; eexists; split; [exact I|]; apply same_message_iff; reflexivity).
  rewrite X, Z in D. cbn [option_map fst] in D. assert (D0 := D). unfold daemon_step in D. rewrite St in D.
  destruct (sys_step f sf pow10 (dm_sys (wd_daemon w)) (SManual i v)) as [s|m|m] eqn:E; [| |discriminate D].
  - injection D as D. destruct (sys_numbers _ _ _ _ _ _ E) as (Nu & _). assert (Z0 := Z). apply zone_at_first in Z. destruct Z as ((l & El & <- & Hn) & _).
    destruct (step_loops _ _ _ _ _ _ _ _ E El) as (l' & E' & R). cbn [proj] in R. rewrite E, app_nil_r, Nat.eqb_refl in R.
    unfold loop_run in R. cbn [foldM loop_step bind] in R. injection R as <-.
    exists (setManualMode v (l_zone l)). rewrite <- D. cbn [dm_sys set_sys]. split; [|split; [destruct v; reflexivity|split; [reflexivity|rewrite D; exact D0]]].
    apply (zone_at_kept _ _ _ _ _ _ Z0 Nu). eexists. split; [exact E'|reflexivity].
  - exfalso. cbn [sys_step] in E. destruct (update_manual f v (sy_loops (dm_sys (wd_daemon w))) i) as (x & Ux). rewrite Ux in E. discriminate E.
Qed.

(** ** Loops in manual mode *)

Lemma restart_loops w old s b ex s0 : any_order w -> restart f sf pow10 re named w old s = Ok (b, (ex, s0)) ->
  forall l, In l (sy_loops s0) -> In l (sy_loops s) \/ z_manualMode (l_zone l) = false.
Proof.
  intros Or H l I. destruct b as [| | |ids n].
  1-3: left; unfold restart in H; destruct (read_configuration sf re named (su_disk w) (su_config w)) as [[c| |]|m|m]; try discriminate H;
    try (injection H as <- <-; exact I);
    destruct (buildSensors sf pow10 (seen old (su_sensors w)) (l_sensors c)) as [m|e|e]; try discriminate H;
    try (injection H as <- <-; destruct (su_redundancy w); exact I);
    destruct (BuilderModel.buildZones (su_bus_ok w) (l_pids c) (l_zones c)) as [built|e|e]; try discriminate H;
    try (injection H as <- <-; destruct (su_redundancy w); exact I);
    apply bind_ok in H; destruct H as ((n1 & o1) & _ & H); discriminate H.
  destruct (restart_zones_inv _ _ _ _ _ _ _ _ _ _ _ _ Or H) as (c & m & built & _ & _ & _ & _ & _ & _ & _ & Fr & F).
  apply start_rest in F. destruct F as (_ & _ & _ & _ & ls & E & F). rewrite E in I. apply in_app_or in I. destruct I as [I|I]; [left; exact I|]. right.
  apply In_nth_error in I. destruct I as (k & Ek).
  assert (X : exists e, In e (firstn n (with_starts w (su_order w built))) /\ exists env, loop_start f env (st_tune (fst e)) (st_timer (fst e)) (snd e) = Ok l).
  { clear - F Ek. revert k Ek. induction F as [|e y zs ls H F IH]; intros [|k] Ek; cbn in Ek; try discriminate Ek.
    - injection Ek as ->. exists e. split; [left; reflexivity|exact H].
    - destruct (IH k Ek) as (e' & A & B). exists e'. split; [right; exact A|exact B]. }
  destruct X as (e & Ie & env & Le). apply firstn_incl in Ie. unfold with_starts in Ie. apply in_map_iff in Ie. destruct Ie as ((id & z) & <- & Iz).
  apply loop_start_frame in Le. destruct Le as (_ & Mo & _). cbn [snd] in Mo. destruct (Fr _ _ Iz) as (_ & (_ & _ & _ & M & _)). unfold mode in Mo. congruence.
Qed.

Lemma clear_loops ok m d d' : clear_zones f ok m d = Ok d' -> forall l, In l (sy_loops (dm_sys d')) -> In l (sy_loops (dm_sys d)).
Proof.
  unfold clear_zones. intros H l I. apply bind_ok in H. destruct H as (ks & _ & H). injection H as <-. cbn [dm_sys sy_loops set_loops] in I.
  apply in_map_iff in I. destruct I as ((j & l') & <- & I). apply filter_In in I. destruct I as (I & _). exact (in_combine_r _ _ _ _ I).
Qed.

(** A zone in manual mode was so before, or was just told. *)
Lemma step_manual d e d1 : ordered e -> step d e = Ok d1 -> forall l, In l (sy_loops (dm_sys d1)) -> z_manualMode (l_zone l) = true ->
  (exists l0, In l0 (sy_loops (dm_sys d)) /\ z_zoneId (l_zone l0) = z_zoneId (l_zone l) /\ z_manualMode (l_zone l0) = true) \/
  exists i l0, e = DSys (SManual i true) /\ nth_error (sy_loops (dm_sys d)) i = Some l0 /\ z_zoneId (l_zone l0) = z_zoneId (l_zone l).
Proof.
  intros Or H l I M.
  assert (Same : dm_sys d1 = dm_sys d -> exists l0, In l0 (sy_loops (dm_sys d)) /\ z_zoneId (l_zone l0) = z_zoneId (l_zone l) /\ z_manualMode (l_zone l0) = true).
  { intros E. exists l. rewrite <- E. auto. }
  assert (Sys : forall x s, sys_step f sf pow10 (dm_sys d) x = Ok s -> dm_sys d1 = s ->
    (exists l0, In l0 (sy_loops (dm_sys d)) /\ z_zoneId (l_zone l0) = z_zoneId (l_zone l) /\ z_manualMode (l_zone l0) = true) \/
    exists i l0, x = SManual i true /\ nth_error (sy_loops (dm_sys d)) i = Some l0 /\ z_zoneId (l_zone l0) = z_zoneId (l_zone l)).
  { intros x s X E. rewrite E in I. destruct (sys_numbers _ _ _ _ _ _ X) as (Nu & Mo). apply In_nth_error in I. destruct I as (i & Ei).
    destruct (nth_error (sy_loops (dm_sys d)) i) as [l0|] eqn:E0.
    2: { exfalso. apply nth_error_None in E0. apply (f_equal (@List.length Z)) in Nu. rewrite !map_length in Nu.
         assert (Y : nth_error (sy_loops s) i <> None) by congruence. apply nth_error_Some in Y. lia. }
    assert (Id : z_zoneId (l_zone l0) = z_zoneId (l_zone l)).
    { pose proof (map_nth_error (fun l => z_zoneId (l_zone l)) _ _ E0) as A. pose proof (map_nth_error (fun l => z_zoneId (l_zone l)) _ _ Ei) as B.
      rewrite Nu in B. congruence. }
    destruct (z_manualMode (l_zone l0)) eqn:M0; [left; exists l0; split; [exact (nth_error_In _ _ E0)|auto]|]. right.
    assert (Dec : (exists b, x = SManual i b) \/ forall b, x <> SManual i b).
    { destruct x as [| | | | |j b|]; try (right; discriminate). destruct (Nat.eq_dec j i) as [->|N]; [left; eauto|]. right. intros b0 Y. injection Y as Y _. exact (N Y). }
    destruct Dec as [(b & ->)|Ne]; [|rewrite (Mo i l0 l E0 Ei Ne) in M; congruence].
    exists i, l0. split; [|auto]. f_equal. destruct (step_loops _ _ _ _ _ _ _ _ X E0) as (l' & E' & R). rewrite E' in Ei. injection Ei as ->.
    cbn [proj] in R. rewrite X, app_nil_r, Nat.eqb_refl in R. unfold loop_run in R. cbn [foldM loop_step bind] in R. injection R as <-. destruct b; [reflexivity|discriminate M]. }
  destruct (m_stopped (dm_main d)) eqn:St.
  { unfold daemon_step in H. rewrite St in H. injection H as <-. left. apply Same. reflexivity. }
  pose proof (step_kind f sf pow10 re named d e d1 St H) as K.
  destruct K as [e d1 l' K1 K2 K3 K4 K5 K6|x s K1 K2|x K1|w k i m s K1 K2 K3|w k i K1 K2|w k i m t K1 K2 K3|w k r m d' b ex s bus K1 K2 K3 K4|w k o r m K1 K2 K3 K4|w k r m d' K1 K2 K3].
  - left. apply Same. rewrite K5. reflexivity.
  - destruct (Sys x s K2 eq_refl) as [A|(i & l0 & -> & A)]; [left; exact A|right; exists i, l0; auto].
  - left. apply Same. reflexivity.
  - destruct (Sys (STick m k) s K3 eq_refl) as [A|(i' & l0 & X & _)]; [left; exact A|discriminate X].
  - left. apply Same. reflexivity.
  - left. apply Same. reflexivity.
  - left. change (In l (sy_loops s)) in I. destruct (restart_loops _ _ _ _ _ _ (Or _ _ eq_refl) K4 l I) as [J|J]; [|congruence].
    exists l. split; [exact (clear_loops _ _ _ _ K3 l J)|auto].
  - left. apply Same. reflexivity.
  - left. exists l. split; [exact (clear_loops _ _ _ _ K3 l I)|auto].
Qed.

Lemma zone_at_in p ls : forall k z, zone_at p ls = Some (k, z) -> exists l, nth_error ls k = Some l /\ l_zone l = z /\ p = object_of (z_zoneId z).
Proof.
  induction ls as [|y r IH]; intros k z X; cbn [zone_at] in X; [discriminate X|].
  destruct (String.eqb_spec (BuilderModel.getControlPath (z_zoneId (l_zone y))) p) as [Ep|_].
  - injection X as <- <-. exists y. split; [reflexivity|]. split; [reflexivity|]. exact (eq_sym Ep).
  - destruct (zone_at p r) as [(k' & z')|]; [|discriminate X]. injection X as <- <-. exact (IH _ _ eq_refl).
Qed.

(** What a message on its way says was asked for. *)
Lemma sent_asked others sends d req p : bytes req -> In (p, true) (messages_sent (answer others sends d req)) ->
  exists zone v rest, req = 1%Z :: zone :: v :: rest /\ v <> 0%Z /\ (0 <= zone < 128)%Z /\ p = object_of zone.
Proof.
  intros By I. unfold messages_sent in I. destruct (rp_code (answer others sends d req)) as [[|q|q]|m|m] eqn:C; try destruct I.
  apply in_flat_map in I. destruct I as ([z pr|z b pr] & Ic & I); [destruct I|]. destruct I as [E|[]]. injection E as <- ->.
  apply C42_set_lemma in Ic. destruct Ic as (v & rest & -> & V & _). exists z, v, rest. split; [reflexivity|]. split; [exact (proj1 V eq_refl)|].
  inversion By as [|? ? _ By2]; subst. inversion By2 as [|? ? Bz _]; subst.
  destruct (Z.lt_ge_cases z 128) as [L|L]; [split; [lia|]; apply low_paths; lia|]. exfalso.
  destruct (C42_high_lemma (daemon_bus others d) sends z 1 (v :: rest)) as (X & _); [lia|]. unfold answer in C.
  destruct X as (e & Y); [|congruence].
  destruct (C42_set_does_lemma (dbus_backend (daemon_bus others d) sends) z v rest) as (Ca & _). rewrite Ca. discriminate.
Qed.

Definition asked (P : string -> Prop) (w : world) : Prop :=
  (forall p, In (p, true) (wd_flight w) -> P p) /\
  (forall l, In l (sy_loops (dm_sys (wd_daemon w))) -> z_manualMode (l_zone l) = true -> P (object_of (z_zoneId (l_zone l)))).

Lemma asked_step (P : string -> Prop) w e w1 : only_ipmi e -> any_start e ->
  (forall others sends req, e = WRequest others sends req -> bytes req /\
     forall zone v rest, req = 1%Z :: zone :: v :: rest -> v <> 0%Z -> (0 <= zone < 128)%Z -> P (object_of zone)) ->
  asked P w -> wstep w e = Ok w1 -> asked P w1.
Proof.
  intros Oi As Rq (A & B) H. pose proof (wstep_daemon _ _ _ H) as D. split.
  - intros p I. unfold world_step in H. apply bind_ok in H. destruct H as (d & Hd & H). destruct e as [others sends req|path v|x]; injection H as <-; cbn [wd_flight] in I.
    + apply in_app_or in I. destruct I as [I|I]; [exact (A p I)|]. destruct (Rq _ _ _ eq_refl) as (By & Pq).
      destruct (sent_asked others sends d req p By I) as (zone & v & rest & E & V & L & ->). exact (Pq _ _ _ E V L).
    + exact (A p (take_in _ _ _ I)).
    + exact (A p I).
  - intros l I M. destruct (daemon_event w e) as [x|] eqn:De; [|rewrite D in I; exact (B l I M)].
    assert (Ox : ordered x).
    { destruct e as [others sends req|path v|y]; cbn [daemon_event] in De; [discriminate De| |injection De as ->; exact (As _ eq_refl)].
      destruct (existsb _ _); [|discriminate De]. destruct (zone_at _ _); [|discriminate De]. injection De as <-. intros ? ? X. discriminate X. }
    destruct (step_manual _ _ _ Ox D l I M) as [(l0 & I0 & Id & M0)|(i & l0 & -> & E0 & Id)]; rewrite <- Id; [exact (B l0 I0 M0)|].
    destruct e as [others sends req|path v|y]; cbn [daemon_event] in De; [discriminate De| |injection De as ->; elim (Oi _ _ eq_refl)].
    destruct (existsb (same_message (path, v)) (wd_flight w)) eqn:Ex; [|discriminate De].
    destruct (zone_at path (sy_loops (dm_sys (wd_daemon w)))) as [(j & z)|] eqn:Z; [|discriminate De]. injection De as -> ->.
    apply existsb_exists in Ex. destruct Ex as (mm & Im & Sm). apply same_message_iff in Sm. subst mm.
    destruct (zone_at_in _ _ _ _ Z) as (lj & Ej & <- & ->). rewrite E0 in Ej. injection Ej as <-. exact (A _ Im).
Qed.

Lemma asked_run (P : string -> Prop) evs : forall w w1, Forall only_ipmi evs -> Forall any_start evs ->
  (forall others sends req, In (WRequest others sends req) evs -> bytes req /\
     forall zone v rest, req = 1%Z :: zone :: v :: rest -> v <> 0%Z -> (0 <= zone < 128)%Z -> P (object_of zone)) ->
  asked P w -> wrun evs w = Ok w1 -> asked P w1.
Proof.
  induction evs as [|e r IH]; intros w w1 F1 F2 Rq A H; unfold world_run in H; cbn [foldM] in H; [injection H as <-; exact A|].
  apply bind_ok in H. destruct H as (wm & H1 & H). inversion F1; subst. inversion F2; subst.
  apply (IH wm w1); auto; [intros o s q I; apply (Rq o s q); right; exact I|].
  apply (asked_step P w e wm); auto. intros o s q ->. apply (Rq o s q). left. reflexivity.
Qed.

Lemma manual_was_requested first devices evs w l : Forall only_ipmi evs -> Forall any_start evs ->
  (forall others sends req, In (WRequest others sends req) evs -> bytes req) ->
  wrun evs (world_init first devices) = Ok w -> In l (sy_loops (dm_sys (wd_daemon w))) -> z_manualMode (l_zone l) = true ->
  exists others sends v rest, In (WRequest others sends (1%Z :: z_zoneId (l_zone l) :: v :: rest)) evs /\ v <> 0%Z.
Proof.
  intros F1 F2 By H I M.
  set (P := fun p => exists others sends zone v rest, In (WRequest others sends (1%Z :: zone :: v :: rest)) evs /\ v <> 0%Z /\ p = object_of zone).
  assert (A : asked P w).
  { apply (asked_run P evs (world_init first devices) w F1 F2); [|split; [intros ? []|intros ? []]|exact H].
    intros o s q Iq. split; [exact (By _ _ _ Iq)|]. intros zone v rest -> V L. exists o, s, zone, v, rest. auto. }
  destruct A as (_ & B). destruct (B l I M) as (o & s & zone & v & rest & Iq & V & E). apply object_inj in E. subst zone. exists o, s, v, rest. auto.
Qed.

(** ** From the request to the answer *)

Lemma set_takes_effect zone v w i l w1 evs w2 others sends rest : (0 <= zone < 128)%Z ->
  In (object_of zone, v) (wd_flight w) -> NoDup (running_numbers (wd_daemon w)) ->
  nth_error (sy_loops (dm_sys (wd_daemon w))) i = Some l -> z_zoneId (l_zone l) = zone ->
  wstep w (WArrive (object_of zone) v) = Ok w1 -> wrun evs w1 = Ok w2 ->
  m_stopped (dm_main (wd_daemon w2)) = false -> loop_stops (wd_daemon w2) = loop_stops (wd_daemon w1) ->
  (forall b, ~ In (WArrive (object_of zone) b) evs) -> (forall b, ~ In (WDaemon (DSys (SManual i b))) evs) ->
  let a := answer others sends (wd_daemon w2) (0%Z :: zone :: rest) in
  rp_code a = Ok 0%Z /\ rp_data a = Some (if v then 1 else 0)%Z /\
  (v = true -> forall path, only_from i (dm_sys (wd_daemon w1)) path ->
     mget path (sy_devices (dm_sys (wd_daemon w2))) = mget path (sy_devices (dm_sys (wd_daemon w1)))).
Proof.
  intros L I Nd El Ez H1 H2 Sp Q Na Nn a. pose proof (zone_at_unique zone _ _ _ Nd El Ez) as Z.
  assert (Sp1 : m_stopped (dm_main (wd_daemon w1)) = false) by exact (world_stopped _ _ _ H2 Sp).
  assert (Sp0 : m_stopped (dm_main (wd_daemon w)) = false).
  { apply (world_stopped [WArrive (object_of zone) v] w w1); [|exact Sp1]. unfold world_run. cbn [foldM]. rewrite H1. reflexivity. }
  destruct (arrival_sets w zone v w1 i (l_zone l) Sp0 I Z H1) as (z1 & Z1 & M1 & _).
  assert (Qn : nstops (m_log (dm_main (wd_daemon w2))) = nstops (m_log (dm_main (wd_daemon w1)))) by (rewrite <- !stops_nstops, Q; reflexivity).
  destruct (mode_stays evs w1 w2 zone i z1 H2 Sp Qn Z1 Na Nn) as (z2 & Z2 & M2 & Nu2).
  destruct (answers_zone others sends (wd_daemon w2) zone rest i z2 L Sp Z2) as (A1 & A2 & _). split; [exact A1|]. split; [unfold a; rewrite A2, M2, M1; reflexivity|].
  intros -> path Of. destruct (world_daemon evs w1 w2 H2) as (dl & R & F). assert (Z1' := Z1). apply zone_at_first in Z1'. destruct Z1' as ((l1 & E1 & <- & Hn) & _).
  destruct (manual_untouched f sf pow10 re named i path l1 dl (wd_daemon w1) (wd_daemon w2)) as (X & _); auto.
  intros J. destruct (F _ J) as [K|(pre & p & b & post & wa & j & zj & -> & Ha & Zj & Ej)]; [exact (Nn _ K)|]. injection Ej as <- <-.
  apply run_app_world in H2. destruct H2 as (wa' & Ha' & Hb). rewrite Ha in Ha'. injection Ha' as <-.
  destruct (mode_stays pre w1 wa zone i (l_zone l1) Ha) as (za & Za & _).
  - exact (world_stopped _ _ _ Hb Sp).
  - pose proof (world_stops _ _ _ Ha). pose proof (world_stops _ _ _ Hb). lia.
  - exact Z1.
  - intros b K. apply (Na b). apply in_or_app. left. exact K.
  - intros b K. apply (Nn b). apply in_or_app. left. exact K.
  - destruct (zone_at_in _ _ _ _ Zj) as (lj & Elj & <- & ->). apply zone_at_first in Za. destruct Za as ((la & Ela & <- & Hna) & _).
    rewrite Elj in Ela. injection Ela as <-. rewrite Hna in Na. apply (Na false). apply in_or_app. right. left. reflexivity.
Qed.

(** ** What is reported in an orderly life *)

Lemma reports first devices evs d : Forall ordered evs -> calm f sf pow10 re named evs (daemon_init first devices) ->
  run evs (daemon_init first devices) = Ok d -> going d -> sy_loops (dm_sys d) <> [] ->
  NoDup (running_numbers d) /\
  exists pre w k post da d1, evs = (pre ++ DRun w k :: post)%list /\ run pre (daemon_init first devices) = Ok da /\ next_is (ORestart false) da /\
    step da (DRun w k) = Ok d1 /\ loop_stops d1 = (loop_stops da ++ [MStopped])%list /\ loop_stops d = loop_stops d1 /\
    forall i l others sends rest, nth_error (sy_loops (dm_sys d)) i = Some l -> (0 <= z_zoneId (l_zone l) < 128)%Z ->
      let a c := answer others sends d (c :: z_zoneId (l_zone l) :: rest) in
      rp_code (a 0%Z) = Ok 0%Z /\ rp_data (a 0%Z) = Some (if is_manual i (messages post) then 1 else 0)%Z /\
      rp_code (a 2%Z) = Ok 0%Z /\ (rp_data (a 2%Z) = Some 1%Z <-> some_failure (l_zone l)) /\ (rp_data (a 2%Z) = Some 0%Z <-> ~ some_failure (l_zone l)).
Proof.
  intros Or Ca H G N. assert (Nd : NoDup (running_numbers d)).
  { destruct (C90_lemma f sf pow10 re named first devices evs d Or Ca H G) as (_ & [(_ & X)|Rn]); [elim (N X)|].
    destruct Rn as (pre & w & k & post & da & d1 & c & fl & first' & devs & zs & rest & sevs & E & A1 & A2 & A3 & A4 & (A5 & A5') & A6 & A7 & A8 & A9 & A10 & A11 & A12 & A13).
    destruct (zones_found _ _ _ _ _ A5) as (built & _ & Nz & _).
    assert (Ei : running_numbers d = map (fun e => z_zoneId (snd e)) zs); [|rewrite Ei; exact Nz].
    assert (Each : forall i l, nth_error (sy_loops (dm_sys d)) i = Some l -> exists st z0, nth_error zs i = Some (st, z0) /\ z_zoneId (l_zone l) = z_zoneId z0).
    { intros i l El. destruct (loop_source _ _ _ _ _ _ _ _ _ _ _ _ _ A8 El) as (st & z0 & Ez & Re). exists st, z0. split; [exact Ez|].
      destruct Re as (env & te & now & l0 & le & Fr0 & Ls & Lr). apply loop_start_frame in Ls. destruct Ls as (C0 & _).
      assert (C : conf (l_zone l) = conf (l_zone l0)).
      { clear - Lr. revert l0 Lr. unfold loop_run. induction le as [|x r IH]; intros l0 Lr; cbn [foldM] in Lr; [injection Lr as ->; reflexivity|].
        apply bind_ok in Lr. destruct Lr as (lm & X & Lr). destruct (loop_step_conf _ _ _ _ X) as (Cx & _). rewrite (IH _ Lr). exact Cx. }
      assert (C2 : conf (l_zone l) = conf z0) by congruence. use_conf C2. reflexivity. }
    assert (Len : List.length (sy_loops (dm_sys d)) = List.length zs).
    { apply Nat.le_antisymm.
      - destruct (Nat.le_gt_cases (List.length (sy_loops (dm_sys d))) (List.length zs)) as [X|X]; [exact X|].
        destruct (nth_error (sy_loops (dm_sys d)) (List.length zs)) as [l|] eqn:El; [|apply nth_error_None in El; lia].
        destruct (Each _ _ El) as (st & z0 & Ez & _). exfalso. assert (Y : nth_error zs (List.length zs) <> None) by congruence. apply nth_error_Some in Y. lia.
      - destruct (Nat.le_gt_cases (List.length zs) (List.length (sy_loops (dm_sys d)))) as [X|X]; [exact X|].
        destruct (nth_error zs (List.length (sy_loops (dm_sys d)))) as [(st & z0)|] eqn:Ez; [|apply nth_error_None in Ez; lia].
        destruct (runs_zone _ _ _ _ _ _ _ _ _ _ _ _ _ _ A8 Ez) as (l & El & _). exfalso.
        assert (Y : nth_error (sy_loops (dm_sys d)) (List.length (sy_loops (dm_sys d))) <> None) by congruence. apply nth_error_Some in Y. lia. }
    unfold running_numbers. apply (nth_ext _ _ 0%Z 0%Z); [rewrite !map_length; exact Len|]. intros i Li. rewrite map_length in Li.
    destruct (nth_error (sy_loops (dm_sys d)) i) as [l|] eqn:El; [|apply nth_error_None in El; lia].
    destruct (Each i l El) as (st & z0 & Ez & Id).
    rewrite (nth_error_nth _ _ _ (map_nth_error (fun l => z_zoneId (l_zone l)) _ _ El)), (nth_error_nth _ _ _ (map_nth_error (fun e => z_zoneId (snd e)) _ _ Ez)). exact Id. }
  split; [exact Nd|].
  destruct (mode_since f sf pow10 re named first devices evs d Or Ca H G N) as (pre & w & k & post & da & d1 & B1 & B2 & B3 & B4 & B5 & B6 & B7).
  exists pre, w, k, post, da, d1. repeat (split; [assumption|]). intros i l others sends rest El L a.
  assert (St : m_stopped (dm_main d) = false) by (apply going_iff; [eapply run_exits; [|exact H]; apply (step_exit main_init EPostRestart init_exit)|exact G]).
  destruct (answers_zone others sends d (z_zoneId (l_zone l)) rest i (l_zone l) L St (zone_at_unique _ _ _ _ Nd El eq_refl)) as (A1 & A2 & A3 & A4).
  rewrite (B7 i l El) in A2. split; [exact A1|]. split; [exact A2|]. split; [exact A3|]. unfold a. rewrite A4. rewrite <- failsafe_some.
  destruct (getFailSafeMode (l_zone l)); split; split; intros X; try discriminate X; try reflexivity; congruence.
Qed.

End Remote.
