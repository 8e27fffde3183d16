(** * Proofs about the whole daemon (C90). *)
From Coq Require Import ZArith Bool List String Permutation Lia.
From Verif Require Import Base BaseFacts Dbl PidModel ZoneModel LoopModel BuilderModel SpecBuilder BuilderProofs BuilderRun ConfigModel
  SensorModel WriteModel SystemModel SpecSystem SpecZone ZoneFrame ZoneProofs SystemProofs SystemProofs2 SystemProofs3
  SystemProofs4 JsonModel SpecJson JsonProofs JsonSystemProofs DbusConfigModel SpecDbus DbusProofs4
  LogModel MainModel SpecMain MainProofs MainProofs2 ReloadModel SpecReload ReloadProofs StartModel SpecStart StartProofs DaemonModel SpecDaemon.
Import ListNotations.
Local Open Scope string_scope.
Local Open Scope outcome_scope.

(** ** Live loops *)

(** A restart is next and finds nothing running. *)
Definition passes (m : main_st) : bool :=
  match m_ready m with ORestart false :: r => fst (stopControlLoops (set_ready r m)) | _ => false end.

Lemma live_enqueue o m : live_op o = [] -> live (enqueue o m) = live m.
Proof. intros E. unfold live, enqueue. cbn. rewrite flat_map_app. cbn. rewrite E, !app_nil_r. reflexivity. Qed.

Lemma live_keeps m e : inv1 m -> m_stopped m = false ->
  (forall ok b, e = ERun ok b -> passes m = false) -> incl (live (main_step m e)) (live m).
Proof.
  intros I St P. unfold main_step. rewrite St. destruct e as [i| | | | |ok b].
  - destruct (imem i (m_armed m)) eqn:A; [|apply incl_refl]. apply imem_In in A. intros x X.
    unfold live, enqueue in X. cbn in X. rewrite flat_map_app in X. cbn in X.
    apply in_app_or in X. unfold live. apply in_or_app. destruct X as [X|X].
    + left. apply (Permutation_in (l := i :: remove_first i (m_armed m))); [symmetry; apply remove_first_perm, A|right; exact X].
    + apply in_app_or in X. destruct X as [X|[<-|[]]]; [right; exact X|left; exact A].
  - destruct (m_rtimer m); [rewrite live_enqueue by reflexivity|]; apply incl_refl.
  - destruct (m_ttimer m); [rewrite live_enqueue by reflexivity|]; apply incl_refl.
  - rewrite live_enqueue by reflexivity. apply incl_refl.
  - rewrite live_enqueue by reflexivity. apply incl_refl.
  - specialize (P _ _ eq_refl). unfold passes in P. destruct (m_ready m) as [|o r] eqn:R; [apply incl_refl|].
    assert (Lr : forall x, In x (live (set_ready r m)) -> In x (live m)).
    { intros x X. unfold live in *. cbn in X. rewrite R. cbn. apply in_app_or in X. apply in_or_app.
      destruct X as [X|X]; [left; exact X|right; apply in_or_app; right; exact X]. }
    destruct o as [i []|[]|[]]; try exact Lr.
    + cbn. intros x X. destruct ok; [destruct (m_canceling m)|]; cbn in X; try (apply Lr; exact X).
      unfold live, set_armed, say in X. cbn in X. rewrite <- app_assoc in X. apply in_app_or in X. unfold live. rewrite R. cbn.
      apply in_or_app. destruct X as [X|[<-|X]]; [left; exact X|right; left; reflexivity|right; right; exact X].
    + pose proof (pop_inv _ _ _ I R eq_refl) as I1. unfold run_op, restartControlLoops.
      destruct (stopControlLoops (set_ready r m)) as [[] m1] eqn:S; [discriminate P|].
      apply stop_fail_inv in S; [|exact I1]. destruct S as (_ & _ & ->). intros x X.
      assert (X' : In x (live (cancelled (set_ready r m)))).
      { unfold arm_retry in X. destruct (m_rtimer _); [|exact X]. change (In x (live (enqueue (ORestart true) (say MStopFailed (cancelled (set_ready r m)))))) in X.
        rewrite live_enqueue in X by reflexivity. exact X. }
      rewrite live_cancelled in X'. apply Lr. unfold live. apply in_or_app. right. exact X'.
    + pose proof (pop_inv _ _ _ I R eq_refl) as I1. unfold run_op.
      destruct (stopControlLoops (set_ready r m)) as [[] m1] eqn:S.
      * apply stop_true_state in S; [|exact I1]. subst m1. intros x X. change (In x (live (stop_ok_state (set_ready r m)))) in X.
        rewrite live_stop_ok in X. apply Lr. unfold live. apply in_or_app. right. exact X.
      * apply stop_fail_inv in S; [|exact I1]. destruct S as (_ & _ & ->). intros x X.
        assert (X' : In x (live (cancelled (set_ready r m)))).
        { unfold arm_term in X. destruct (m_ttimer _); [|exact X]. change (In x (live (enqueue (OTerminate true) (say MStopFailed (cancelled (set_ready r m)))))) in X.
          rewrite live_enqueue in X by reflexivity. exact X. }
        rewrite live_cancelled in X'. apply Lr. unfold live. apply in_or_app. right. exact X'.
Qed.

Lemma stops_keep m e : m_stopped m = false -> (forall ok b, e = ERun ok b -> passes m = false) -> m_stopped (main_step m e) = false ->
  filter is_stop (m_log (main_step m e)) = filter is_stop (m_log m).
Proof.
  intros St P. unfold main_step. rewrite St. destruct e as [i| | | | |ok b]; intros Sp.
  - destruct (imem i (m_armed m)); reflexivity.
  - destruct (m_rtimer m); reflexivity.
  - destruct (m_ttimer m); reflexivity.
  - reflexivity.
  - reflexivity.
  - specialize (P _ _ eq_refl). unfold passes in P. destruct (m_ready m) as [|o r] eqn:R; [reflexivity|].
    assert (Fl : forall m1, stopControlLoops (set_ready r m) = (false, m1) -> m_log m1 = MStopFailed :: m_log m).
    { intros m1. unfold stopControlLoops. cbv zeta. cbn [m_zones set_ready]. destruct (m_zones m); [discriminate|]. destruct (1 <? _)%nat; [|discriminate].
      intros H. injection H as <-. reflexivity. }
    destruct o as [i []|[]|[]]; try reflexivity; cbn [run_op] in *.
    + destruct ok; [destruct (m_canceling (say (MRan i) (set_ready r m)))|]; reflexivity.
    + unfold restartControlLoops. destruct (stopControlLoops (set_ready r m)) as [[] m1]; [discriminate P|].
      unfold arm_retry. destruct (m_rtimer m1); cbn [m_log set_retry enqueue set_ready]; rewrite (Fl _ eq_refl); reflexivity.
    + destruct (stopControlLoops (set_ready r m)) as [[] m1]; [discriminate Sp|].
      unfold arm_term. destruct (m_ttimer m1); cbn [m_log set_retry enqueue set_ready]; rewrite (Fl _ eq_refl); reflexivity.
Qed.
Lemma filter_rev {A} (g : A -> bool) l : filter g (rev l) = rev (filter g l).
Proof. induction l as [|x r IH]; [reflexivity|]. cbn. rewrite filter_app, IH. cbn. destruct (g x); cbn; [reflexivity|]. rewrite app_nil_r. reflexivity. Qed.
Lemma stops_log d d1 : filter is_stop (m_log (dm_main d1)) = filter is_stop (m_log (dm_main d)) -> loop_stops d1 = loop_stops d.
Proof. unfold loop_stops, history. intros H. rewrite !filter_rev, H. reflexivity. Qed.

Lemma restart_stops m r ok b m1 : m_stopped m = false -> m_ready m = ORestart false :: r -> stopControlLoops (set_ready r m) = (true, m1) ->
  filter is_stop (m_log (main_step m (ERun ok b))) = MStopped :: filter is_stop (m_log m).
Proof.
  intros St R S. unfold main_step. rewrite St, R. cbn [run_op]. unfold restartControlLoops. rewrite S.
  assert (L : m_log m1 = MStopped :: m_log m).
  { revert S. unfold stopControlLoops. cbv zeta. cbn [m_zones set_ready]. destruct (m_zones m) as [|z l]; [|destruct (1 <? _)%nat; [discriminate|]]; intros S; injection S as <-; reflexivity. }
  assert (Ar : forall x, m_log (arm_retry x) = m_log x) by (intros x; unfold arm_retry; destruct (m_rtimer x); reflexivity).
  assert (Fs : forall zs good s q s2, start_loops zs good s = (q, s2) -> filter is_stop (m_log s2) = filter is_stop (m_log s)).
  { clear. induction zs as [|z zs IH]; intros good s q s2 H; cbn [start_loops] in H; [injection H as _ <-; reflexivity|].
    destruct good; [injection H as _ <-; reflexivity|]. rewrite (IH _ _ _ _ H). reflexivity. }
  destruct b as [| | |ids good]; cbn [fst snd].
  - rewrite L. reflexivity.
  - cbn. rewrite L. reflexivity.
  - rewrite Ar, L. reflexivity.
  - destruct (nodup Z.eq_dec ids) as [|z zs] eqn:Nz; [cbn; rewrite L; reflexivity|].
    destruct (start_loops _ _ _) as (q & s2) eqn:Q. apply Fs in Q. cbn [m_log] in Q. rewrite L in Q.
    destruct q; cbn [fst snd]; rewrite ?Ar; exact Q.
Qed.

(** The loops and zones after a restart that finds nothing running. *)
Definition built_zones (g : nat) (b : build) : list inst :=
  match b with BZones ids _ => map (fun z => (z, S g)) (nodup Z.eq_dec ids) | _ => [] end.

Lemma restart_live m r ok b m1 : inv1 m -> clean_next m -> m_stopped m = false -> m_ready m = ORestart false :: r ->
  stopControlLoops (set_ready r m) = (true, m1) -> started b <= List.length (built_zones (m_gen m) b) ->
  let m' := main_step m (ERun ok b) in
  m_zones m' = built_zones (m_gen m) b /\ live m' = firstn (started b) (built_zones (m_gen m) b) /\
  (forall i, handled m1 i = false).
Proof.
  intros I C St R Sp L m'. pose proof (pop_inv _ _ _ I R eq_refl) as I1.
  assert (Cl : flat_map live_op r = []). { apply (C _ _ R eq_refl). rewrite Sp. reflexivity. }
  pose proof Sp as S0. apply stop_true_state in Sp; [|exact I1].
  assert (H : forall i, handled m1 i = false).
  { intros i. subst m1. unfold handled. cbn [m_armed stop_ok_state imem existsb orb].
    destruct (existsb _ _) eqn:X; [|reflexivity]. apply existsb_exists in X. destruct X as (o & J & E).
    destruct o as [j []| |]; try discriminate E. cbn in J. apply in_app_or in J. destruct J as [J|J].
    - assert (X : In j (flat_map live_op r)) by (apply in_flat_map; exists (OLoop j false); split; [exact J|left; reflexivity]).
      rewrite Cl in X. destruct X.
    - apply in_map_iff in J. destruct J as (y & E' & _). discriminate E'. }
  assert (L1 : live m1 = []) by (subst m1; rewrite live_stop_ok; exact Cl).
  assert (Z1 : m_zones m1 = []) by (subst m1; reflexivity).
  assert (G1 : m_gen m1 = m_gen m) by (subst m1; reflexivity).
  subst m'. unfold main_step. rewrite St, R. unfold run_op, restartControlLoops. rewrite S0.
  destruct b as [| | |ids n]; cbn [started built_zones] in *.
  - rewrite Z1, L1. auto.
  - unfold quit. unfold live in *. cbn. rewrite Z1. auto.
  - unfold arm_retry. assert (E : forall a, live (set_retry true a (if m_rtimer m1 then enqueue (ORestart true) m1 else m1)) = []).
    { intros a. destruct (m_rtimer m1); [|exact L1]. change (live (enqueue (ORestart true) m1) = []). rewrite live_enqueue by reflexivity. exact L1. }
    split; [destruct (m_rtimer m1); exact Z1|]. split; [apply E|exact H].
  - rewrite map_length in L. destruct (nodup Z.eq_dec ids) as [|z0 zr] eqn:N.
    + split; [cbn; exact Z1|]. split; [|exact H]. rewrite firstn_nil. exact L1.
    + remember (z0 :: zr) as zz. rewrite G1.
      match goal with |- context [start_loops ?zs ?n ?s] => pose proof (start_loops_some zs n s) as Q; rewrite map_length in Q;
        specialize (Q L); pose proof (MainProofs.start_zones zs n s) as Zz; destruct (start_loops zs n s) as (q & s') end.
      cbn [fst snd] in *. destruct Q as (-> & Ha & Hr & Hs & Ht). cbn in Ha, Hr, Zz.
      assert (La : m_armed m1 = [] /\ flat_map live_op (m_ready m1) = []).
      { unfold live in L1. apply app_eq_nil in L1. exact L1. }
      destruct La as (La & Lb). rewrite La in Ha. cbn in Ha.
      assert (Lv : live s' = firstn n (map (fun z => (z, S (m_gen m))) zz)).
      { unfold live. rewrite Ha, Hr, Lb, app_nil_r. reflexivity. }
      destruct (n =? _)%nat.
      * auto.
      * unfold arm_retry. split; [destruct (m_rtimer s'); exact Zz|]. split; [|exact H]. refine (eq_trans _ Lv).
        destruct (m_rtimer s'); [|reflexivity]. change (live (enqueue (ORestart true) s') = live s'). apply live_enqueue. reflexivity.
Qed.

(** ** One step *)

Section Steps.
Context (f : flags) (sf : sflags) (pow10 : Z -> dbl) (re : regex) (named : string).

Definition plain (d : daemon) : daemon := set_reload (reload_step (dm_reload d) (VRun true BNotReady false)) d.

Lemma reload_run_main r ok b bus : m_stopped (rl_main r) = false ->
  rl_main (reload_step r (VRun ok b bus)) = main_step (rl_main r) (ERun ok b).
Proof. intros St. rewrite step_main. unfold main_part. rewrite St. reflexivity. Qed.
Lemma plain_main d : m_stopped (dm_main d) = false -> dm_main (plain d) = main_step (dm_main d) (ERun true BNotReady).
Proof. intros St. exact (reload_run_main _ _ _ _ St). Qed.

(** Handlers that change nothing outside MainModel.v and ReloadModel.v. *)
Definition only_main (l : list main_ev) (m : main_st) : Prop :=
  (l = [] \/ exists x, l = [x]) /\
  (forall ok b, In (ERun ok b) l -> passes m = false /\ b = BNotReady /\ ok = true).

Lemma main_part_term r e : In EPostTerminate (main_part r e) -> e = VTerm.
Proof.
  unfold main_part. destruct (m_stopped _); [intros []|]. destruct e; cbn; intros H; try destruct H as [H|[]]; try discriminate H; try contradiction; try reflexivity.
  destruct (rl_done r) as [|[[]|[]] l]; cbn in H; try destruct H as [H|[]]; try discriminate H; contradiction.
Qed.
Inductive kind (d : daemon) : daemon_ev -> daemon -> Prop :=
| k_main e d1 l : (forall x, e = DSys x -> ~ message x) -> (forall w k z, e = DRun w k -> ~ next_is (OLoop z false) d) ->
    only_main l (dm_main d) -> (In EPostTerminate l -> e = DMove VTerm) -> d1 = Daemon (dm_reload d1) (dm_sys d) (dm_ids d) (dm_exports d) ->
    dm_main d1 = main_run l (dm_main d) -> kind d e d1
| k_message x s : message x -> sys_step f sf pow10 (dm_sys d) x = Ok s -> kind d (DSys x) (set_sys s d)
| k_throw x : message x -> kind d (DSys x) (die d)
| k_wake w k i n s : next_is (OLoop i false) d -> index_of i (dm_ids d) = Some n ->
    sys_tick f n k (dm_sys d) = Ok s -> kind d (DRun w k) (set_sys s (plain d))
| k_orphan w k i : next_is (OLoop i false) d -> index_of i (dm_ids d) = None -> kind d (DRun w k) (plain d)
| k_cycle_throws w k i n m : next_is (OLoop i false) d -> index_of i (dm_ids d) = Some n ->
    sys_tick f n k (dm_sys d) = Throw m ->
    kind d (DRun w k) (set_reload (reload_step (dm_reload d) (VRun false BNotReady false)) d)
| k_restart w k r m d' b ex s bus : m_ready (dm_main d) = ORestart false :: r ->
    stopControlLoops (set_ready r (dm_main d)) = (true, m) -> clear_zones f (wk_write_ok k) m d = Ok d' ->
    restart f sf pow10 re named w (dm_exports d') (dm_sys d') = Ok (b, (ex, s)) ->
    kind d (DRun w k)
      (let rl := reload_step (dm_reload d) (VRun true b bus) in
       Daemon rl s (dm_ids d' ++ firstn (started b) (m_zones (rl_main rl))) ex)
| k_clear_throws w k o r m : m_ready (dm_main d) = o :: r -> is_attempt o = true ->
    stopControlLoops (set_ready r (dm_main d)) = (true, m) -> (exists x, clear_zones f (wk_write_ok k) m d = Throw x) ->
    kind d (DRun w k) (die d)
| k_terminate w k r m d' : m_ready (dm_main d) = OTerminate false :: r ->
    stopControlLoops (set_ready r (dm_main d)) = (true, m) -> clear_zones f (wk_write_ok k) m d = Ok d' ->
    kind d (DRun w k) (plain d').

Lemma clear_reload ok m d d' : clear_zones f ok m d = Ok d' -> dm_reload d' = dm_reload d /\ dm_exports d' = dm_exports d.
Proof. unfold clear_zones. intros H. apply bind_ok in H. destruct H as (ks & _ & H). injection H as <-. split; reflexivity. Qed.

Lemma step_kind d e d1 : m_stopped (dm_main d) = false -> daemon_step f sf pow10 re named d e = Ok d1 -> kind d e d1.
Proof.
  intros St H. unfold daemon_step in H. rewrite St in H.
  destruct e as [e|w k|x].
  - assert (M : (forall ok b bus, e <> VRun ok b bus) -> kind d (DMove e) (set_reload (reload_step (dm_reload d) e) d)).
    { intros N. apply (k_main _ _ _ (main_part (dm_reload d) e)); [discriminate|discriminate| |intros T; rewrite (main_part_term _ _ T); reflexivity|reflexivity|apply step_main].
      split; [apply main_part_one|]. intros ok b X. exfalso. unfold main_part in X.
      destruct (m_stopped _); [destruct X|]. destruct e; cbn in X; try destruct X as [X|[]]; try discriminate X; try contradiction.
      - destruct (rl_done (dm_reload d)) as [|[[]|[]] rr]; cbn in X; try destruct X as [X|[]]; try discriminate X; contradiction.
      - apply (N _ _ _ eq_refl). }
    destruct e; try (injection H as <-; apply M; discriminate).
    injection H as <-. apply (k_main _ _ _ []); [discriminate|discriminate| |intros []| |reflexivity].
    + split; [left; reflexivity|]. intros ? ? [].
    + destruct d; reflexivity.
  - unfold run_handler in H. destruct (m_ready (dm_main d)) as [|o r] eqn:R.
    + injection H as <-. apply (k_main _ _ _ [ERun true BNotReady]); [discriminate| | |intros [T|[]]; discriminate T|reflexivity|exact (plain_main d St)].
      * intros ? ? z E (r & X). rewrite R in X. discriminate X.
      * split; [right; eexists; reflexivity|]. intros ok b [X|[]]. injection X as <- <-. unfold passes. rewrite R. auto.
    + assert (P : (forall i, o <> OLoop i false) -> passes (dm_main d) = false -> kind d (DRun w k) (plain d)).
      { intros No Ps. apply (k_main _ _ _ [ERun true BNotReady]); [discriminate| | |intros [T|[]]; discriminate T|reflexivity|exact (plain_main d St)].
        - intros ? ? z E (r' & X). rewrite R in X. injection X as X _. exact (No _ X).
        - split; [right; eexists; reflexivity|]. intros ok b [X|[]]. injection X as <- <-. auto. }
      unfold passes in P. rewrite R in P.
      destruct o as [i []|[]|[]]; try (injection H as <-; apply P; [discriminate|reflexivity]).
      * assert (Nx : next_is (OLoop i false) d) by (exists r; exact R).
        destruct (index_of i (dm_ids d)) as [n|] eqn:Ix; [|injection H as <-; exact (k_orphan _ _ _ _ Nx Ix)].
        destruct (sys_tick f n k (dm_sys d)) as [s|s|s] eqn:T; [|injection H as <-; exact (k_cycle_throws _ _ _ _ _ _ Nx Ix T)|discriminate H].
        injection H as <-. exact (k_wake _ _ _ _ _ _ Nx Ix T).
      * destruct (stopControlLoops (set_ready r (dm_main d))) as [[] m] eqn:S; [|injection H as <-; apply P; [discriminate|reflexivity]].
        destruct (clear_zones f (wk_write_ok k) m d) as [d'|s|s] eqn:C; [|injection H as <-; exact (k_clear_throws _ w k _ _ _ R eq_refl S (ex_intro _ _ C))|discriminate H].
        apply bind_ok in H. destruct H as ((b & ex & s) & H1 & H). cbn zeta iota in H. injection H as <-.
        exact (k_restart _ w k _ _ _ _ _ _ _ R S C H1).
      * destruct (stopControlLoops (set_ready r (dm_main d))) as [[] m] eqn:S; [|injection H as <-; apply P; [discriminate|reflexivity]].
        destruct (clear_zones f (wk_write_ok k) m d) as [d'|s|s] eqn:C; [|injection H as <-; exact (k_clear_throws _ w k _ _ _ R eq_refl S (ex_intro _ _ C))|discriminate H].
        injection H as <-. exact (k_terminate _ w k _ _ _ R S C).
  - assert (D : message x \/ ~ message x).
    { destruct x; try (left; intros ? ? X; discriminate X). right. intros N. exact (N _ _ eq_refl). }
    destruct D as [M|M].
    + destruct x; try (exfalso; exact (M _ _ eq_refl)).
      all: match type of H with match ?g with _ => _ end = _ => destruct g as [s|s|s] eqn:T end; try discriminate H; injection H as <-;
        [exact (k_message _ _ _ M T)|exact (k_throw _ _ M)].
    + destruct x; try (exfalso; apply M; intros ? ? X; discriminate X). injection H as <-.
      apply (k_main _ _ _ []); [intros x E; injection E as <-; exact M|discriminate| |intros []| |reflexivity].
      * split; [left; reflexivity|]. intros ? ? [].
      * destruct d; reflexivity.
Qed.
(** ** Main handlers *)

Definition good_main (b : bool) (m : main_st) : Prop := if b then inv_no m else inv_one m.
Definition quiet (b : bool) (d : daemon) : Prop := if b then attempts_apart d else one_zone_only d.
Lemma good_clean b m : m_stopped m = false -> good_main b m -> clean_next m.
Proof. destruct b; cbn; intros; [apply inv_no_clean|apply inv_one_clean]; assumption. Qed.
Lemma good_inv1 b m : good_main b m -> inv1 m.
Proof. destruct b; intros H; apply H. Qed.
Lemma good_quit b m : good_main b m -> good_main b (quit m).
Proof.
  destruct b; cbn; [intros (I & A & J)|intros (I & Z)]; split; try (apply quit_inv, I); [|exact Z]. split; assumption.
Qed.

Lemma restart_started w old s b ex s0 g : any_order w -> restart f sf pow10 re named w old s = Ok (b, (ex, s0)) ->
  started b <= List.length (built_zones g b).
Proof.
  intros Or H. destruct b as [| | |ids n]; cbn; try lia. apply restart_zones_inv in H; [|exact Or].
  destruct H as (c & m & built & _ & _ & _ & _ & Nd & L & _). rewrite nodup_fixed_point by exact Nd. rewrite map_length. exact L.
Qed.
Lemma restart_nodup w old s ids n ex s0 : any_order w -> restart f sf pow10 re named w old s = Ok (BZones ids n, (ex, s0)) -> NoDup ids.
Proof. intros Or H. apply restart_zones_inv in H; [|exact Or]. destruct H as (c & m & built & _ & _ & _ & _ & Nd & _). exact Nd. Qed.

Lemma kind_main d e d1 : m_stopped (dm_main d) = false -> kind d e d1 ->
  (dm_main d1 = quit (dm_main d) \/
   exists l, (l = [] \/ exists x, l = [x]) /\ dm_main d1 = main_run l (dm_main d) /\
    forall ok b, In (ERun ok b) l -> b = BNotReady \/
      exists w k r m ex s old s', e = DRun w k /\ m_ready (dm_main d) = ORestart false :: r /\
        stopControlLoops (set_ready r (dm_main d)) = (true, m) /\ restart f sf pow10 re named w old s' = Ok (b, (ex, s))).
Proof.
  intros St K. destruct K as [e d1 l N1 N2 Om Te E1 E2|x s M E|x M|w k i n s Nx Ix T|w k i Nx Ix|w k i n m Nx Ix T|w k r m d' b ex s bus R S C E|w k o r m R A S C|w k r m d' R S C].
  - right. exists l. destruct Om as (O1 & O2). split; [exact O1|]. split; [exact E2|]. intros ok b I. left. apply (O2 _ _ I).
  - right. exists []. split; [left; reflexivity|]. split; [reflexivity|]. intros ok b [].
  - left. reflexivity.
  - right. exists [ERun true BNotReady]. split; [right; eexists; reflexivity|]. split; [exact (plain_main d St)|].
    intros ok b [X|[]]. injection X as _ <-. left. reflexivity.
  - right. exists [ERun true BNotReady]. split; [right; eexists; reflexivity|]. split; [exact (plain_main d St)|].
    intros ok b [X|[]]. injection X as _ <-. left. reflexivity.
  - right. exists [ERun false BNotReady]. split; [right; eexists; reflexivity|]. split; [exact (reload_run_main _ _ _ _ St)|].
    intros ok b [X|[]]. injection X as _ <-. left. reflexivity.
  - right. exists [ERun true b]. split; [right; eexists; reflexivity|]. split; [exact (reload_run_main _ _ _ _ St)|].
    intros ok b' [X|[]]. injection X as _ <-. right. exists w, k, r, m, ex, s, (dm_exports d'), (dm_sys d'). auto.
  - left. reflexivity.
  - right. exists [ERun true BNotReady]. split; [right; eexists; reflexivity|]. split.
    + destruct (clear_reload _ _ _ _ C) as (E & _). unfold dm_main at 1, plain. cbn [dm_reload set_reload]. rewrite E.
      exact (reload_run_main _ _ _ _ St).
    + intros ok b [X|[]]. injection X as _ <-. left. reflexivity.
Qed.

Lemma good_step b d e d1 : m_stopped (dm_main d) = false -> good_main b (dm_main d) -> ordered e -> kind d e d1 -> quiet b d1 ->
  good_main b (dm_main d1).
Proof.
  intros St G Or K Q. destruct (kind_main d e d1 St K) as [E|(l & L & E & Z)]; [rewrite E; apply good_quit, G|].
  unfold quiet, attempts_apart, one_zone_only in Q. rewrite E in *. destruct L as [->|(x & ->)]; [exact G|].
  cbn [main_run fold_left] in *.
  destruct b; cbn in *.
  - apply step_no; [exact G|]. intros Qa. apply filter_none. apply queue_adds in Qa; [|exact St]. lia.
  - apply step_one; [exact G|]. intros ok ids n ->. destruct (Z _ _ (or_introl eq_refl)) as [X|X]; [discriminate X|].
    destruct X as (w & k & r & m & ex & s & old & s' & -> & R & S & Rs). specialize (Or _ _ eq_refl).
    destruct (restart_live _ _ ok (BZones ids n) _ (proj1 G) (inv_one_clean _ G) St R S (restart_started _ _ _ _ _ _ _ Or Rs)) as (Mz & _).
    rewrite Mz in Q. cbn [built_zones] in Q. rewrite map_length, nodup_fixed_point in Q by exact (restart_nodup _ _ _ _ _ _ _ Or Rs). exact Q.
Qed.

Lemma exit_step d e d1 : m_stopped (dm_main d) = false -> exit_inv (dm_main d) -> kind d e d1 -> exit_inv (dm_main d1).
Proof.
  intros St X K. destruct (kind_main d e d1 St K) as [E|(l & L & E & Z)]; rewrite E; [apply quit_exit; assumption|apply run_exit; exact X].
Qed.
Lemma going_iff d : exit_inv (dm_main d) -> (going d <-> m_stopped (dm_main d) = false).
Proof.
  intros X. unfold going, ended, history. fold (dm_main d). rewrite <- in_rev. unfold exit_inv in X. destruct (m_stopped (dm_main d)).
  - destruct X as (l & -> & _). split; [intros N; elim N; left; reflexivity|discriminate].
  - split; auto.
Qed.

(** ** Zones that go *)

Lemma no_rest {A} (g : A -> bool) l : (forall x, g x = false) -> filter g l = [] /\ filter (fun x => negb (g x)) l = l.
Proof. intros H. induction l as [|x r (IH1 & IH2)]; cbn; [auto|]. rewrite H. cbn. rewrite IH2. auto. Qed.

Lemma destroy_rest ok k s l k' s' : destroy_zone f ok (k, s) l = Ok (k', s') ->
  sy_failures s' = sy_failures s /\ sy_power s' = sy_power s /\ (OFFLINE_FAILSAFE_PWM f = false -> sy_devices s' = sy_devices s).
Proof.
  unfold destroy_zone. intros H. apply bind_ok in H. destruct H as (z & Hz & H). pose proof H as W. apply writes_rest in W. cbn [snd] in W.
  destruct W as (_ & W1 & W2 & _). split; [exact W1|]. split; [exact W2|]. intros O.
  assert (E : z = l_zone l).
  { revert Hz. apply (foldM_inv (fun z => z = l_zone l)); [|reflexivity]. intros z0 c z1 _ -> H1. destruct c as [c|]; [|injection H1 as <-; reflexivity].
    unfold fan_destroy in H1. rewrite O in H1. injection H1 as <-. reflexivity. }
  subst z. unfold new_writes in H. rewrite Nat.sub_diag in H. cbn in H. injection H as _ <-. reflexivity.
Qed.
Lemma destroys_rest ok ls : forall ks ks', foldM (destroy_zone f ok) ls ks = Ok ks' ->
  sy_failures (snd ks') = sy_failures (snd ks) /\ sy_power (snd ks') = sy_power (snd ks) /\
  (OFFLINE_FAILSAFE_PWM f = false -> sy_devices (snd ks') = sy_devices (snd ks)).
Proof.
  induction ls as [|l r IH]; intros ks ks' H; cbn [foldM] in H; [injection H as <-; auto|].
  apply bind_ok in H. destruct H as ((k1 & s1) & H1 & H). destruct ks as (k & s). apply destroy_rest in H1. apply IH in H. cbn [snd] in *.
  destruct H1 as (A1 & A2 & A3), H as (B1 & B2 & B3). split; [congruence|]. split; [congruence|]. intros O. rewrite B3, A3 by exact O. reflexivity.
Qed.
Lemma clear_rest ok m d d' : clear_zones f ok m d = Ok d' -> (forall i, handled m i = false) ->
  dm_ids d' = [] /\ sy_loops (dm_sys d') = [] /\ sy_failures (dm_sys d') = sy_failures (dm_sys d) /\
  sy_power (dm_sys d') = sy_power (dm_sys d) /\ (OFFLINE_FAILSAFE_PWM f = false -> sy_devices (dm_sys d') = sy_devices (dm_sys d)).
Proof.
  unfold clear_zones. intros H N. apply bind_ok in H. destruct H as (ks & H & H1). injection H1 as <-. cbn [dm_ids dm_sys sy_loops set_loops sy_failures sy_power sy_devices].
  destruct (no_rest (fun x : inst * loop => handled m (fst x)) (combine (dm_ids d) (sy_loops (dm_sys d))) (fun x => N (fst x))) as (-> & _).
  apply destroys_rest in H. cbn [snd] in H. auto.
Qed.
End Steps.

(** ** The running system (C90) *)

Lemma load_json_sensors j c : load_json j = Ok c -> NoDup (map fst (l_sensors c)).
Proof.
  unfold load_json. intros H. apply bind_ok in H. destruct H as (u & _ & H). apply bind_ok in H. destruct H as (ss & Hs & H).
  apply bind_ok in H. destruct H as (zs & _ & H). injection H as <-. cbn [l_sensors].
  unfold buildSensorsFromJson in Hs. apply bind_ok in Hs. destruct Hs as (jz & _ & Hs). apply in_order_nodup.
  revert Hs. apply (foldM_inv in_order); [|constructor].
  intros m x m' _ O E1. unfold read_sensor in E1. repeat (apply bind_ok in E1; destruct E1 as (? & _ & E1)). injection E1 as <-.
  apply sorted_mset. exact O.
Qed.
Lemma read_sensors sf re named dk cb c :
  read_configuration sf re named dk cb = Ok (Loaded c) -> NoDup (map fst (l_sensors c)).
Proof.
  intros H. rewrite read_chosen in H. apply bind_ok in H. destruct H as ((p & b) & _ & H). cbn [fst snd] in H.
  destruct b.
  - destruct (load_file dk p) as [c'|m|m] eqn:E; try discriminate H. injection H as ->. unfold load_file in E.
    destruct (dk_content dk p); try discriminate E. exact (load_json_sensors _ _ E).
  - apply bind_ok in H. destruct H as ((r & c') & E & H). cbn [fst snd] in H. destruct r; [|discriminate H]. injection H as ->.
    destruct (C69_lemma _ _ _ _ _ E) as (resp & bus & objs & number & _ & _ & _ & _ & _ & Ac & _). apply in_order_nodup, (ac_order _ _ _ _ Ac).
Qed.

Lemma index_of_nth i l : forall n, index_of i l = Some n -> nth_error l n = Some i.
Proof.
  induction l as [|x r IH]; intros n H; cbn in H; [discriminate H|]. destruct (inst_eqb i x) eqn:E.
  - injection H as <-. apply inst_eqb_eq in E. subst. reflexivity.
  - destruct (index_of i r) as [k|]; [|discriminate H]. injection H as <-. cbn. apply IH. reflexivity.
Qed.
Lemma index_of_none i l : index_of i l = None -> ~ In i l.
Proof.
  induction l as [|x r IH]; cbn; [auto|]. destruct (inst_eqb i x) eqn:E; [discriminate|]. destruct (index_of i r) eqn:F; [discriminate|].
  intros _ [->|X]; [rewrite inst_eqb_refl in E; discriminate E|]. apply IH; auto.
Qed.

Section Life.
Context (f : flags) (sf : sflags) (pow10 : Z -> dbl) (re : regex) (named : string).
Notation kind := (kind f sf pow10 re named).
Notation step := (daemon_step f sf pow10 re named).
Notation run := (daemon_run f sf pow10 re named).
Notation passes_on := (passes_on f sf pow10 re named).

Lemma po_app d a l d1 b l' d2 : passes_on d a l d1 -> passes_on d1 b l' d2 -> passes_on d (a ++ b) (l ++ l') d2.
Proof.
  induction 1 as [d|d e d' evs l d2' M E _ IH|d w k i z d' evs l d2' Nx Nt E _ IH|d e d' evs l d2' N1 N2 E _ IH]; intros P; cbn; [exact P| | |].
  - apply (po_message _ _ _ _ _ _ _ _ _ _ _ M E). auto.
  - apply (po_wake _ _ _ _ _ _ _ _ _ _ _ _ _ _ Nx Nt E). auto.
  - apply (po_other _ _ _ _ _ _ _ _ _ _ _ N1 N2 E). auto.
Qed.

Lemma live_next i d : next_is (OLoop i false) d -> In i (live (dm_main d)).
Proof. intros (r & R). unfold live. rewrite R. apply in_or_app. right. left. reflexivity. Qed.
Lemma not_attempt i d : next_is (OLoop i false) d -> passes (dm_main d) = false.
Proof. intros (r & R). unfold passes. rewrite R. reflexivity. Qed.

(** What one step does to the loops and to the system. *)
Inductive effect (d : daemon) (e : daemon_ev) (d1 : daemon) : Prop :=
| f_on l : passes_on d [e] l d1 -> dm_ids d1 = dm_ids d -> dm_exports d1 = dm_exports d ->
    sys_run f sf pow10 l (dm_sys d) = Ok (dm_sys d1) -> incl (live (dm_main d1)) (live (dm_main d)) -> loop_stops d1 = loop_stops d -> effect d e d1
| f_restart w k d' b s : e = DRun w k -> next_is (ORestart false) d -> clear_zones f (wk_write_ok k) (snd (stopControlLoops (set_ready (tl (m_ready (dm_main d))) (dm_main d)))) d = Ok d' ->
    dm_exports d' = dm_exports d ->
    dm_ids d' = [] -> sy_loops (dm_sys d') = [] -> sy_failures (dm_sys d') = sy_failures (dm_sys d) ->
    sy_power (dm_sys d') = sy_power (dm_sys d) ->
    (OFFLINE_FAILSAFE_PWM f = false -> sy_devices (dm_sys d') = sy_devices (dm_sys d)) ->
    restart f sf pow10 re named w (dm_exports d) (dm_sys d') = Ok (b, (dm_exports d1, s)) ->
    dm_sys d1 = s -> dm_main d1 = main_step (dm_main d) (ERun true b) ->
    dm_ids d1 = firstn (started b) (built_zones (m_gen (dm_main d)) b) -> live (dm_main d1) = dm_ids d1 -> loop_stops d1 = (loop_stops d ++ [MStopped])%list -> effect d e d1.

Lemma step_effect b d e d1 : m_stopped (dm_main d) = false -> good_main b (dm_main d) -> ordered e ->
  incl (live (dm_main d)) (dm_ids d) -> step d e = Ok d1 -> m_stopped (dm_main d1) = false -> effect d e d1.
Proof.
  intros St G Or Li H St1. pose proof (step_kind f sf pow10 re named d e d1 St H) as K. pose proof (good_inv1 _ _ G) as I1.
  destruct K as [e d1 l N1 N2 Om Te E1 E2|x s M E|x M|w k i n s Nx Ix T|w k i Nx Ix|w k i n m Nx Ix T|w k r m d' bd ex s bus R S C E|w k o r m R A S C|w k r m d' R S C].
  - apply (f_on _ _ _ []).
    + apply (po_other _ _ _ _ _ _ _ d1 _ _ _ N1 N2 H). constructor.
    + rewrite E1. reflexivity.
    + rewrite E1. reflexivity.
    + rewrite E1. reflexivity.
    + rewrite E2. destruct Om as (O1 & O2). destruct O1 as [->|(x & ->)]; [apply incl_refl|]. cbn [main_run fold_left].
      apply live_keeps; [exact I1|exact St|]. intros ok b' ->. apply (O2 _ _ (or_introl eq_refl)).
    + apply stops_log. rewrite E2 in *. destruct Om as (O1 & O2). destruct O1 as [->|(x & ->)]; [reflexivity|]. cbn [main_run fold_left] in *.
      apply stops_keep; [exact St| |exact St1]. intros ok b' ->. apply (O2 _ _ (or_introl eq_refl)).
  - apply (f_on _ _ _ [x]); try reflexivity.
    + apply (po_message _ _ _ _ _ _ _ _ _ _ _ M H). constructor.
    + cbn. rewrite E. reflexivity.
    + apply incl_refl.
  - discriminate St1.
  - apply (f_on _ _ _ [STick n k]); try reflexivity.
    + apply (po_wake _ _ _ _ _ _ _ _ _ _ _ _ _ _ Nx (index_of_nth _ _ _ Ix) H). constructor.
    + cbn. rewrite T. reflexivity.
    + change (incl (live (dm_main (plain d))) (live (dm_main d))). rewrite (plain_main d St). apply live_keeps; [exact I1|exact St|].
      intros _ _ _. exact (not_attempt _ _ Nx).
    + apply stops_log. change (filter is_stop (m_log (dm_main (plain d))) = filter is_stop (m_log (dm_main d))).
      change (m_stopped (dm_main (plain d)) = false) in St1. rewrite (plain_main d St) in *. apply stops_keep; [exact St| |exact St1].
      intros _ _ _. exact (not_attempt _ _ Nx).
  - elim (index_of_none _ _ Ix). apply Li, live_next, Nx.
  - exfalso. unfold dm_main in St1 at 1. cbn [dm_reload set_reload] in St1. rewrite (reload_run_main _ _ _ _ St) in St1.
    destruct Nx as (r & R). fold (dm_main d) in St1. unfold main_step in St1. rewrite St, R in St1. discriminate St1.
  - specialize (Or _ _ eq_refl). destruct (clear_reload _ _ _ _ _ C) as (_ & Ex). rewrite Ex in E.
    destruct (restart_live _ _ true bd _ I1 (good_clean _ _ St G) St R S (restart_started _ _ _ _ _ _ _ _ _ _ _ _ Or E)) as (Mz & Ml & Hn).
    destruct (clear_rest _ _ _ _ _ C Hn) as (C1 & C2 & C3 & C4 & C5).
    set (rl := reload_step (dm_reload d) (VRun true bd bus)) in *.
    assert (Er : rl_main rl = main_step (dm_main d) (ERun true bd)) by exact (reload_run_main _ _ _ _ St).
    refine (f_restart d (DRun w k) (Daemon rl s (dm_ids d' ++ firstn (started bd) (m_zones (rl_main rl))) ex) w k d' bd s eq_refl (ex_intro _ _ R) _
      Ex C1 C2 C3 C4 C5 E eq_refl Er _ _ _).
    + rewrite R. cbn [tl]. rewrite S. exact C.
    + cbn [dm_ids]. rewrite C1, Er, Mz. reflexivity.
    + cbn [dm_ids]. unfold dm_main at 1. cbn [dm_reload]. rewrite C1, Er, Ml, Mz. reflexivity.
    + unfold loop_stops, history. rewrite !filter_rev. change (dm_main (Daemon rl s (dm_ids d' ++ firstn (started bd) (m_zones (rl_main rl))) ex)) with (rl_main rl).
      rewrite Er, (restart_stops _ _ _ _ _ St R S). reflexivity.
  - discriminate St1.
  - exfalso. destruct (clear_reload _ _ _ _ _ C) as (Er & _). unfold dm_main in St1 at 1. unfold plain in St1. cbn [dm_reload set_reload] in St1.
    rewrite Er, (reload_run_main _ _ _ _ St) in St1. fold (dm_main d) in St1. unfold main_step, run_op in St1. rewrite St, R, S in St1. discriminate St1.
Qed.

Notation running := (running f sf pow10 re named).

Record life (b : bool) (d0 : daemon) (evs : list daemon_ev) (d : daemon) : Prop := Life {
  lf_good : good_main b (dm_main d);
  lf_exit : exit_inv (dm_main d);
  lf_live : m_stopped (dm_main d) = false -> incl (live (dm_main d)) (dm_ids d);
  lf_runs : m_stopped (dm_main d) = false -> dm_ids d = [] /\ sy_loops (dm_sys d) = [] \/ running d0 evs d
}.

Lemma effect_runs d0 evs d e d1 : run evs d0 = Ok d -> ordered e -> step d e = Ok d1 ->
  dm_ids d = [] /\ sy_loops (dm_sys d) = [] \/ running d0 evs d -> effect d e d1 ->
  incl (live (dm_main d)) (dm_ids d) -> m_stopped (dm_main d1) = false ->
  dm_ids d1 = [] /\ sy_loops (dm_sys d1) = [] \/ running d0 (evs ++ [e]) d1.
Proof.
  intros Ru Or H Rn Ef Li St1. destruct Ef as [l P Ei Ex R L Ls|w k d' b s -> Nx Cl Ex' C1 C2 C3 C4 C5 Rs Es Em Ei El Lx].
  - destruct Rn as [(N & Nl)|Rn].
    + destruct (list_eq_dec inst_dec (dm_ids d1) []) as [E|E]; [|congruence]. left. split; [exact E|].
      assert (Q : forall l s s', sys_run f sf pow10 l s = Ok s' -> sy_loops s = [] -> sy_loops s' = []).
      { clear. induction l as [|e l IH]; intros s s' H E; cbn in H; [injection H as <-; exact E|].
        apply bind_ok in H. destruct H as (s1 & H1 & H). apply (IH _ _ H).
        destruct e; cbn in H1.
        - apply bind_ok in H1. destruct H1 as (? & _ & H1). injection H1 as <-. exact E.
        - injection H1 as <-. exact E.
        - apply bind_ok in H1. destruct H1 as (? & _ & H1). injection H1 as <-. exact E.
        - injection H1 as <-. exact E.
        - unfold sys_tick in H1. rewrite E in H1. destruct i; cbn in H1; injection H1 as <-; exact E.
        - rewrite E in H1. destruct i; cbn in H1; injection H1 as <-; reflexivity.
        - rewrite E in H1. destruct i; cbn in H1; injection H1 as <-; reflexivity. }
      exact (Q _ _ _ R Nl).
    + right. destruct Rn as (pre & w & k & post & da & d2 & c & fl & first & devs & zs & rest & sevs & E & A1 & A2 & A3 & A4 & A5 & A6 & A7 & A8 & A9 & A10 & A11 & A12).
      exists pre, w, k, (post ++ [e])%list, da, d2, c, fl, first, devs, zs, rest, (sevs ++ l)%list.
      split; [rewrite E, <- app_assoc; reflexivity|]. split; [exact A1|]. split; [exact A2|]. split; [exact A3|]. split; [exact A4|].
      split; [exact A5|]. split; [rewrite Ei; exact A6|]. split; [exact (po_app _ _ _ _ _ _ _ A7 P)|].
      split; [exact (runs_more _ _ _ _ _ _ _ _ _ _ _ _ _ A8 R)|]. split; [exact A9|]. split; [exact A10|]. split; [exact A11|]. rewrite Ls. exact A12.
  - specialize (Or _ _ eq_refl).
    destruct b as [| | |ids n].
    + left. cbn in Ei. split; [exact Ei|]. unfold restart in Rs.
      destruct (read_configuration sf re named (su_disk w) (su_config w)) as [[c| |]|m|m]; try discriminate Rs; [|injection Rs as _ <-; rewrite Es; exact C2].
      destruct (buildSensors _ _ _ _) as [m|m|m]; try discriminate Rs. destruct (buildZones _ _ _) as [bu|m'|m']; try discriminate Rs.
      apply bind_ok in Rs. destruct Rs as (x & _ & Rs). discriminate Rs.
    + left. cbn in Ei. split; [exact Ei|]. unfold restart in Rs.
      destruct (read_configuration sf re named (su_disk w) (su_config w)) as [[c| |]|m|m]; try discriminate Rs; [|injection Rs as _ <-; rewrite Es; exact C2].
      destruct (buildSensors _ _ _ _) as [m|m|m]; try discriminate Rs. destruct (buildZones _ _ _) as [bu|m'|m']; try discriminate Rs.
      apply bind_ok in Rs. destruct Rs as (x & _ & Rs). discriminate Rs.
    + left. cbn in Ei. split; [exact Ei|]. unfold restart in Rs.
      destruct (read_configuration sf re named (su_disk w) (su_config w)) as [[c| |]|m|m]; try discriminate Rs; [|injection Rs as _ <-; rewrite Es; exact C2].
      destruct (buildSensors _ _ _ _) as [m|m|m]; try discriminate Rs.
      * destruct (buildZones _ _ _) as [bu|m'|m']; try discriminate Rs.
        -- apply bind_ok in Rs. destruct Rs as (x & _ & Rs). discriminate Rs.
        -- injection Rs as _ <-. rewrite Es. destruct (su_redundancy w); exact C2.
      * injection Rs as _ <-. rewrite Es. destruct (su_redundancy w); exact C2.
    + pose proof (restart_zones_inv _ _ _ _ _ _ _ _ _ _ _ _ Or Rs) as (c & m & built & Er & Em' & Eb & -> & Nd & L & Ee & Zi & F).
      cbn [started built_zones] in Ei. rewrite nodup_fixed_point in Ei by exact Nd.
      destruct n as [|n0] eqn:En.
      { left. split; [exact Ei|]. cbn in F. injection F as F. rewrite Es, <- F. exact C2. }
      right. rewrite <- En in *. rewrite with_starts_firstn in F.
      exists evs, w, k, [], d, d1, c, (failures_now w (dm_sys d')), (host_reply (sy_power (dm_sys d'))), (sy_devices (dm_sys d')),
        (with_starts w (firstn n (su_order w built))), (with_starts w (skipn n (su_order w built))), [].
      split; [reflexivity|]. split; [exact Ru|]. split; [exact Nx|]. split; [exact H|]. split; [exact Er|].
      assert (Wa : (with_starts w (firstn n (su_order w built)) ++ with_starts w (skipn n (su_order w built)))%list = with_starts w (su_order w built)).
      { unfold with_starts. rewrite <- map_app, firstn_skipn. reflexivity. }
      split; [|split; [|split; [constructor|split; [|split; [rewrite host_reply_says; exact C4|split; [|split; [exact C5|split; [exact Lx|reflexivity]]]]]]]].
      * unfold zones_of. rewrite Wa. split.
        -- split; [exact (read_order _ _ _ _ _ _ Er)|]. exists built. split; [exact Eb|]. rewrite with_starts_snd. apply Permutation_map, Or.
        -- rewrite Forall_forall. intros [st z] I. unfold with_starts in I. apply in_map_iff in I. destruct I as ([id z'] & X & I). injection X as <- <-. cbn.
           destruct (Zi _ _ I) as (-> & _). reflexivity.
      * rewrite Ei. unfold with_starts. rewrite map_map. cbn [snd]. rewrite !firstn_map, !map_map. cbn [fst].
        apply map_ext_in. intros [id z] I. apply firstn_incl in I. exact (proj1 (Zi _ _ I)).
      * subst s. constructor; [exact (read_sensors _ _ _ _ _ _ Er)| |].
        -- rewrite Forall_forall. intros [st z] I. unfold with_starts in I. apply in_map_iff in I. destruct I as ([id z'] & X & I). injection X as <- <-.
           apply firstn_incl in I. apply (Zi _ _ I).
        -- exists m, (dm_sys d1). split; [exact Em'|]. split; [|reflexivity]. unfold sys_start. rewrite host_reply_says. rewrite C2 in F. exact F.
      * unfold failures_now. destruct (su_redundancy w); [left; reflexivity|right]. auto.
Qed.

Lemma life_step b d0 evs d e d1 : run evs d0 = Ok d -> life b d0 evs d -> ordered e -> step d e = Ok d1 -> quiet b d1 -> life b d0 (evs ++ [e]) d1.
Proof.
  intros Ru [G X Li Rn] Or H Q. destruct (m_stopped (dm_main d)) eqn:St.
  - assert (E : d1 = d) by (unfold daemon_step in H; rewrite St in H; congruence). subst d1. constructor; auto; rewrite St; discriminate.
  - specialize (Li eq_refl). specialize (Rn eq_refl). pose proof (step_kind _ _ _ _ _ _ _ _ St H) as K.
    constructor.
    + exact (good_step _ _ _ _ _ _ _ _ _ St G Or K Q).
    + exact (exit_step _ _ _ _ _ _ _ _ St X K).
    + intros St1. destruct (step_effect _ _ _ _ St G Or Li H St1) as [l P Ei Ex R L Ls|w k d' b' s -> Nx Cl Ex' C1 C2 C3 C4 C5 Rs Es Em Ei El Lx].
      * rewrite Ei. intros x I. apply Li, L, I.
      * rewrite El. apply incl_refl.
    + intros St1. exact (effect_runs _ _ _ _ _ Ru Or H Rn (step_effect _ _ _ _ St G Or Li H St1) Li St1).
Qed.

Lemma throughout_prefix P evs e d0 : throughout f sf pow10 re named P (evs ++ [e]) d0 -> throughout f sf pow10 re named P evs d0.
Proof. intros H pre post d E R. apply (H pre (post ++ [e])%list d); [rewrite E, app_assoc; reflexivity|exact R]. Qed.

Lemma life_init b first devices : life b (daemon_init first devices) [] (daemon_init first devices).
Proof.
  constructor.
  - destruct b; cbn [good_main].
    + apply (step_no main_init EPostRestart init_no). reflexivity.
    + apply (step_one main_init EPostRestart); [split; [apply init_inv1|cbn; lia]|]. discriminate.
  - apply (step_exit main_init EPostRestart init_exit).
  - intros _ x [].
  - intros _. left. split; reflexivity.
Qed.

Lemma life_run b first devices evs : forall d, Forall ordered evs -> throughout f sf pow10 re named (quiet b) evs (daemon_init first devices) ->
  run evs (daemon_init first devices) = Ok d -> life b (daemon_init first devices) evs d.
Proof.
  induction evs as [|e evs IH] using rev_ind; intros d Or Th H.
  - cbn in H. injection H as <-. apply life_init.
  - unfold daemon_run in H. rewrite foldM_app in H. apply bind_ok in H. destruct H as (d' & H1 & H). cbn [foldM] in H.
    apply bind_ok in H. destruct H as (d'' & H & X). injection X as ->. apply Forall_app in Or. destruct Or as (Or & Oe). inversion Oe; subst.
    apply (life_step _ _ _ d'); try assumption.
    + apply IH; [exact Or|exact (throughout_prefix _ _ _ _ Th)|exact H1].
    + apply (Th (evs ++ [e])%list [] d); [rewrite app_nil_r; reflexivity|]. unfold daemon_run. rewrite foldM_app, H1. cbn [bind foldM]. rewrite H. reflexivity.
Qed.
End Life.

Lemma C90_lemma f sf pow10 re named first devices evs d :
  Forall ordered evs -> calm f sf pow10 re named evs (daemon_init first devices) ->
  daemon_run f sf pow10 re named evs (daemon_init first devices) = Ok d -> going d ->
  incl (live (dm_main d)) (dm_ids d) /\ (dm_ids d = [] /\ sy_loops (dm_sys d) = [] \/ running f sf pow10 re named (daemon_init first devices) evs d).
Proof.
  intros Or C H Go.
  assert (L : exists b, life f sf pow10 re named b (daemon_init first devices) evs d).
  { destruct C as [C|C]; [exists true|exists false]; apply life_run; assumption. }
  destruct L as (b & [G X Li Rn]). apply (going_iff _ X) in Go. auto.
Qed.
