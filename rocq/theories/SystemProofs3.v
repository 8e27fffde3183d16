(** * From bus messages to fan devices (C62, C64). *)
From Coq Require Import ZArith Bool List String Lia Reals.
From Coq Require Import Floats.SpecFloat.
From Flocq Require Import Core BinarySingleNaN.
From Verif Require Import Base BaseFacts Dbl DblFacts DblOrder DblBound PidModel ZoneModel LoopModel SpecZone ZoneProofs
  LoopProofs ReactionProofs SensorModel SpecSensor SensorProofs WriteModel SpecWrite WriteProofs ConfigModel BuilderRun
  SystemModel SpecSystem PathProofs SystemProofs SystemProofs2.
Import ListNotations.
Local Open Scope string_scope.
Local Open Scope Z_scope.

(** ** When a value was received *)
Lemma latest_accepted_time v t h :
  snd (latest accepted (v, t) h) = latest (fun m => option_map snd (accepted m)) t h.
Proof.
  induction h as [|m h IH] using rev_ind; [reflexivity|]. rewrite !latest_snoc.
  destruct (accepted m) as [[a b]|]; [reflexivity|exact IH].
Qed.

Lemma C61_age_lemma f sf pow10 sb config failures first devices zs evs s name info files now t :
  runs f sf pow10 sb config failures first devices zs evs s ->
  In (name, info) config -> known_type (sc_type info) -> updated_at sb name info evs t ->
  exists v, pe_sensor (view_env s files now) name = Some v /\
    sv_timeout v = sc_timeout info /\ sv_updated v = t.
Proof.
  intros R I K [(Bp & Nm & ->)|(Ep & Nf & ->)].
  - destruct (runs_passive _ _ _ _ _ _ _ _ _ _ _ _ _ R I K Bp) as (p0 & p & w & red & Cr & Pr & Red & Ex).
    cbn [view_env pe_sensor]. rewrite Ex. cbn [sensor_poll reader_read bind].
    eexists. split; [reflexivity|]. cbn [sv_timeout sv_updated]. split; [reflexivity|].
    apply create_cases in Cr. destruct Cr as (V & [(M & _)|(_ & i & St & T & C1)]); [contradiction|].
    apply (run_tracks _ _ _ _ _ _ _ _ T) in Pr. cbn [passive_read rr_updated].
    rewrite (tr_updated _ _ _ _ _ _ _ Pr). rewrite latest_accepted_time.
    destruct St as (props & _ & -> & _). reflexivity.
  - destruct (C61_external_lemma _ _ _ _ _ _ _ _ _ _ _ _ _ files now R I K Ep Nf) as (v & E & A & _ & _ & B & _).
    exists v. split; [exact E|]. split; [exact A|]. rewrite B. clear.
    induction (host_values name evs) as [|e h IH] using rev_ind; [reflexivity|].
    rewrite !latest_snoc. destruct e; reflexivity.
Qed.

Lemma bad_seen f sf pow10 sb config failures first devices zs evs s name info files now v :
  runs f sf pow10 sb config failures first devices zs evs s ->
  In (name, info) config -> known_type (sc_type info) ->
  bad_at sf pow10 sb failures first name info evs now ->
  pe_sensor (view_env s files now) name = Some v -> bad_reason (Some (now, v)) <> None.
Proof.
  intros R I K B E. unfold bad_reason.
  destruct B as [(Bp & B & H)|[(Ep & Nf & B)|(t & U & T0 & T1)]].
  - destruct (C61_lemma _ _ _ _ _ _ _ _ _ _ _ _ _ files now R I K Bp) as (v' & E' & _ & F).
    assert (v' = v) by congruence. subst v'. rewrite (proj2 F (conj B H)). discriminate.
  - destruct (C61_external_lemma _ _ _ _ _ _ _ _ _ _ _ _ _ files now R I K Ep Nf) as (v' & E' & _ & _ & _ & _ & F).
    assert (v' = v) by congruence. subst v'.
    rewrite (proj2 F); [discriminate|]. rewrite <- B. f_equal. clear.
    induction (host_values name evs) as [|e h IH] using rev_ind; [reflexivity|].
    rewrite !latest_snoc. destruct e; reflexivity.
  - destruct (C61_age_lemma _ _ _ _ _ _ _ _ _ _ _ _ _ files now _ R I K U) as (v' & E' & A1 & A2).
    assert (v' = v) by congruence. subst v'. destruct (sv_failed v); [discriminate|].
    unfold timed_out. rewrite A1, A2. destruct (Z.eqb_spec (sc_timeout info) 0); [contradiction|].
    destruct (Z.leb_spec (sc_timeout info) (Z.quot (now - t) 1000000000)); [discriminate|lia].
Qed.

(** ** Events of one zone *)
Fixpoint proj (f : flags) (sf : sflags) (pow10 : Z -> dbl) (i : nat) (evs : list sys_event) (s : system)
  : list loop_event :=
  match evs with
  | [] => []
  | e :: r =>
      (match e with
       | STick j w => if Nat.eqb j i then [LTick (tick_of s w)] else []
       | SManual j b => if Nat.eqb j i then [LManual b] else []
       | SEnable j p b => if Nat.eqb j i then [LEnable p b] else []
       | _ => []
       end ++ match sys_step f sf pow10 s e with Ok s' => proj f sf pow10 i r s' | _ => [] end)%list
  end.

Lemma step_loops f sf pow10 s e s' i l :
  sys_step f sf pow10 s e = Ok s' -> nth_error (sy_loops s) i = Some l ->
  exists l', nth_error (sy_loops s') i = Some l' /\ loop_run f (proj f sf pow10 i [e] s) l = Ok l'.
Proof.
  intros H E. assert (H0 := H). cbn [proj]. rewrite H0. rewrite app_nil_r.
  assert (Upd : forall j ev ls, update_nth j (fun l => loop_step f l ev) (sy_loops s) = Ok ls ->
    exists l', nth_error ls i = Some l' /\ loop_run f (if Nat.eqb j i then [ev] else []) l = Ok l').
  { intros j ev ls U. apply update_nth_spec in U. destruct U as (_ & A & B).
    destruct (Nat.eqb_spec j i) as [->|N].
    - destruct (B _ E) as (l' & El & Hl). exists l'. split; [exact El|].
      unfold loop_run. cbn [foldM]. rewrite Hl. reflexivity.
    - exists l. split; [|reflexivity]. rewrite <- (A i) in E by congruence. exact E. }
  destruct e as [path m|n' v t|m|c|j w|j b|j p b]; cbn [sys_step] in H.
  - apply bind_ok in H. destruct H as (x & _ & H). injection H as <-. exists l. auto.
  - injection H as <-. exists l. auto.
  - apply bind_ok in H. destruct H as (x & _ & H). injection H as <-. exists l. auto.
  - injection H as <-. exists l. auto.
  - apply tick_split in H. destruct H as [(N & ->)|(l0 & l' & ls & k' & E0 & Hl & E' & Oth & _ & ->)].
    + destruct (Nat.eqb_spec j i) as [->|_]; [congruence|]. exists l. auto.
    + destruct (Nat.eqb_spec j i) as [->|Ne].
      * assert (l0 = l) by congruence. subst l0. exists l'. split; [exact E'|].
        unfold loop_run. cbn [foldM]. rewrite Hl. reflexivity.
      * exists l. split; [|reflexivity]. rewrite Oth by congruence. exact E.
  - apply bind_ok in H. destruct H as (x & U & H). injection H as <-. apply Upd in U. exact U.
  - apply bind_ok in H. destruct H as (x & U & H). injection H as <-. apply Upd in U. exact U.
Qed.

Lemma proj_cons f sf pow10 i e r s s1 : sys_step f sf pow10 s e = Ok s1 ->
  proj f sf pow10 i (e :: r) s = (proj f sf pow10 i [e] s ++ proj f sf pow10 i r s1)%list.
Proof. intros H. cbn [proj]. rewrite H. rewrite app_nil_r. reflexivity. Qed.

Lemma run_loops f sf pow10 i evs : forall s s' l,
  sys_run f sf pow10 evs s = Ok s' -> nth_error (sy_loops s) i = Some l ->
  exists l', nth_error (sy_loops s') i = Some l' /\ loop_run f (proj f sf pow10 i evs s) l = Ok l'.
Proof.
  unfold sys_run. induction evs as [|e r IH]; intros s s' l H E; cbn [foldM] in H.
  - injection H as <-. exists l. auto.
  - apply bind_ok in H. destruct H as (s1 & H1 & H2).
    destruct (step_loops _ _ _ _ _ _ _ _ H1 E) as (l1 & E1 & R1).
    destruct (IH _ _ _ H2 E1) as (l2 & E2 & R2). exists l2. split; [exact E2|].
    rewrite (proj_cons _ _ _ _ _ _ _ _ H1), loop_run_app, R1. exact R2.
Qed.

Lemma proj_ticks f sf pow10 i evs : forall s s', sys_run f sf pow10 evs s = Ok s' ->
  ticks (proj f sf pow10 i evs s) = wakes i evs.
Proof.
  unfold sys_run. induction evs as [|e r IH]; intros s s' H; cbn [foldM] in H; [reflexivity|].
  apply bind_ok in H. destruct H as (s1 & H1 & H2). specialize (IH _ _ H2).
  rewrite (proj_cons _ _ _ _ _ _ _ _ H1). unfold ticks, wakes in *. rewrite filter_app, app_length, IH.
  cbn [filter proj]. rewrite H1, app_nil_r.
  destruct e as [path m|n' v t|m|c|j w|j b|j p b]; try reflexivity;
    destruct (Nat.eqb j i); reflexivity.
Qed.

Lemma proj_manual f sf pow10 i b evs : forall s s', sys_run f sf pow10 evs s = Ok s' ->
  In (LManual b) (proj f sf pow10 i evs s) -> In (SManual i b) evs.
Proof.
  unfold sys_run. induction evs as [|e r IH]; intros s s' H Hi; cbn [foldM] in H; [exact Hi|].
  apply bind_ok in H. destruct H as (s1 & H1 & H2).
  rewrite (proj_cons _ _ _ _ _ _ _ _ H1) in Hi. apply in_app_or in Hi.
  destruct Hi as [Hi|Hi]; [|right; eapply IH; eauto]. left.
  cbn [proj] in Hi. rewrite H1, app_nil_r in Hi.
  destruct e as [path m|n' v t|m|c|j w|j b'|j p b']; try contradiction;
    destruct (Nat.eqb_spec j i) as [->|]; cbn in Hi; try contradiction; destruct Hi as [Hi|[]]; try discriminate.
  injection Hi as ->. reflexivity.
Qed.

Lemma proj_tick_in f sf pow10 i t evs : forall s s', sys_run f sf pow10 evs s = Ok s' ->
  In (LTick t) (proj f sf pow10 i evs s) ->
  exists pre w post s1, evs = (pre ++ STick i w :: post)%list /\ sys_run f sf pow10 pre s = Ok s1 /\ t = tick_of s1 w.
Proof.
  unfold sys_run. induction evs as [|e r IH]; intros s s' H Hi; cbn [foldM] in H; [contradiction|].
  apply bind_ok in H. destruct H as (s1 & H1 & H2).
  rewrite (proj_cons _ _ _ _ _ _ _ _ H1) in Hi. apply in_app_or in Hi. destruct Hi as [Hi|Hi].
  - cbn [proj] in Hi. rewrite H1, app_nil_r in Hi.
    destruct e as [path m|n' v tt|m|c|j w|j b'|j p b']; try contradiction;
      destruct (Nat.eqb_spec j i) as [->|]; cbn in Hi; try contradiction; destruct Hi as [Hi|[]]; try discriminate.
    injection Hi as <-. exists [], w, r, s. auto.
  - destruct (IH _ _ H2 Hi) as (pre & w & post & s2 & -> & A & B).
    exists (e :: pre), w, post, s2. split; [reflexivity|]. split; [|exact B]. cbn [foldM]. rewrite H1. exact A.
Qed.

Lemma proj_mode f sf pow10 i evs : forall s s' m, sys_run f sf pow10 evs s = Ok s' ->
  manual_after m (proj f sf pow10 i evs s) =
  fold_left (fun m e => match e with SManual j b => if Nat.eqb j i then b else m | _ => m end) evs m.
Proof.
  assert (App : forall a b m, manual_after m (a ++ b)%list = manual_after (manual_after m a) b).
  { induction a as [|[e|x|p x] r IH]; intros b m; cbn; auto. }
  unfold sys_run. induction evs as [|e r IH]; intros s s' m H; cbn [foldM] in H; [reflexivity|].
  apply bind_ok in H. destruct H as (s1 & H1 & H2). cbn [fold_left].
  rewrite (proj_cons _ _ _ _ _ _ _ _ H1), App, (IH _ _ _ H2). f_equal.
  cbn [proj]. rewrite H1, app_nil_r.
  destruct e as [path x|n' v tt|x|c|j w|j b'|j p b']; try reflexivity; destruct (Nat.eqb j i); reflexivity.
Qed.

Lemma runs_zone f sf pow10 sb config failures first devices zs evs s i st z0 :
  runs f sf pow10 sb config failures first devices zs evs s -> nth_error zs i = Some (st, z0) ->
  exists l, nth_error (sy_loops s) i = Some l /\ reachable f z0 l /\
    z_manualMode (l_zone l) = is_manual i evs.
Proof.
  intros [Nd Fr (m & s0 & B & St & R)] E.
  apply start_rest in St. cbn [sy_sensors sy_failures sy_power sy_devices sy_loops app] in St.
  destruct St as (_ & _ & _ & _ & ls & El & F2).
  assert (Hl : exists l0, nth_error ls i = Some l0 /\
            exists env, loop_start f env (st_tune st) (st_timer st) z0 = Ok l0).
  { clear - F2 E. revert i E. induction F2 as [|e l zs ls H F IH]; intros [|i] E; cbn in *; try discriminate.
    - injection E as ->. exists l. auto.
    - apply IH. exact E. }
  destruct Hl as (l0 & E0 & env & S0). rewrite <- El in E0.
  destruct (run_loops _ _ _ _ _ _ _ _ R E0) as (l & E1 & R1). exists l. split; [exact E1|].
  assert (Fz : fresh z0).
  { rewrite Forall_forall in Fr. apply nth_error_In in E. apply (Fr _ E). }
  split.
  - exists env, (st_tune st), (st_timer st), l0, (proj f sf pow10 i evs s0). auto.
  - assert (M0 := loop_run_mode _ _ _ _ _ _ R1 (start_mode _ _ _ _ _ _ Fz S0)).
    apply (f_equal fst) in M0. cbn in M0. rewrite M0.
    rewrite (proj_mode _ _ _ _ _ _ _ _ R). reflexivity.
Qed.

(** ** Fan devices *)
Definition wpath (x : sensor) : option string :=
  match x with
  | Pluggable _ _ (WDbus p _) _ => Some p
  | Pluggable _ _ (WSysfs p _ _ _) _ => Some p
  | _ => None
  end.
Lemma wpath_core x : wpath (core x) = wpath x.
Proof. destruct x as [t r [p d|p a b c|] i|t i h]; reflexivity. Qed.

(** The sensors as far as writing is concerned. *)
Definition wcoref (s : system) (n : string) : option writer :=
  match mget n (sy_sensors s) with
  | Some (Pluggable _ _ w _) => Some (wcore w)
  | _ => None
  end.
Lemma wcoref_cores s n : wcoref s n = match cores s n with Some (Pluggable _ _ w _) => Some w | _ => None end.
Proof. unfold wcoref, cores. destruct (mget n (sy_sensors s)) as [[t r w i|t i h]|]; reflexivity. Qed.

Lemma core_after_writer sf pow10 n x e x' : core_after sf pow10 n x e = Ok x' ->
  match x, x' with
  | Pluggable _ _ w _, Pluggable _ _ w' _ => w' = w
  | Host _ _ _, Host _ _ _ => True
  | _, _ => False
  end.
Proof.
  assert (Same : Ok x = Ok x' -> match x, x' with
    | Pluggable _ _ w _, Pluggable _ _ w' _ => w' = w
    | Host _ _ _, Host _ _ _ => True
    | _, _ => False
    end) by (intros H; injection H as <-; destruct x; auto).
  destruct e as [path m|n' v t|m|c|j w|j b|j p b]; cbn [core_after]; try exact Same.
  - unfold sensor_signal. destruct x as [t [p red|q| |] w i|t i h]; try exact Same.
    destruct (String.eqb (p_path p) path); [|exact Same].
    intros H. apply bind_ok in H. destruct H as (p' & _ & H). injection H as <-. reflexivity.
  - destruct (String.eqb n n'); [|exact Same]. destruct x as [t0 r w i|t0 i h]; [exact Same|].
    intros H. injection H as <-. exact I.
Qed.

Lemma step_wcoref f sf pow10 s e s' n : sys_step f sf pow10 s e = Ok s' -> wcoref s' n = wcoref s n.
Proof.
  intros H. apply (step_core _ _ _ _ _ _ n) in H. unfold wcoref.
  destruct (mget n (sy_sensors s)) as [x|]; [|rewrite H; reflexivity].
  destruct H as (x' & -> & K). apply core_after_writer in K.
  destruct x as [t r w i|t i h], x' as [t' r' w' i'|t' i' h']; cbn in K; try contradiction; congruence.
Qed.
Lemma run_wcoref f sf pow10 evs n : forall s s', sys_run f sf pow10 evs s = Ok s' -> wcoref s' n = wcoref s n.
Proof.
  unfold sys_run. induction evs as [|e r IH]; intros s s' H; cbn [foldM] in H; [congruence|].
  apply bind_ok in H. destruct H as (s1 & H1 & H2). rewrite (IH _ _ H2). eapply step_wcoref; eauto.
Qed.

Definition out_path (w : writer) : option string :=
  match w with WDbus p _ => Some p | WSysfs p _ _ _ => Some p | WReadOnlyNoExcept => None end.

(** Nobody but [name] writes to [path]. *)
Definition owner (s : system) (name path : string) : Prop :=
  forall n w, wcoref s n = Some w -> out_path w = Some path -> n = name.
(** The writer remembers what the device holds. *)
Definition synced (s : system) (name path : string) : Prop :=
  forall t r d i, mget name (sy_sensors s) = Some (Pluggable t r (WDbus path d) i) ->
    dw_oldValue d = -1 \/ mget path (sy_devices s) = Some (dw_oldValue d).

Lemma to_uint64_nonneg x r u : to_int64 x = Some r -> to_uint64 x = Some u -> r = u /\ 0 <= r.
Proof.
  unfold to_int64, to_uint64, dtrunc. destruct (is_finite x); [|discriminate].
  destruct (_ && _); [|discriminate]. destruct ((0 <=? Btrunc x) && _) eqn:E; [|discriminate].
  intros H1 H2. injection H1 as <-. injection H2 as <-. apply andb_true_iff in E. lia.
Qed.

Lemma dbus_write_cases v force w r : dbus_write v force true w = Ok r ->
  (exists raw, to_int64 (dw_target w v) = Some raw) /\
  ((fst r = w /\ sent w (fst r) = None /\ to_int64 (dw_target w v) = Some (dw_oldValue w)) \/
   (exists raw, to_int64 (dw_target w v) = Some raw /\ 0 <= raw /\ dw_oldValue (fst r) = raw /\
      sent w (fst r) = Some raw)).
Proof.
  unfold dbus_write. cbv zeta. destruct (to_int64 (dw_target w v)) as [raw|] eqn:T; [|discriminate].
  intros H. split; [eauto|].
  destruct ((dw_oldValue w =? raw) && negb force) eqn:E.
  - injection H as <-. left. cbn [fst]. apply andb_true_iff in E. destruct E as (E & _). apply Z.eqb_eq in E.
    split; [reflexivity|]. split; [|congruence]. unfold sent. rewrite Nat.ltb_irrefl. reflexivity.
  - destruct (to_uint64 (dw_target w v)) as [u|] eqn:U; [|discriminate]. injection H as <-. right.
    destruct (to_uint64_nonneg _ _ _ T U) as (<- & P). exists raw. cbn [fst dw_oldValue dw_calls].
    repeat split; auto. unfold sent. cbn [dw_calls List.length].
    destruct (Nat.ltb_spec (List.length (dw_calls w)) (S (List.length (dw_calls w)))); [reflexivity|lia].
Qed.

(** The raw value a writer computes. *)
Definition wraw (w : writer) (v : dbl) : option Z :=
  match w with
  | WDbus _ d => to_int64 (dw_target d v)
  | WSysfs _ percent min max => to_int64 (if percent then percent_ovalue min max v else v)
  | WReadOnlyNoExcept => None
  end.
Lemma wraw_core w v : wraw (wcore w) v = wraw w v.
Proof. destruct w; reflexivity. Qed.

Lemma apply_write_device ok k s n v force k' s' name path w :
  apply_write ok (k, s) (n, v, force) = Ok (k', s') -> ok k = true ->
  wcoref s name = Some w -> out_path w = Some path -> owner s name path -> synced s name path ->
  synced s' name path /\
  (n <> name -> mget path (sy_devices s') = mget path (sy_devices s)) /\
  (n = name -> exists raw, wraw w v = Some raw /\ (0 <= raw -> mget path (sy_devices s') = Some raw)).
Proof.
  intros H Ok1 W Op Ow Sy. assert (Cx := apply_write_rest _ _ _ _ _ _ H). destruct Cx as (Cx & _).
  unfold apply_write in H. destruct (string_dec n name) as [->|Nn].
  - unfold wcoref in W. destruct (mget name (sy_sensors s)) as [[t r ww i|t i h]|] eqn:E; try discriminate.
    injection W as W. destruct ww as [p d|p pc mn mx|]; cbn in W; subst w; cbn in Op; [| |discriminate];
      injection Op as ->; apply bind_ok in H; destruct H as (rw & H1 & H); injection H as <- <-.
    + rewrite Ok1 in H1. assert (Co := dbus_write_core _ _ _ _ _ H1). apply dbus_write_cases in H1.
      destruct H1 as ((raw0 & T0) & H1). cbn [wraw].
      change (to_int64 (dw_target (dbus_writer_new (dw_percent d) (dw_min d) (dw_max d)) v)) with
        (to_int64 (dw_target d v)).
      destruct H1 as [(F & Sn & T)|(raw & T & P & O & Sn)]; rewrite Sn.
      * split; [|split; [congruence|]].
        -- intros t1 r1 d1 i1. cbn [sy_sensors sy_devices set_sensors]. rewrite mget_mset, String.eqb_refl.
           intros X. injection X as _ _ <- _. rewrite F. eapply Sy. exact E.
        -- intros _. exists (dw_oldValue d). split; [exact T|]. intros P. cbn [sy_devices set_sensors].
           destruct (Sy _ _ _ _ E); [lia|assumption].
      * split; [|split; [congruence|]].
        -- intros t1 r1 d1 i1. cbn [sy_sensors sy_devices set_sensors set_devices]. rewrite mget_mset, String.eqb_refl.
           intros X. injection X as _ _ <- _. right. rewrite mget_mset, String.eqb_refl. congruence.
        -- intros _. exists raw. split; [exact T|]. intros _. cbn [sy_devices set_devices].
           rewrite mget_mset, String.eqb_refl. reflexivity.
    + cbn [wraw]. unfold sysfs_write in H1. rewrite Ok1 in H1.
      destruct (to_int64 (if pc then percent_ovalue mn mx v else v)) as [raw|] eqn:T; [|discriminate].
      injection H1 as <-. split; [|split; [congruence|]].
      * intros t1 r1 d1 i1. cbn [sy_sensors set_devices]. congruence.
      * intros _. exists raw. split; [reflexivity|]. intros _. cbn [sy_devices set_devices].
        rewrite mget_mset, String.eqb_refl. reflexivity.
  - assert (Oth : forall w', wcoref s n = Some w' -> out_path w' <> Some path).
    { intros w' A B. apply Nn. eapply Ow; eauto. }
    assert (G : mget path (sy_devices s') = mget path (sy_devices s) /\
                mget name (sy_sensors s') = mget name (sy_sensors s)).
    { unfold wcoref in Oth. destruct (mget n (sy_sensors s)) as [[t r [p d|p pc mn mx|] i|t i h]|] eqn:E;
        try (injection H as <- <-; auto); specialize (Oth _ eq_refl); cbn in Oth;
        apply bind_ok in H; destruct H as (rw & H1 & H); injection H as <- <-.
      - destruct (sent d (fst rw)); cbn [sy_sensors sy_devices set_sensors set_devices];
          rewrite ?mget_mset; destruct (String.eqb_spec name n); try congruence; split; try reflexivity.
        destruct (String.eqb_spec path p); congruence.
      - destruct rw; cbn [sy_sensors sy_devices set_sensors set_devices]; auto.
        rewrite mget_mset. destruct (String.eqb_spec path p); [congruence|auto]. }
    destruct G as (G1 & G2). split; [|split; [auto|congruence]].
    intros t1 r1 d1 i1. rewrite G2, G1. apply Sy.
Qed.

Lemma owner_same s s' name path : (forall n, wcoref s' n = wcoref s n) -> owner s name path -> owner s' name path.
Proof. intros E O n w. rewrite E. apply O. Qed.
Lemma cores_wcoref s s' : (forall n, cores s' n = cores s n) -> forall n, wcoref s' n = wcoref s n.
Proof. intros E n. rewrite !wcoref_cores, E. reflexivity. Qed.

Lemma writes_device ok name path w ws : forall k s ks',
  foldM (apply_write ok) ws (k, s) = Ok ks' -> (forall k, ok k = true) ->
  wcoref s name = Some w -> out_path w = Some path -> owner s name path -> synced s name path ->
  synced (snd ks') name path /\
  (last_request name ws = None -> mget path (sy_devices (snd ks')) = mget path (sy_devices s)) /\
  (forall v, last_request name ws = Some v ->
     exists raw, wraw w v = Some raw /\ (0 <= raw -> mget path (sy_devices (snd ks')) = Some raw)).
Proof.
  induction ws as [|[[n v] force] ws IH] using rev_ind; intros k s ks' H Hok W Op Ow Sy.
  - injection H as <-. split; [exact Sy|]. split; [reflexivity|discriminate].
  - rewrite foldM_app in H. apply bind_ok in H. destruct H as ([k1 s1] & H1 & H2).
    assert (Rs := writes_rest _ _ _ _ _ H1). destruct Rs as (Rs & _). cbn [snd] in Rs.
    destruct (IH _ _ _ H1 Hok W Op Ow Sy) as (Sy1 & A1 & A2). cbn [snd] in Sy1, A1, A2.
    cbn [foldM] in H2. apply bind_ok in H2. destruct H2 as ([k2 s2] & H2 & E2). injection E2 as <-. cbn [snd].
    assert (W1 : wcoref s1 name = Some w) by (rewrite (cores_wcoref _ _ Rs); exact W).
    assert (Ow1 : owner s1 name path) by (eapply owner_same; [apply cores_wcoref; exact Rs|exact Ow]).
    destruct (apply_write_device _ _ _ _ _ _ _ _ _ _ _ H2 (Hok k1) W1 Op Ow1 Sy1) as (S2 & B1 & B2).
    split; [exact S2|]. unfold last_request in *. rewrite fold_left_app. cbn [fold_left fst snd].
    destruct (String.eqb_spec name n) as [->|N].
    + split; [discriminate|]. intros u X. injection X as <-. apply B2. reflexivity.
    + rewrite B1 by congruence. split; assumption.
Qed.

(** ** C64 *)
Lemma new_writes_eq z z' evs : new_events z z' evs -> new_writes z z' = writes_in evs.
Proof.
  unfold new_events, new_writes, writes_in. intros ->. rewrite app_length.
  replace (List.length evs + List.length (z_trace z) - List.length (z_trace z))%nat with (List.length evs) by lia.
  rewrite firstn_app, Nat.sub_diag, firstn_O, app_nil_r, firstn_all. reflexivity.
Qed.

Definition wex (s : system) (n : string) : option writer :=
  match mget n (sy_sensors s) with Some (Pluggable _ _ w _) => Some w | _ => None end.
Definition is_stick (e : sys_event) : Prop := match e with STick _ _ => True | _ => False end.

Lemma step_quiet f sf pow10 s e s' : sys_step f sf pow10 s e = Ok s' -> ~ is_stick e ->
  sy_devices s' = sy_devices s /\ forall n, wex s' n = wex s n.
Proof.
  intros H Nt. destruct e as [path m|n' v t|m|c|i w|i b|i p b]; cbn [sys_step] in H;
    try (exfalso; apply Nt; exact I).
  - apply bind_ok in H. destruct H as (l & H1 & H). injection H as <-. split; [reflexivity|]. intros n.
    apply (signal_all_get _ _ _ _ n) in H1. unfold wex. cbn [sy_sensors set_sensors].
    destruct (mget n (sy_sensors s)) as [x|]; [|rewrite H1; reflexivity].
    destruct H1 as (x' & -> & K). unfold sensor_signal in K.
    destruct x as [t [q red|q| |] w i|t i h]; try (injection K as <-; reflexivity).
    destruct (String.eqb (p_path q) path); [|injection K as <-; reflexivity].
    apply bind_ok in K. destruct K as (q' & _ & K). injection K as <-. reflexivity.
  - injection H as <-. split; [reflexivity|]. intros n. unfold wex. cbn [sy_sensors set_sensors].
    unfold host_write. destruct (mget n' (sy_sensors s)) as [[t0 r w i|t0 i h]|] eqn:E; try reflexivity.
    rewrite mget_mset. destruct (String.eqb_spec n n') as [->|_]; [rewrite E; reflexivity|reflexivity].
  - apply bind_ok in H. destruct H as (l & H1 & H). injection H as <-. auto.
  - injection H as <-. auto.
  - apply bind_ok in H. destruct H as (l & H1 & H). injection H as <-. auto.
  - apply bind_ok in H. destruct H as (l & H1 & H). injection H as <-. auto.
Qed.

Lemma synced_wex s name path : synced s name path <->
  (forall d, wex s name = Some (WDbus path d) -> dw_oldValue d = -1 \/ mget path (sy_devices s) = Some (dw_oldValue d)).
Proof.
  unfold synced, wex. split.
  - intros H d. destruct (mget name (sy_sensors s)) as [[t r w i|t i h]|]; try discriminate.
    intros E. injection E as ->. eapply H. reflexivity.
  - intros H t r d i E. rewrite E in H. apply H. reflexivity.
Qed.

Lemma step_synced f sf pow10 s e s' name path w :
  sys_step f sf pow10 s e = Ok s' -> (forall i wk, e = STick i wk -> forall k, wk_write_ok wk k = true) ->
  wcoref s name = Some w -> out_path w = Some path -> owner s name path ->
  synced s name path -> synced s' name path.
Proof.
  intros H Hok W Op Ow Sy.
  assert (D : is_stick e \/ ~ is_stick e) by (destruct e; cbn; auto).
  destruct D as [T|T].
  - destruct e as [path0 m|n' v t|m|c|i wk|i b|i p b]; try contradiction. cbn [sys_step] in H.
    apply tick_split in H. destruct H as [(_ & ->)|(l & l' & ls & k' & _ & _ & _ & _ & H & _)]; [exact Sy|].
    apply (writes_device _ name path w) in H; auto; try (eapply Hok; reflexivity).
    destruct H as (H & _). exact H.
  - destruct (step_quiet _ _ _ _ _ _ H T) as (D & Wx). apply synced_wex. rewrite Wx, D. apply synced_wex. exact Sy.
Qed.

Lemma run_synced f sf pow10 name path w evs : forall s s',
  sys_run f sf pow10 evs s = Ok s' -> all_writes_ok evs ->
  wcoref s name = Some w -> out_path w = Some path -> owner s name path ->
  synced s name path -> synced s' name path.
Proof.
  unfold sys_run. induction evs as [|e r IH]; intros s s' H Hok W Op Ow Sy; cbn [foldM] in H.
  - injection H as <-. exact Sy.
  - apply bind_ok in H. destruct H as (s1 & H1 & H2).
    assert (E : forall n, wcoref s1 n = wcoref s n) by (intros n; eapply step_wcoref; exact H1).
    eapply IH; [exact H2| | |exact Op| |].
    + intros i wk Hi. eapply Hok. right. exact Hi.
    + rewrite E. exact W.
    + eapply owner_same; [exact E|exact Ow].
    + eapply step_synced; eauto. intros i wk -> . eapply Hok. left. reflexivity.
Qed.

Lemma bus_not_sysfs_out p : bus_out p -> ~ sysfs_out p.
Proof. unfold bus_out. tauto. Qed.

Lemma runs_writer f sf pow10 sb config failures first devices zs evs s name info path :
  runs f sf pow10 sb config failures first devices zs evs s ->
  In (name, info) config -> sc_type info = "fan" ->
  drives sb info path ->
  own_device sb config name path -> all_writes_ok evs ->
  exists w, wcoref s name = Some w /\ out_path w = Some path /\
    (forall v, wraw w v = raw_for info v) /\
    owner s name path /\ synced s name path.
Proof.
  intros [Nd Fr (m & s0 & B & St & R)] I Ty Po Od Hok.
  destruct (C60_lemma _ _ _ _ _ B Nd) as (A1 & A2).
  assert (K : known_type (sc_type info)) by (left; exact Ty).
  destruct (A1 _ _ I K) as (x0 & E0 & S0).
  apply start_rest in St. cbn in St. destruct St as (E1 & _).
  assert (Wf : forall n, wcoref s n = match mget n m with Some (Pluggable _ _ w _) => Some (wcore w) | _ => None end).
  { intros n. rewrite (run_wcoref _ _ _ _ n _ _ R). unfold wcoref. rewrite E1. reflexivity. }
  assert (OwA : owner s name path).
  { intros n w. rewrite Wf. destruct (mget n m) as [[t r w0 i|t i h]|] eqn:E; try discriminate.
    intros X Y. injection X as <-. destruct (A2 _ _ E) as (info' & I' & S').
    destruct S' as (_ & _ & _ & _ & _ & Wr).
    destruct w0 as [p d|p a b c|]; cbn in Y, Wr; [| |discriminate]; injection Y as ->;
      (eapply Od; [exact I'|apply Wr|]); [left|right]; tauto. }
  destruct S0 as (_ & S0). destruct x0 as [t r w0 i|t i h]; [|destruct S0 as (S0 & _); contradiction].
  destruct S0 as (_ & _ & _ & _ & Wr).
  assert (P0 : forall v, percent_ovalue (sc_min info) (sc_max info) v =
                 dadd (dmul (dsub (D (sc_max info)) (D (sc_min info))) v) (D (sc_min info))) by reflexivity.
  exists (wcore w0). split; [rewrite Wf, E0; reflexivity|].
  assert (Facts : out_path (wcore w0) = Some path /\
            (forall v, wraw (wcore w0) v = raw_for info v) /\
            (forall d, w0 = WDbus path d -> dw_oldValue d = -1)).
  { destruct w0 as [p d|p a b c|]; cbn in Wr.
    - destruct Wr as (_ & Wo & -> & _ & W1 & W2 & W3 & W4 & _).
      assert (sc_writePath info = path) as ->
        by (destruct Po as [(_ & Po)|(Po & _)]; [congruence|exfalso; now apply (bus_not_sysfs_out _ Wo)]).
      split; [reflexivity|]. split.
      + intros v. rewrite wraw_core. cbn [wraw]. unfold dw_target, raw_for. rewrite W2, W3, P0.
        destruct (Z.ltb_spec 0 (sc_max info)), (dw_percent d); try reflexivity; intuition (congruence || lia).
      + intros d' X. injection X as <-. exact W4.
    - destruct Wr as (_ & Wo & Rs & W1 & -> & ->).
      assert (p = path) as ->
        by (destruct Po as [(Po & _)|(_ & Po)]; [exfalso; now apply (bus_not_sysfs_out _ Po)|
            eapply resolves_unique; eassumption]).
      split; [reflexivity|]. split.
      + intros v. cbn [wcore wraw]. unfold raw_for. rewrite P0.
        destruct (Z.ltb_spec 0 (sc_max info)), a; try reflexivity; intuition (congruence || lia).
      + discriminate.
    - exfalso. unfold drives in Po. tauto. }
  destruct Facts as (F1 & F2 & F3). split; [exact F1|]. split; [exact F2|]. split; [exact OwA|].
  assert (W0 : wcoref s0 name = Some (wcore w0)) by (unfold wcoref; rewrite E1, E0; reflexivity).
  eapply run_synced; [exact R|exact Hok|exact W0|exact F1| |].
  - intros n w. rewrite <- (run_wcoref _ _ _ _ n _ _ R). apply OwA.
  - apply synced_wex. intros d X. unfold wex in X. rewrite E1, E0 in X. injection X as X. left. apply F3. exact X.
Qed.

Lemma C64_lemma f sf pow10 sb config failures first devices zs evs s name info path i w s' l l' new :
  runs f sf pow10 sb config failures first devices zs evs s ->
  In (name, info) config -> sc_type info = "fan" ->
  drives sb info path ->
  own_device sb config name path -> all_writes_ok (evs ++ [STick i w]) ->
  sys_step f sf pow10 s (STick i w) = Ok s' ->
  nth_error (sy_loops s) i = Some l -> nth_error (sy_loops s') i = Some l' ->
  new_events (l_zone l) (l_zone l') new ->
  (last_request name (writes_in new) = None ->
   mget path (sy_devices s') = mget path (sy_devices s)) /\
  (forall v, last_request name (writes_in new) = Some v ->
     exists raw, raw_for info v = Some raw /\
       (0 <= raw -> mget path (sy_devices s') = Some raw)).
Proof.
  intros R I Ty Po Od Hok H El El' Nw.
  destruct (runs_writer _ _ _ _ _ _ _ _ _ _ _ _ _ _ R I Ty Po Od) as (wr & W & Op & Raw & Ow & Sy).
  { intros j wk Hj. eapply Hok. apply in_or_app. left. exact Hj. }
  cbn [sys_step] in H. apply tick_split in H.
  destruct H as [(N & _)|(l0 & l1 & ls & k' & E0 & Hl & E1 & _ & H & Es)]; [congruence|].
  assert (l0 = l) by congruence. subst l0. rewrite Es in El'. assert (l1 = l') by congruence. subst l1.
  rewrite (new_writes_eq _ _ _ Nw) in H.
  apply (writes_device _ name path wr) in H; auto.
  2: { intros k. eapply Hok. apply in_or_app. right. left. reflexivity. }
  cbn [snd] in H. destruct H as (_ & A & B). split; [exact A|]. intros v E. rewrite <- Raw. apply B. exact E.
Qed.

(** ** C62 *)
Lemma to_int64_spec x r : to_int64 x = Some r -> dfinite x /\ r = Ztrunc (Rx x).
Proof.
  unfold to_int64, dtrunc. destruct (is_finite x) eqn:F; [|discriminate]. rewrite (Btrunc_Rx x F).
  destruct (_ && _); [|discriminate]. intros H. injection H as <-. auto.
Qed.
Lemma to_int64_mono x y r r' : to_int64 x = Some r -> to_int64 y = Some r' -> dle x y -> r <= r'.
Proof.
  intros X Y L. apply to_int64_spec in X. apply to_int64_spec in Y. destruct X as (_ & ->), Y as (_ & ->).
  apply dle_iff in L. apply Ztrunc_le. apply L.
Qed.

Lemma raw_for_mono info v v' r r' :
  (0 < sc_max info -> usable_range (sc_min info) (sc_max info)) -> dle v v' ->
  raw_for info v = Some r -> raw_for info v' = Some r' -> r <= r'.
Proof.
  unfold raw_for. intros U L X Y. destruct (Z.ltb_spec 0 (sc_max info)) as [P|_]; [|eapply to_int64_mono; eauto].
  destruct (U P) as (U1 & U2 & U3). eapply to_int64_mono; [exact X|exact Y|].
  destruct (D_exact (sc_min info)) as [F1 E1]; [lia|]. destruct (D_exact (sc_max info)) as [F2 E2]; [lia|].
  assert (R0 : dle d0 (dsub (D (sc_max info)) (D (sc_min info)))).
  { destruct (dsub_Rx _ _ F2 F1) as (N & E). apply dle_iff. split; [reflexivity|]. split; [exact N|].
    rewrite E, Rx_d0, E1, E2. rewrite <- clip_RN_0. apply clip_mono, RN_mono.
    rewrite <- minus_IZR. apply IZR_le. lia. }
  apply to_int64_spec in X. apply to_int64_spec in Y. destruct X as (FX & _), Y as (FY & _).
  assert (NX := finite_notnan _ FX). assert (NY := finite_notnan _ FY).
  destruct (notnan_dadd_inv _ _ NX) as (NX1 & _). destruct (notnan_dadd_inv _ _ NY) as (NY1 & _).
  apply dadd_mono; [|apply dle_refl; apply finite_notnan; exact F1|exact NX|exact NY].
  apply dmul_mono_l; assumption.
Qed.

Lemma raw_for_notnan info v r : raw_for info v = Some r -> notnan v.
Proof.
  unfold raw_for. intros H. apply to_int64_spec in H. destruct H as (F & _). apply finite_notnan in F.
  destruct (0 <? sc_max info); [|exact F]. apply notnan_dadd_inv in F. destruct F as (F & _).
  apply notnan_dmul_inv in F. apply F.
Qed.

Lemma last_request_In name ws b v : In (name, v, b) ws -> exists u c, last_request name ws = Some u /\ In (name, u, c) ws.
Proof.
  unfold last_request. induction ws as [|[[n x] c] r IH] using rev_ind; intros I; [contradiction|].
  rewrite fold_left_app. cbn [fold_left fst snd]. destruct (String.eqb_spec name n) as [->|N].
  - exists x, c. split; [reflexivity|]. apply in_or_app. right. left. reflexivity.
  - apply in_app_or in I. destruct I as [I|[I|[]]]; [|congruence].
    destruct (IH I) as (u & d & A & B). exists u, d. split; [exact A|]. apply in_or_app. left. exact B.
Qed.

Lemma runs_more f sf pow10 sb config failures first devices zs evs s mid s1 :
  runs f sf pow10 sb config failures first devices zs evs s -> sys_run f sf pow10 mid s = Ok s1 ->
  runs f sf pow10 sb config failures first devices zs (evs ++ mid) s1.
Proof.
  intros [Nd Fr (m & s0 & B & St & R)] M. constructor; auto. exists m, s0. split; [exact B|]. split; [exact St|].
  unfold sys_run in *. rewrite foldM_app, R. exact M.
Qed.

Lemma reachable_inputs f z0 l : reachable f z0 l ->
  map fan_inputs (fan_ctls (l_zone l)) = map fan_inputs (fan_ctls z0).
Proof.
  intros R. destruct (reachable_sig _ _ _ R) as (S & _). unfold sig in S. injection S as _ S.
  unfold fan_ctls. revert S. generalize (z_fans (l_zone l)) (z_fans z0).
  induction l0 as [|[c|] r IH]; intros [|[c'|] r'] S; cbn in S |- *; try discriminate; auto.
  - injection S as _ S1 S2. rewrite S1. f_equal. apply IH. exact S2.
  - injection S as S. apply IH. exact S.
Qed.

Lemma tick_new_events f l e l' : loop_step f l (LTick e) = Ok l' -> z_manualMode (l_zone l) = false ->
  exists evs, new_events (l_zone l) (l_zone l') evs.
Proof.
  intros H A. destruct (tick_step _ _ _ _ H A) as (z1 & z2 & evs & _ & T). exists evs. apply (tf_trace _ _ _ _ _ _ T).
Qed.

Lemma C62_lemma f sf pow10 sb config failures first devices zs evs s mid s1 i w s2 st z0 name info fan finfo path c r :
  runs f sf pow10 sb config failures first devices zs evs s ->
  sys_run f sf pow10 mid s = Ok s1 -> sys_step f sf pow10 s1 (STick i w) = Ok s2 ->
  nth_error zs i = Some (st, z0) -> is_manual i evs = false -> ~ In (SManual i true) mid ->
  (1 <= z_cycleIntervalTimeMS z0 <= z_updateThermalsTimeMS z0)%Z ->
  (z_updateThermalsTimeMS z0 + z_cycleIntervalTimeMS z0 < uint64_mod)%Z ->
  (z_updateThermalsTimeMS z0 <= Z.of_nat (wakes i mid) * z_cycleIntervalTimeMS z0)%Z ->
  tuningEnabled f = false -> percents_ok z0 ->
  In (name, info) config -> known_type (sc_type info) -> is_input z0 name -> ~ acceptable z0 name ->
  (forall pre w' post, (mid ++ [STick i w])%list = (pre ++ STick i w' :: post)%list ->
     bad_at sf pow10 sb failures first name info (evs ++ pre) (wk_fan_now w') /\
     bad_at sf pow10 sb failures first name info (evs ++ pre) (wk_therm_now w')) ->
  In (fan, finfo) config -> sc_type finfo = "fan" -> In c (fan_ctls z0) -> In fan (fan_inputs c) ->
  drives sb finfo path -> own_device sb config fan path ->
  (0 < sc_max finfo -> usable_range (sc_min finfo) (sc_max finfo)) ->
  all_writes_ok (evs ++ mid ++ [STick i w]) ->
  raw_for finfo (ddiv (own_percent z0 name) (D 100)) = Some r -> 0 <= r ->
  exists d, mget path (sy_devices s2) = Some d /\ r <= d.
Proof.
  intros R M H Ez Am Nm T1 T2 T3 Tn Pc In1 Kt Ip Ac Bad In2 Ft Ic If Po Od Us Hok Rf Rp.
  destruct (runs_zone _ _ _ _ _ _ _ _ _ _ _ _ _ _ R Ez) as (l & El & Rl & Ml). rewrite Am in Ml.
  destruct (run_loops _ _ _ _ _ _ _ _ M El) as (l1 & El1 & Rl1).
  assert (H' := H). cbn [sys_step] in H'. apply tick_split in H'.
  destruct H' as [(N & _)|(l0 & l2 & ls & k' & E0 & Hl & E1 & _ & _ & Es)]; [congruence|].
  assert (l0 = l1) by congruence. subst l0. rewrite <- Es in E1.
  assert (R1 := runs_more _ _ _ _ _ _ _ _ _ _ _ _ _ R M).
  assert (Rr1 : reachable f z0 l1).
  { destruct Rl as (env & te & now & l00 & es & F & S0 & S1). exists env, te, now, l00, (es ++ proj f sf pow10 i mid s)%list.
    split; [exact F|]. split; [exact S0|]. rewrite loop_run_app, S1. exact Rl1. }
  assert (Nm' : ~ In (LManual true) (proj f sf pow10 i mid s)).
  { intros X. apply Nm. eapply proj_manual; eauto. }
  assert (Ml1 : z_manualMode (l_zone l1) = false).
  { assert (K := loop_run_mode _ _ _ _ _ _ Rl1 eq_refl). apply (f_equal fst) in K. cbn in K. rewrite K, Ml.
    clear - Nm'. induction (proj f sf pow10 i mid s) as [|[e|[]|p b] q IH]; cbn in *; auto.
    exfalso. apply Nm'. auto. }
  destruct (tick_new_events _ _ _ _ Hl Ml1) as (new & Nw).
  assert (Sb : forall t, In (LTick t) (proj f sf pow10 i mid s ++ [LTick (tick_of s1 w)])%list -> shows_bad t name).
  { assert (One : forall pre w' post sp, (mid ++ [STick i w])%list = (pre ++ STick i w' :: post)%list ->
      sys_run f sf pow10 pre s = Ok sp -> shows_bad (tick_of sp w') name).
    { intros pre w' post sp E Rp'. destruct (Bad _ _ _ E) as (B1 & B2).
      assert (Rpre := runs_more _ _ _ _ _ _ _ _ _ _ _ _ _ R Rp'). unfold shows_bad, tick_of. cbn [tk_fan tk_therm].
      split; intros v Hv; eapply bad_seen; try exact Hv; eauto. }
    intros t Ht. apply in_app_or in Ht. destruct Ht as [Ht|[Ht|[]]].
    - destruct (proj_tick_in _ _ _ _ _ _ _ _ M Ht) as (pre & w' & post & sp & -> & Rp' & ->).
      apply (One pre w' (post ++ [STick i w])%list sp); [|exact Rp']. rewrite <- app_assoc. reflexivity.
    - injection Ht as <-. apply (One mid w [] s1); [reflexivity|exact M]. }
  assert (Wr : exists v b, In (fan, v, b) (writes_in new)).
  { destruct (C22_tick_lemma _ _ _ _ _ Hl Ml1 Nw) as (value & Ew).
    assert (Rc := reachable_inputs _ _ _ Rr1).
    assert (Ic' : In (fan_inputs c) (map fan_inputs (fan_ctls (l_zone l1)))) by (rewrite Rc; apply in_map; exact Ic).
    apply in_map_iff in Ic'. destruct Ic' as (c' & Ec & Ic').
    exists (value c'), (z_redundantWrite (l_zone l1)). rewrite Ew. apply in_flat_map. exists c'. split; [exact Ic'|].
    apply in_map_iff. exists fan. rewrite Ec. auto. }
  destruct Wr as (v0 & b0 & Iw0). destruct (last_request_In _ _ _ _ Iw0) as (v & b & Lr & Iw).
  assert (Hok' : all_writes_ok ((evs ++ mid) ++ [STick i w])) by (rewrite <- app_assoc; exact Hok).
  destruct (C64_lemma _ _ _ _ _ _ _ _ _ _ _ _ _ _ _ _ _ _ _ _ R1 In2 Ft Po Od Hok' H El1 E1 Nw) as (_ & Dv).
  destruct (Dv _ Lr) as (raw & Er & Ed).
  assert (Le : r <= raw).
  { eapply raw_for_mono; [exact Us| |exact Rf|exact Er].
    eapply (C51_lemma f z0 l (proj f sf pow10 i mid s) (tick_of s1 w) l1 l2 name new fan v b); eauto.
    - rewrite (proj_ticks _ _ _ _ _ _ _ M). exact T3.
    - eapply raw_for_notnan. exact Er. }
  exists raw. split; [|exact Le]. apply Ed. lia.
Qed.
