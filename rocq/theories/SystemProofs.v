(** * Sensors built from a configuration and what zones see of them (C60, C61). *)
From Coq Require Import ZArith Bool List String Lia.
From Verif Require Import Base BaseFacts Dbl PidModel ZoneModel LoopModel SpecZone LoopProofs
  SensorModel SpecSensor SensorProofs WriteModel ConfigModel SystemModel SpecSystem SpecWrite PathProofs.
Import ListNotations.
Local Open Scope string_scope.

(** ** Paths *)
Lemma contains_iff needle s : needle <> "" -> str_contains needle s = true <-> contains needle s.
Proof. intros N. rewrite (str_contains_iff needle s N). reflexivity. Qed.

Lemma app_assoc_s (a b c : string) : (a ++ b) ++ c = a ++ (b ++ c).
Proof. induction a as [|x a IH]; [reflexivity|]. cbn. rewrite IH. reflexivity. Qed.

Lemma ext_contains p : contains "/xyz/openbmc_project/extsensors/" p -> contains "/xyz/openbmc_project/" p.
Proof.
  intros (a & b & ->). exists a, ("extsensors/" ++ b).
  change "/xyz/openbmc_project/extsensors/" with ("/xyz/openbmc_project/" ++ "extsensors/").
  rewrite app_assoc_s. reflexivity.
Qed.

Lemma no_path_iff p : (String.eqb p "" || String.eqb "None" p)%bool = true <-> no_path p.
Proof.
  unfold no_path. rewrite orb_true_iff, !String.eqb_eq. split; intros [H|H]; auto.
Qed.

Lemma read_type p :
  match getReadInterfaceType p with
  | IoEXTERNAL => external_path p
  | IoDBUSPASSIVE => bus_path p
  | IoSYSFS => sysfs_path p
  | IoNONE | IoUNKNOWN => ~ external_path p /\ ~ bus_path p /\ ~ sysfs_path p
  | IoDBUSACTIVE => False
  end.
Proof.
  unfold getReadInterfaceType, external_path, bus_path, sysfs_path, external_path.
  assert (Hn := no_path_iff p).
  assert (He := contains_iff "/xyz/openbmc_project/extsensors/" p).
  assert (Ho := contains_iff "/xyz/openbmc_project/" p).
  assert (Hs := contains_iff "/sys/" p).
  assert (Hx := ext_contains p). unfold external_sensor, openbmc_sensor, sysfs.
  destruct (String.eqb p "" || String.eqb "None" p)%bool; [tauto|].
  destruct (str_contains "/xyz/openbmc_project/extsensors/" p);
  destruct (str_contains "/xyz/openbmc_project/" p);
  destruct (str_contains "/sys/" p);
  assert (E1 : "/xyz/openbmc_project/extsensors/" <> "") by discriminate;
  assert (E2 : "/xyz/openbmc_project/" <> "") by discriminate;
  assert (E3 : "/sys/" <> "") by discriminate;
  specialize (He E1); specialize (Ho E2); specialize (Hs E3); clear E1 E2 E3;
  assert (T : false = true <-> False) by (split; [discriminate|tauto]);
  assert (U : true = true <-> True) by tauto; rewrite ?T, ?U in *; tauto.
Qed.

Lemma write_type p :
  match getWriteInterfaceType p with
  | IoSYSFS => sysfs_out p
  | IoDBUSACTIVE => bus_out p
  | IoNONE | IoUNKNOWN => ~ sysfs_out p /\ ~ bus_out p
  | _ => False
  end.
Proof.
  unfold getWriteInterfaceType, sysfs_out, bus_out, sysfs_out.
  assert (Hn := no_path_iff p).
  assert (Ho := contains_iff "/xyz/openbmc_project/" p).
  assert (Hs := contains_iff "/sys/" p). unfold openbmc_sensor, sysfs.
  destruct (String.eqb p "" || String.eqb "None" p)%bool; [tauto|].
  destruct (str_contains "/sys/" p);
  destruct (str_contains "/xyz/openbmc_project/" p);
  assert (E2 : "/xyz/openbmc_project/" <> "") by discriminate;
  assert (E3 : "/sys/" <> "") by discriminate;
  specialize (Ho E2); specialize (Hs E3); clear E2 E3;
  assert (T : false = true <-> False) by (split; [discriminate|tauto]);
  assert (U : true = true <-> True) by tauto; rewrite ?T, ?U in *; tauto.
Qed.

(** ** C60 *)
Lemma known_other t : smem t ["temp"; "margin"; "power"; "powersum"] = true <->
  t = "temp" \/ t = "margin" \/ t = "power" \/ t = "powersum".
Proof. rewrite smem_In. cbn. intuition congruence. Qed.

Lemma make_reader_for sf pow10 sb n info r :
  make_reader sf pow10 sb n info = Ok r -> reader_for sf pow10 sb n info r.
Proof.
  unfold make_reader. assert (T := read_type (sc_readPath info)).
  destruct (getReadInterfaceType (sc_readPath info)); intros H; try (injection H as <-; cbn; tauto).
  - destruct (createDbusPassive _ _ _ _ _ _ _) as [p|] eqn:E; [|discriminate].
    injection H as <-. cbn. split; [exact T|]. split; [exact E|]. apply String.eqb_eq.
  - apply bind_ok in H. destruct H as (path & H1 & H). injection H as <-. cbn.
    split; [exact T|]. now apply FixupPath_ok.
Qed.
Lemma make_writer_for sb info w :
  sc_type info = "fan" -> make_writer sb info = Ok w -> writer_for sb info w.
Proof.
  unfold make_writer. assert (T := write_type (sc_writePath info)). intros F.
  destruct (getWriteInterfaceType (sc_writePath info)); intros H; try contradiction;
    try (injection H as <-; cbn; right; exact T).
  - destruct (sb_writable sb (sc_writePath info)) eqn:E; [|discriminate]. injection H as <-. cbn.
    repeat split; auto; apply T || apply Z.ltb_lt.
  - apply bind_ok in H. destruct H as (path & H1 & H). injection H as <-. cbn.
    apply FixupPath_ok in H1. repeat split; auto; apply T || apply Z.ltb_lt.
Qed.

Lemma build_sensor_spec sf pow10 sb m n info m' :
  build_sensor sf pow10 sb m (n, info) = Ok m' ->
  (known_type (sc_type info) /\ exists x, m' = mset n x m /\ sensor_for sf pow10 sb n info x) \/
  (~ known_type (sc_type info) /\ m' = m).
Proof.
  unfold build_sensor. intros H. apply bind_ok in H. destruct H as (r & Hr & H).
  apply make_reader_for in Hr.
  destruct (String.eqb_spec (sc_type info) "fan") as [F|F].
  - apply bind_ok in H. destruct H as (w & Hw & H). injection H as <-.
    apply (make_writer_for _ _ _ F) in Hw.
    left. split; [left; exact F|]. eexists. split; [reflexivity|]. split; [left; exact F|]. auto.
  - assert (K := known_other (sc_type info)).
    destruct (smem (sc_type info) ["temp"; "margin"; "power"; "powersum"]).
    + assert (Kt : known_type (sc_type info)) by (right; tauto).
      left. split; [exact Kt|]. assert (T := read_type (sc_readPath info)).
      destruct (getReadInterfaceType (sc_readPath info)) eqn:E; injection H as <-;
        eexists; (split; [reflexivity|]); (split; [exact Kt|]); cbn;
        try (split; [right|]; [|split; [reflexivity|split; [reflexivity|split; [exact Hr|left; exact F]]]]);
        try tauto.
      * unfold bus_path in T. tauto.
      * unfold sysfs_path in T. intros X. apply T. apply ext_contains. apply X.
    + injection H as <-. right. split; [|reflexivity].
      unfold known_type. intros [X|X]; [congruence|]. assert (false = true) by tauto. discriminate.
Qed.

Lemma build_fold sf pow10 sb config : forall m0 m,
  foldM (build_sensor sf pow10 sb) config m0 = Ok m -> NoDup (map fst config) ->
  forall n, 
  (forall info, In (n, info) config -> known_type (sc_type info) ->
     exists x, mget n m = Some x /\ sensor_for sf pow10 sb n info x) /\
  ((forall info, In (n, info) config -> ~ known_type (sc_type info)) -> mget n m = mget n m0).
Proof.
  induction config as [|[k info0] r IH]; intros m0 m H Nd n; cbn [foldM] in H.
  - injection H as <-. split; [intros info []|auto].
  - apply bind_ok in H. destruct H as (m1 & H1 & H2).
    cbn [map fst] in Nd. apply NoDup_cons_iff in Nd. destruct Nd as (Nk & Nd).
    destruct (IH _ _ H2 Nd n) as (A & B).
    apply build_sensor_spec in H1. split.
    + intros info [E|I] K.
      * injection E as <- <-. destruct H1 as [(_ & x & -> & S)|(X & _)]; [|contradiction].
        exists x. split; [|exact S]. rewrite B.
        -- apply mget_mset_same.
        -- intros info I. exfalso. apply Nk. apply in_map_iff. exists (k, info). auto.
      * apply A; assumption.
    + intros U. rewrite B by (intros info I; apply U; right; exact I).
      destruct H1 as [(K & x & -> & _)|(_ & ->)]; [|reflexivity].
      rewrite mget_mset. destruct (String.eqb_spec n k) as [->|_]; [|reflexivity].
      exfalso. apply (U info0); [left; reflexivity|exact K].
Qed.

Lemma build_opened sf pow10 sb config m : buildSensors sf pow10 sb config = Ok m ->
  can_register (sb_free sb) (exports config) = true /\ foldM (build_sensor sf pow10 sb) config [] = Ok m.
Proof. unfold buildSensors. destruct (can_register _ _); [auto|discriminate]. Qed.

Lemma C60_lemma sf pow10 sb config m :
  buildSensors sf pow10 sb config = Ok m -> NoDup (map fst config) ->
  (forall n info, In (n, info) config -> known_type (sc_type info) ->
     exists x, mget n m = Some x /\ sensor_for sf pow10 sb n info x) /\
  (forall n x, mget n m = Some x -> exists info, In (n, info) config /\ sensor_for sf pow10 sb n info x).
Proof.
  intros H Nd. apply build_opened in H. destruct H as (_ & H). split.
  - intros n info I K. exact (proj1 (build_fold _ _ _ _ _ _ H Nd n) info I K).
  - intros n x E. destruct (build_fold _ _ _ _ _ _ H Nd n) as (A & B).
    assert (D : (exists info, In (n, info) config /\ known_type (sc_type info)) \/
                forall info, In (n, info) config -> ~ known_type (sc_type info)).
    { clear. induction config as [|[k i] r IH]; [right; intros info []|].
      destruct IH as [(info & I & K)|U]; [left; exists info; split; [right; exact I|exact K]|].
      destruct (string_dec k n) as [->|N].
      - assert (D : known_type (sc_type i) \/ ~ known_type (sc_type i)).
        { unfold known_type. rewrite <- known_other.
          destruct (string_dec (sc_type i) "fan"); [left; left; assumption|].
          destruct (smem (sc_type i) ["temp"; "margin"; "power"; "powersum"]); [left; right; reflexivity|].
          right. intros [X|X]; [contradiction|discriminate]. }
        destruct D as [D|D]; [left; exists i; split; [left; reflexivity|exact D]|].
        right. intros info [X|X]; [congruence|auto].
      - right. intros info [X|X]; [congruence|auto]. }
    destruct D as [(info & I & K)|U].
    + destruct (A _ I K) as (y & Ey & S). exists info. split; [exact I|]. congruence.
    + rewrite (B U) in E. discriminate.
Qed.

Lemma make_reader_ok sf pow10 sb n info :
  (exists r, make_reader sf pow10 sb n info = Ok r) <->
  (bus_path (sc_readPath info) ->
   createDbusPassive sf pow10 (sb_now sb n) (sc_type info) n (sb_replies sb n) info <> None) /\
  (sysfs_path (sc_readPath info) -> exists path, resolves (sb_dir sb) (sc_readPath info) path).
Proof.
  unfold make_reader. assert (T := read_type (sc_readPath info)).
  assert (X := ext_contains (sc_readPath info)).
  destruct (getReadInterfaceType (sc_readPath info)).
  1,2,4,6: split; [intros _; split; intros Y; exfalso; unfold bus_path, sysfs_path, external_path in *; tauto
                |intros _; eexists; reflexivity].
  - destruct (createDbusPassive _ _ _ _ _ _ _) as [p|] eqn:E.
    + split; [intros _; split; [discriminate|]|intros _; eexists; reflexivity].
      intros Y. exfalso. unfold bus_path, sysfs_path in *. tauto.
    + split; [intros (r & Y); discriminate|]. intros (Y & _). exfalso. now apply Y.
  - split.
    + intros (r & H). apply bind_ok in H. destruct H as (path & H & _). apply FixupPath_ok in H.
      split; [intros Y; exfalso; unfold bus_path, sysfs_path in *; tauto|]. intros _. now exists path.
    + intros (_ & H). destruct (H T) as (path & P). apply FixupPath_ok in P. rewrite P. eexists. reflexivity.
Qed.
Lemma make_writer_ok sb info :
  (exists w, make_writer sb info = Ok w) <->
  (bus_out (sc_writePath info) -> sb_writable sb (sc_writePath info) = true) /\
  (sysfs_out (sc_writePath info) -> exists path, resolves (sb_dir sb) (sc_writePath info) path).
Proof.
  unfold make_writer. assert (T := write_type (sc_writePath info)).
  destruct (getWriteInterfaceType (sc_writePath info)); try contradiction.
  - split; [intros _; split; intros Y; exfalso; unfold bus_out, sysfs_out in *; tauto
           |intros _; eexists; reflexivity].
  - destruct (sb_writable sb (sc_writePath info)) eqn:E.
    + split; [intros _; split; [reflexivity|]|intros _; eexists; reflexivity].
      intros Y. exfalso. unfold bus_out, sysfs_out in *. tauto.
    + split; [intros (r & Y); discriminate|]. intros (Y & _). specialize (Y T). discriminate.
  - split.
    + intros (r & H). apply bind_ok in H. destruct H as (path & H & _). apply FixupPath_ok in H.
      split; [intros Y; exfalso; unfold bus_out, sysfs_out in *; tauto|]. intros _. now exists path.
    + intros (_ & H). destruct (H T) as (path & P). apply FixupPath_ok in P. rewrite P. eexists. reflexivity.
  - split; [intros _; split; intros Y; exfalso; tauto|intros _; eexists; reflexivity].
Qed.
Lemma build_sensor_ok sf pow10 sb m e :
  (exists m', build_sensor sf pow10 sb m e = Ok m') /\ (published_sensor (snd e) -> sb_free sb (sc_readPath (snd e)) = true) <->
  buildable_sensor sf pow10 sb e.
Proof.
  destruct e as [n info]. unfold build_sensor, buildable_sensor. cbn [snd].
  assert (R := make_reader_ok sf pow10 sb n info). assert (W := make_writer_ok sb info).
  split.
  - intros ((m' & H) & Ex). apply bind_ok in H. destruct H as (r & Hr & H).
    assert (R' := proj1 R (ex_intro _ r Hr)). split; [apply R'|]. split; [apply R'|].
    destruct (String.eqb_spec (sc_type info) "fan") as [F|F]; [|split; [|split; [|exact Ex]]; intros Y; contradiction].
    apply bind_ok in H. destruct H as (w & Hw & _). assert (W' := proj1 W (ex_intro _ w Hw)). tauto.
  - intros (H1 & H2 & H3 & H4 & H5). split; [|exact H5]. destruct (proj2 R (conj H1 H2)) as (r & ->). cbn [bind].
    destruct (String.eqb_spec (sc_type info) "fan") as [F|F].
    + destruct (proj2 W (conj (H3 F) (H4 F))) as (w & ->). eexists. reflexivity.
    + destruct (smem (sc_type info) ["temp"; "margin"; "power"; "powersum"]); [|eexists; reflexivity].
      destruct (getReadInterfaceType (sc_readPath info)); eexists; reflexivity.
Qed.

Lemma exported_iff info p : In p (exported info) <-> published_sensor info /\ p = sc_readPath info.
Proof.
  unfold exported, published_sensor, known_type. assert (K := known_other (sc_type info)). assert (T := read_type (sc_readPath info)).
  destruct (String.eqb_spec (sc_type info) "fan") as [F|F]; cbn [negb andb]; [split; [intros []|tauto]|].
  destruct (smem (sc_type info) ["temp"; "margin"; "power"; "powersum"]).
  - assert (K' := proj1 K eq_refl).
    assert (X : sysfs_path (sc_readPath info) -> ~ external_path (sc_readPath info)).
    { intros (_ & Y & _) (_ & Z). apply Y, ext_contains, Z. }
    destruct (getReadInterfaceType (sc_readPath info)); cbn [In];
      try (split; [intros []|intros ((_ & _ & Y) & _); unfold bus_path in *; tauto]).
    split; [intros [<-|[]]; auto|intros (_ & ->); auto].
  - split; [intros []|]. intros ((Y & _) & _). assert (X : false = true) by (apply K; tauto). discriminate X.
Qed.
Lemma exported_one info : exported info = [] \/ exported info = [sc_readPath info].
Proof. unfold exported. destruct (_ && _); [|auto]. destruct (getReadInterfaceType _); auto. Qed.
Lemma can_register_ok sb config : can_register (sb_free sb) (exports config) = true <->
  Forall (fun e => published_sensor (snd e) -> sb_free sb (sc_readPath (snd e)) = true) config /\ own_objects config.
Proof.
  induction config as [|e r IH]; [split; [intros _; split; constructor|reflexivity]|].
  assert (In_ex : forall p, smem p (exports r) = true <-> exists b, In b r /\ published_sensor (snd b) /\ p = sc_readPath (snd b)).
  { intros p. rewrite smem_In. unfold exports. rewrite in_flat_map. split.
    - intros (b & Ib & I). exists b. split; [exact Ib|]. now apply exported_iff.
    - intros (b & Ib & X). exists b. split; [exact Ib|]. now apply exported_iff. }
  unfold exports in *. cbn [flat_map]. assert (X := fun p => exported_iff (snd e) p).
  destruct (exported_one (snd e)) as [E|E]; rewrite E in X |- *; cbn [app can_register].
  - assert (N : ~ published_sensor (snd e)) by (intros Y; destruct (X (sc_readPath (snd e))) as (_ & Z); destruct Z; auto).
    rewrite IH. unfold own_objects. split.
    + intros (A & B). split; (constructor; [|assumption]); [intros; contradiction|].
      apply Forall_forall. intros b _ Y. contradiction.
    + intros (A & B). inversion A; subst. inversion B; subst. auto.
  - assert (Y : published_sensor (snd e)) by (apply (X (sc_readPath (snd e))); left; reflexivity).
    rewrite !andb_true_iff, IH, negb_true_iff. unfold own_objects. split.
    + intros ((A & B) & C & D). split; (constructor; [|assumption]); [auto|]. apply Forall_forall. intros b Ib _ Yb Eq.
      assert (Z : smem (sc_readPath (snd e)) (flat_map (fun e => exported (snd e)) r) = true) by (apply In_ex; eauto). congruence.
    + intros (A & B). inversion A as [|? ? A1 A2]; subst. inversion B as [|? ? B1 B2]; subst.
      split; [split; [auto|]|auto].
      destruct (smem (sc_readPath (snd e)) (flat_map (fun e => exported (snd e)) r)) eqn:S; [|reflexivity].
      apply In_ex in S. destruct S as (b & Ib & Yb & Eq). rewrite Forall_forall in B1. elim (B1 b Ib Y Yb Eq).
Qed.

Lemma C60_fails_lemma sf pow10 sb config :
  (exists m, buildSensors sf pow10 sb config = Ok m) <->
  Forall (buildable_sensor sf pow10 sb) config /\ own_objects config.
Proof.
  assert (F : forall l m0, (exists m, foldM (build_sensor sf pow10 sb) l m0 = Ok m) /\
      Forall (fun e => published_sensor (snd e) -> sb_free sb (sc_readPath (snd e)) = true) l <->
      Forall (buildable_sensor sf pow10 sb) l).
  { induction l as [|e r IH]; intros m0; cbn [foldM].
    - split; [constructor|split; [eexists; reflexivity|constructor]].
    - split.
      + intros ((m & H) & Fr). inversion Fr as [|? ? Fr1 Fr2]; subst. apply bind_ok in H. destruct H as (m1 & H1 & H2). constructor.
        * apply (build_sensor_ok sf pow10 sb m0). eauto.
        * apply (IH m1). eauto.
      + intros G. apply Forall_cons_iff in G. destruct G as (F1 & F2).
        apply (build_sensor_ok sf pow10 sb m0) in F1. destruct F1 as ((m1 & E) & F1). rewrite E. cbn [bind].
        destruct (proj2 (IH m1) F2) as (A & B). split; [exact A|]. constructor; assumption. }
  assert (C := can_register_ok sb config). unfold buildSensors. split.
  - intros (m & H). destruct (can_register _ _); [|discriminate H]. destruct (proj1 C eq_refl) as (A & B).
    split; [|exact B]. apply (F config []). eauto.
  - intros (A & B). destruct (proj2 (F config []) A) as (D & E). rewrite (proj2 C (conj E B)). exact D.
Qed.

(** ** What stays of a sensor when fans are written *)
Definition wcore (w : writer) : writer :=
  match w with
  | WDbus path d => WDbus path (dbus_writer_new (dw_percent d) (dw_min d) (dw_max d))
  | _ => w
  end.
Definition core (x : sensor) : sensor :=
  match x with
  | Pluggable t r w i => Pluggable t r (wcore w) i
  | Host t i h => Host t i h
  end.
Definition cores (s : system) (n : string) : option sensor := option_map core (mget n (sy_sensors s)).

Lemma dbus_write_core v force ok w r : dbus_write v force ok w = Ok r ->
  dw_percent (fst r) = dw_percent w /\ dw_min (fst r) = dw_min w /\ dw_max (fst r) = dw_max w.
Proof.
  unfold dbus_write. cbv zeta. destruct (to_int64 (dw_target w v)) as [raw|]; [|discriminate].
  destruct ((dw_oldValue w =? raw)%Z && negb force); [intros H; injection H as <-; auto|].
  destruct (to_uint64 (dw_target w v)); [|discriminate]. intros H. injection H as <-. auto.
Qed.

Lemma apply_write_rest ok k s ev k' s' : apply_write ok (k, s) ev = Ok (k', s') ->
  (forall n, cores s' n = cores s n) /\
  sy_failures s' = sy_failures s /\ sy_power s' = sy_power s /\ sy_loops s' = sy_loops s.
Proof.
  destruct ev as [[name v] force]. unfold apply_write. intros H.
  destruct (mget name (sy_sensors s)) as [[t r [path w|path pc mn mx|] i|t i h]|] eqn:E;
    try (injection H as <- <-; auto).
  - apply bind_ok in H. destruct H as (rw & H1 & H). injection H as <- <-.
    apply dbus_write_core in H1. destruct H1 as (E1 & E2 & E3).
    assert (C : forall n, cores (set_sensors (mset name (Pluggable t r (WDbus path (fst rw)) i) (sy_sensors s)) s) n
                = cores s n).
    { intros n. unfold cores. cbn [sy_sensors set_sensors]. rewrite mget_mset.
      destruct (String.eqb_spec n name) as [->|_]; [|reflexivity].
      rewrite E. cbn. rewrite E1, E2, E3. reflexivity. }
    destruct (sent w (fst rw)); (split; [exact C|auto]).
  - apply bind_ok in H. destruct H as (o & H1 & H). injection H as <- <-. destruct o; split; auto.
Qed.

Lemma writes_rest ok ws : forall k s ks', foldM (apply_write ok) ws (k, s) = Ok ks' ->
  (forall n, cores (snd ks') n = cores s n) /\
  sy_failures (snd ks') = sy_failures s /\ sy_power (snd ks') = sy_power s /\ sy_loops (snd ks') = sy_loops s.
Proof.
  induction ws as [|ev r IH]; intros k s ks' H; cbn [foldM] in H.
  - injection H as <-. auto.
  - apply bind_ok in H. destruct H as ([k1 s1] & H1 & H2).
    apply apply_write_rest in H1. apply IH in H2.
    destruct H1 as (A1 & A2 & A3 & A4), H2 as (B1 & B2 & B3 & B4).
    split; [intros n; rewrite B1; apply A1|]. repeat split; congruence.
Qed.

(** One wake-up: the zone's step, then its writes. *)
Lemma tick_split f i w s s' : sys_tick f i w s = Ok s' ->
  (nth_error (sy_loops s) i = None /\ s' = s) \/
  exists l l' ls k',
    nth_error (sy_loops s) i = Some l /\ loop_step f l (LTick (tick_of s w)) = Ok l' /\
    nth_error ls i = Some l' /\ (forall j, j <> i -> nth_error ls j = nth_error (sy_loops s) j) /\
    foldM (apply_write (wk_write_ok w)) (new_writes (l_zone l) (l_zone l')) (O, set_loops ls s) = Ok (k', s') /\
    sy_loops s' = ls.
Proof.
  unfold sys_tick. intros H. destruct (nth_error (sy_loops s) i) as [l|] eqn:E.
  2: { injection H as <-. auto. }
  right. apply bind_ok in H. destruct H as ([] & _ & H).
  apply bind_ok in H. destruct H as (ls & H1 & H). apply bind_ok in H. destruct H as ([k' s2] & H2 & H).
  cbn [snd] in H. injection H as <-.
  apply update_nth_spec in H1. destruct H1 as (_ & B & C). destruct (C _ E) as (l' & El & Hl).
  rewrite El in H2. exists l, l', ls, k'. repeat split; auto.
  apply writes_rest in H2. apply H2.
Qed.

(** Effect of an event on what stays. *)
Definition core_after (sf : sflags) (pow10 : Z -> dbl) (n : string) (x : sensor) (e : sys_event)
  : outcome sensor :=
  match e with
  | SSignal path m => sensor_signal sf pow10 path m x
  | SHost n' v t =>
      Ok (if String.eqb n n' then match x with Host to i h => Host to i (host_setValue h (v, t)) | _ => x end
          else x)
  | _ => Ok x
  end.

Lemma signal_core sf pow10 path m x x' : sensor_signal sf pow10 path m x = Ok x' ->
  sensor_signal sf pow10 path m (core x) = Ok (core x').
Proof.
  unfold sensor_signal. destruct x as [t [p red|q| |] w i|t i h]; cbn; try (intros H; injection H as <-; reflexivity).
  destruct (String.eqb (p_path p) path); [|intros H; injection H as <-; reflexivity].
  destruct (handleSensorValue sf pow10 p m); cbn; try discriminate. intros H. injection H as <-. reflexivity.
Qed.

Lemma signal_all_get sf pow10 path m n : forall l l', signal_all sf pow10 path m l = Ok l' ->
  match mget n l with
  | Some x => exists x', mget n l' = Some x' /\ sensor_signal sf pow10 path m x = Ok x'
  | None => mget n l' = None
  end.
Proof.
  induction l as [|[k x] r IH]; intros l' H; cbn [signal_all] in H.
  - injection H as <-. reflexivity.
  - apply bind_ok in H. destruct H as (x' & H1 & H). apply bind_ok in H. destruct H as (r' & H2 & H).
    injection H as <-. cbn [mget]. destruct (String.eqb n k); [eauto|]. apply IH. exact H2.
Qed.

Lemma step_core f sf pow10 s e s' n : sys_step f sf pow10 s e = Ok s' ->
  match mget n (sy_sensors s) with
  | Some x => exists x', mget n (sy_sensors s') = Some x' /\ core_after sf pow10 n (core x) e = Ok (core x')
  | None => mget n (sy_sensors s') = None
  end.
Proof.
  intros H.
  assert (Same : (forall n, cores s' n = cores s n) -> core_after sf pow10 n = (fun x e => core_after sf pow10 n x e) ->
    (forall x, core_after sf pow10 n x e = Ok x) ->
    match mget n (sy_sensors s) with
    | Some x => exists x', mget n (sy_sensors s') = Some x' /\ core_after sf pow10 n (core x) e = Ok (core x')
    | None => mget n (sy_sensors s') = None
    end).
  { intros C _ K. specialize (C n). unfold cores in C.
    destruct (mget n (sy_sensors s)) as [x|], (mget n (sy_sensors s')) as [x'|]; cbn in C; try discriminate; auto.
    exists x'. split; [reflexivity|]. rewrite K. injection C as ->. reflexivity. }
  destruct e as [path m|n' v t|m|c|i w|i b|i p b]; cbn [sys_step] in H.
  - apply bind_ok in H. destruct H as (l & H1 & H). injection H as <-.
    apply (signal_all_get _ _ _ _ n) in H1. cbn [sy_sensors set_sensors].
    destruct (mget n (sy_sensors s)) as [x|]; [|exact H1].
    destruct H1 as (x' & E & S). exists x'. split; [exact E|]. apply signal_core. exact S.
  - injection H as <-. cbn [sy_sensors set_sensors core_after]. unfold host_write.
    destruct (mget n' (sy_sensors s)) as [[to r w i|to i h]|] eqn:E.
    + destruct (mget n (sy_sensors s)) as [x|] eqn:E2; [|reflexivity]. exists x. split; [reflexivity|].
      destruct (String.eqb_spec n n') as [->|_]; [|reflexivity].
      rewrite E in E2. injection E2 as <-. reflexivity.
    + rewrite mget_mset. destruct (String.eqb_spec n n') as [->|_].
      * rewrite E. eexists. split; [reflexivity|]. reflexivity.
      * destruct (mget n (sy_sensors s)) as [x|]; eauto.
    + destruct (mget n (sy_sensors s)) as [x|] eqn:E2; [|reflexivity]. exists x. split; [reflexivity|].
      destruct (String.eqb_spec n n') as [->|_]; [|reflexivity]. congruence.
  - apply bind_ok in H. destruct H as (l & _ & H). injection H as <-. apply Same; reflexivity.
  - injection H as <-. apply Same; reflexivity.
  - apply Same; [|reflexivity|reflexivity]. apply tick_split in H.
    destruct H as [(_ & ->)|(l & l' & ls & k' & _ & _ & _ & _ & H & _)]; [reflexivity|].
    apply writes_rest in H. cbn [snd] in H. destruct H as (A & _). exact A.
  - apply bind_ok in H. destruct H as (l & _ & H). injection H as <-. apply Same; reflexivity.
  - apply bind_ok in H. destruct H as (l & _ & H). injection H as <-. apply Same; reflexivity.
Qed.

Lemma run_core f sf pow10 n evs : forall s s', sys_run f sf pow10 evs s = Ok s' ->
  match mget n (sy_sensors s) with
  | Some x => exists x', mget n (sy_sensors s') = Some x' /\
                foldM (core_after sf pow10 n) evs (core x) = Ok (core x')
  | None => mget n (sy_sensors s') = None
  end.
Proof.
  unfold sys_run. induction evs as [|e r IH]; intros s s' H; cbn [foldM] in H.
  - injection H as <-. destruct (mget n (sy_sensors s)) as [x|]; [|reflexivity]. exists x. auto.
  - apply bind_ok in H. destruct H as (s1 & H1 & H2). apply (step_core _ _ _ _ _ _ n) in H1.
    apply IH in H2. destruct (mget n (sy_sensors s)) as [x|].
    + destruct H1 as (x1 & E1 & K1). rewrite E1 in H2. destruct H2 as (x2 & E2 & K2).
      exists x2. split; [exact E2|]. cbn [foldM]. rewrite K1. exact K2.
    + rewrite H1 in H2. exact H2.
Qed.

(** ** Redundancy and host state *)
Lemma step_failures f sf pow10 s e s' : sys_step f sf pow10 s e = Ok s' ->
  foldM handleRedundancy (redundancy_news [e]) (sy_failures s) = Ok (sy_failures s') /\
  fold_left handleStateChange (host_changes [e]) (sy_power s) = sy_power s'.
Proof.
  destruct e as [path m|n' v t|m|c|i w|i b|i p b]; cbn [sys_step redundancy_news host_changes flat_map app foldM fold_left]; intros H.
  - apply bind_ok in H. destruct H as (l & H1 & H). injection H as <-. auto.
  - injection H as <-. auto.
  - apply bind_ok in H. destruct H as (l & H1 & H). injection H as <-. rewrite H1. auto.
  - injection H as <-. auto.
  - apply tick_split in H. destruct H as [(_ & ->)|(l & l' & ls & k' & _ & _ & _ & _ & H & _)]; [auto|].
    apply writes_rest in H. cbn [snd] in H. destruct H as (_ & A & B & _). rewrite A, B. auto.
  - apply bind_ok in H. destruct H as (l & H1 & H). injection H as <-. auto.
  - apply bind_ok in H. destruct H as (l & H1 & H). injection H as <-. auto.
Qed.

Lemma run_failures f sf pow10 evs : forall s s', sys_run f sf pow10 evs s = Ok s' ->
  foldM handleRedundancy (redundancy_news evs) (sy_failures s) = Ok (sy_failures s') /\
  fold_left handleStateChange (host_changes evs) (sy_power s) = sy_power s'.
Proof.
  unfold sys_run. induction evs as [|e r IH]; intros s s' H; cbn [foldM] in H.
  - injection H as <-. auto.
  - apply bind_ok in H. destruct H as (s1 & H1 & H2). apply step_failures in H1. apply IH in H2.
    destruct H1 as (A1 & B1), H2 as (A2 & B2).
    change (redundancy_news (e :: r)) with (redundancy_news ([e] ++ r)).
    change (host_changes (e :: r)) with (host_changes ([e] ++ r)).
    unfold redundancy_news, host_changes in *. rewrite !flat_map_app, foldM_app, fold_left_app.
    rewrite A1, B1. cbn [bind]. auto.
Qed.

(** ** Starting *)
Lemma start_rest f zs : forall s s', foldM (start_zone f) zs s = Ok s' ->
  sy_sensors s' = sy_sensors s /\ sy_failures s' = sy_failures s /\ sy_power s' = sy_power s /\
  sy_devices s' = sy_devices s /\
  exists ls, sy_loops s' = (sy_loops s ++ ls)%list /\
    Forall2 (fun e l => exists env, loop_start f env (st_tune (fst e)) (st_timer (fst e)) (snd e) = Ok l) zs ls.
Proof.
  induction zs as [|[i z] r IH]; intros s s' H; cbn [foldM] in H.
  - injection H as <-. repeat split. exists []. rewrite app_nil_r. split; [reflexivity|constructor].
  - apply bind_ok in H. destruct H as (s1 & H1 & H2). unfold start_zone in H1.
    apply bind_ok in H1. destruct H1 as ([] & _ & H1). apply bind_ok in H1. destruct H1 as (l & Hl & H1).
    injection H1 as <-. apply IH in H2. cbn in H2. destruct H2 as (A & B & C & D & ls & E & F).
    repeat split; auto. exists (l :: ls). rewrite <- app_assoc in E. split; [exact E|].
    constructor; [|exact F]. eexists. exact Hl.
Qed.

(** ** C61 *)
Lemma passive_core sf pow10 n t red w i evs : forall p x,
  foldM (core_after sf pow10 n) evs (Pluggable t (RPassive p red) w i) = Ok x ->
  exists p', x = Pluggable t (RPassive p' red) w i /\ passive_run sf pow10 p (heard (p_path p) evs) = Ok p'.
Proof.
  induction evs as [|e r IH]; intros p x H; cbn [foldM] in H.
  - injection H as <-. exists p. split; reflexivity.
  - apply bind_ok in H. destruct H as (x1 & H1 & H2). destruct e as [path m|n' v tt|m|c|j ww|j b|j q b];
      cbn [core_after] in H1;
      try (injection H1 as <-; apply IH in H2; exact H2).
    2: { destruct (String.eqb n n'); injection H1 as <-; apply IH in H2; exact H2. }
    cbn [sensor_signal] in H1. unfold heard. cbn [flat_map].
    destruct (String.eqb (p_path p) path) eqn:Ep.
    + apply bind_ok in H1. destruct H1 as (p1 & Hp & H1). injection H1 as <-. apply IH in H2.
      destruct H2 as (p2 & -> & R). exists p2. split; [reflexivity|].
      assert (F : fixed p1 = fixed p).
      { apply (run_fixed sf pow10 [m]). unfold passive_run. cbn. rewrite Hp. reflexivity. }
      apply fixed_eq in F. destruct F as (_ & F & _). rewrite F in R.
      unfold passive_run in *. cbn [app foldM]. rewrite Hp. exact R.
    + injection H1 as <-. apply IH in H2. exact H2.
Qed.

Lemma host_core sf pow10 n t i evs : forall h x,
  foldM (core_after sf pow10 n) evs (Host t i h) = Ok x ->
  x = Host t i (fold_left host_setValue (host_values n evs) h).
Proof.
  induction evs as [|e r IH]; intros h x H; cbn [foldM] in H.
  - injection H as <-. reflexivity.
  - apply bind_ok in H. destruct H as (x1 & H1 & H2). destruct e as [path m|n' v tt|m|c|j ww|j b|j q b];
      cbn [core_after sensor_signal] in H1; unfold host_values; cbn [flat_map];
      try (injection H1 as <-; apply IH in H2; exact H2).
    destruct (String.eqb n n'); injection H1 as <-; apply IH in H2; exact H2.
Qed.

Lemma sysfs_core sf pow10 n t path w i evs : forall x,
  foldM (core_after sf pow10 n) evs (Pluggable t (RSysfs path) w i) = Ok x ->
  x = Pluggable t (RSysfs path) w i.
Proof.
  induction evs as [|e r IH]; intros x H; cbn [foldM] in H.
  - injection H as <-. reflexivity.
  - apply bind_ok in H. destruct H as (x1 & H1 & H2). destruct e as [p m|n' v tt|m|c|j ww|j b|j q b];
      cbn [core_after sensor_signal] in H1;
      try (injection H1 as <-; apply IH in H2; exact H2).
    destruct (String.eqb n n'); injection H1 as <-; apply IH in H2; exact H2.
Qed.
