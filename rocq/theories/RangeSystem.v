(** * The daemon with a sensible configuration (C80). *)
From Coq Require Import ZArith Bool List String Lia.
From Coq Require Import Floats.SpecFloat.
From Coq Require Import Reals Lra.
From Flocq Require Import Core IEEE754.BinarySingleNaN.
From Verif Require Import Base BaseFacts Dbl DblFacts DblBound DblOrder PidModel SpecPid PidProofs ZoneModel LoopModel SpecZone
  ZoneFrame ZoneThermal ZoneFan ZoneProofs LoopProofs ConfigModel SensorModel SpecSensor SensorProofs WriteModel SpecWrite
  WriteProofs BuilderModel SpecBuilder BuilderProofs BuilderRun SystemModel SpecSystem SystemProofs SystemProofs2
  SystemProofs3 SystemProofs4 SpecRange RangeProofs.
Import ListNotations.
Local Open Scope string_scope.
Local Open Scope list_scope.
Local Open Scope Z_scope.

(** ** Numbers *)
Lemma bnd_mag k x : (-1074 <= k <= 1023)%Z -> bnd k x -> mag_le k x.
Proof.
  intros Hk (F & B). apply Rabs_le_inv in B.
  destruct (Rx_D2_pow k Hk) as [F1 E1]. destruct (Rx_D2_npow k Hk) as [F2 E2].
  split; [exact F|]. split; apply dle_iff.
  - split; [now apply finite_notnan|]. split; [now apply finite_notnan|]. lra.
  - split; [now apply finite_notnan|]. split; [now apply finite_notnan|]. lra.
Qed.

Lemma dmul_finite_l a b : dfinite (dmul a b) -> dfinite a.
Proof. destruct a as [s|[]| |s m e H], b as [t|[]| |t m' e' H']; intros X; try reflexivity; discriminate X. Qed.

Lemma modest_scaled a b : (dfinite a -> mag_le 100 a) -> mag_le 100 b -> modest_speed (dmul a b).
Proof.
  intros A B F. apply bnd_mag; [lia|]. apply (bnd_mul 100 100); [lia| |].
  - apply mag_le_bnd; [lia|]. apply A. eapply dmul_finite_l; eauto.
  - apply mag_le_bnd; [lia|exact B].
Qed.

Lemma unit_raw v : unit_command v -> exists raw, to_int64 v = Some raw /\ 0 <= raw <= 1.
Proof.
  intros (V0 & V1). apply dle_iff in V0. destruct V0 as (_ & NV & V0). rewrite Rx_d0 in V0.
  apply dle_iff in V1. destruct V1 as (_ & _ & V1). destruct (D_exact 1) as [_ E]; [lia|]. rewrite E in V1.
  assert (F : dfinite v) by (apply (finite_of_bounds v 0 1); [lia|lia|exact NV|split; assumption]).
  assert (B : 0 <= Ztrunc (Rx v) <= 1) by (apply Ztrunc_between; split; assumption).
  exists (Ztrunc (Rx v)). split; [|exact B]. apply dtrunc_spec; [exact F|]. unfold int64_min, int64_max. lia.
Qed.

(** ** What a writer stores *)
Definition stored_ok (percent : bool) (min max raw : Z) : Prop :=
  if percent then min <= raw <= max else 0 <= raw <= 1.

Lemma target_raw (percent : bool) min max v : (percent = true -> usable_range min max) -> unit_command v ->
  exists raw, to_int64 (if percent then percent_ovalue min max v else v) = Some raw /\ 0 <= raw /\
    stored_ok percent min max raw.
Proof.
  intros U Uv. destruct percent; cbn [stored_ok].
  - destruct (U eq_refl) as (U0 & U1 & U2). destruct Uv as (V0 & V1).
    destruct (C32_bounds_lemma min max v) as (raw & E & B); try assumption; try lia.
    exists raw. split; [exact E|]. split; [lia|exact B].
  - destruct (unit_raw v Uv) as (raw & E & B). exists raw. split; [exact E|]. split; [lia|exact B].
Qed.

Lemma dbus_unit d v force ok : (dw_percent d = true -> usable_range (dw_min d) (dw_max d)) -> unit_command v ->
  exists raw, stored_ok (dw_percent d) (dw_min d) (dw_max d) raw /\
    dbus_write v force ok d =
      Ok (MkDbusWriter (dw_percent d) (dw_min d) (dw_max d) raw
          ((if negb (raw =? dw_oldValue d) || force then [(raw, ok)] else []) ++ dw_calls d), raw).
Proof.
  intros U Uv. destruct (target_raw _ _ _ v U Uv) as (raw & E & P & S). exists raw. split; [exact S|].
  apply dbus_write_step; assumption.
Qed.

Lemma sysfs_unit (percent : bool) min max v ok file : (percent = true -> usable_range min max) -> unit_command v ->
  exists raw, stored_ok percent min max raw /\
    sysfs_write percent min max v ok file = Ok (if ok then Some raw else file).
Proof.
  intros U Uv. destruct (target_raw _ _ _ v U Uv) as (raw & E & P & S). exists raw. split; [exact S|].
  unfold sysfs_write. rewrite E. reflexivity.
Qed.

(** ** The tolerant writer agrees *)
Definition calm (w : write_env) (v : dbl) : Prop := forall n g b, w n = Some g -> g v b <> UB conv.

Lemma soften_same {A : Type} (d : A) o : o <> UB conv -> soften d o = o.
Proof.
  intros N. unfold soften. destruct o as [a|m|m]; try reflexivity.
  destruct (String.eqb_spec m conv) as [-> |]; [congruence|reflexivity].
Qed.
Lemma write_fan_agree w v d z n : calm w v -> write_fan w v d z n = write_fan (soft w) v d z n.
Proof.
  intros C. unfold write_fan, soft. destruct (w n) as [g|] eqn:E; cbn [option_map]; [|reflexivity].
  rewrite soften_same; [reflexivity|]. eapply C; eauto.
Qed.
Lemma write_fans_agree w v d l : (l <> [] -> calm w v) -> forall z, foldM (write_fan w v d) l z = foldM (write_fan (soft w) v d) l z.
Proof.
  induction l as [|n r IH]; intros C z; cbn [foldM]; [reflexivity|]. rewrite write_fan_agree by (apply C; discriminate).
  destruct (write_fan (soft w) v d z n); cbn [bind]; try reflexivity. apply IH. intros _. apply C. discriminate.
Qed.
Lemma fan_process_agree f w c z :
  (fan_inputs c <> [] -> calm w (ddiv (fan_percent f z (fan_output z c)) (D 100))) ->
  fan_process f w c z = fan_process f (soft w) c z.
Proof.
  intros C. unfold fan_process, fan_setptProc. cbv zeta.
  match goal with |- bind ?o _ = _ => destruct o as [v|m|m] eqn:Hv end; cbn [bind]; try reflexivity.
  apply fan_inputProc_spec in Hv. cbn [fan_inputs fan_pid] in *.
  unfold fan_output in C. rewrite <- Hv in C.
  destruct (pid_process (fan_pid c) (z_maximumSetPoint z) v) as [p o]. cbn [snd] in C.
  unfold fan_outputProc. cbv zeta. cbn [fan_inputs]. rewrite write_fans_agree by exact C. reflexivity.
Qed.
Lemma run_fans_agree f w l : forall z,
  (forall c n v b, In (Some c) l -> In (n, v, b) (fan_writes f z c) -> calm w v) ->
  run_all (opt_fan_process f w) l z = run_all (opt_fan_process f (soft w)) l z.
Proof.
  induction l as [|o r IH]; intros z C; cbn [run_all]; [reflexivity|].
  destruct o as [c|]; cbn [opt_fan_process bind]; [|reflexivity].
  rewrite fan_process_agree.
  2: { intros N. destruct (fan_inputs c) as [|n ns] eqn:E; [congruence|].
       apply (C c n _ (z_redundantWrite z) (or_introl eq_refl)). unfold fan_writes. rewrite E. left. reflexivity. }
  destruct (fan_process f (soft w) c z) as [[c' z']|m|m] eqn:E; cbn [bind]; try reflexivity.
  apply fan_process_spec in E. destruct E as (F & _).
  rewrite IH; [reflexivity|]. intros k n v b I J. rewrite (fan_writes_frame _ _ _ _ F) in J.
  apply (C k n v b); [right; exact I|exact J].
Qed.
Lemma processFans_agree f w z : (forall n v b, In (n, v, b) (all_fan_writes f z) -> calm w v) ->
  processFans f w z = processFans f (soft w) z.
Proof.
  intros C. unfold processFans. rewrite run_fans_agree; [reflexivity|].
  intros c n v b I J. apply (C n v b). unfold all_fan_writes, fan_ctls. apply in_flat_map. exists c. split; [|exact J].
  apply in_flat_map. exists (Some c). split; [exact I|left; reflexivity].
Qed.

(** The values a zone is about to write. *)
Lemma before_fans f e l z1 z2 : full (l_zone l) -> sensible_event (z_fanInputs (l_zone l)) (LTick e) ->
  updateFanTelemetry f (tk_fan e) (l_zone l) = Ok z1 ->
  (thermal_cycle f (tk_therm e) (tk_tune e) z1 = Ok z2 \/ z2 = z1) ->
  fs_inv z2 /\ rinv z2 /\ bnd 200 (z_maximumSetPoint z2).
Proof.
  intros (F & R & M & U) (Mf & Mt & It) H1 H2.
  destruct (rinv_telemetry _ _ _ _ R Mf H1) as (R1 & M1).
  apply updateFanTelemetry_spec in H1. destruct H1 as (C1 & _ & _ & _ & _ & I1 & _).
  assert (Ef : z_fanInputs z1 = z_fanInputs (l_zone l)) by (use_conf C1; reflexivity).
  destruct H2 as [H2| ->].
  - destruct (rinv_thermal f (tk_therm e) (tk_tune e) z1 z2 R1) as (R2 & M2); [rewrite Ef; exact Mt|exact It|exact H2|].
    apply thermal_cycle_frame in H2. destruct H2 as (_ & _ & _ & _ & _ & I2 & _). auto.
  - split; [auto|]. split; [exact R1|]. rewrite M1. exact M.
Qed.

Lemma bind_agree {A B : Type} (o : outcome A) (k k' : A -> outcome B) :
  (forall a, o = Ok a -> k a = k' a) -> bind o k = bind o k'.
Proof. intros H. destruct o; cbn; auto. Qed.

Lemma tick_agree f e l : full (l_zone l) -> sensible_event (z_fanInputs (l_zone l)) (LTick e) ->
  (forall v, unit_command v -> calm (tk_write e) v) ->
  loop_step f l (LTick e) = loop_step f l (LTick (soft_tick e)).
Proof.
  intros Fu Se C. cbn [loop_step]. unfold loop_tick. destruct (z_manualMode (l_zone l)); [reflexivity|]. cbv zeta.
  cbn [soft_tick tk_fan tk_therm tk_tune tk_write]. apply bind_agree. intros z1 H1.
  apply bind_agree. intros [z2 cnt] H2.
  assert (K : thermal_cycle f (tk_therm e) (tk_tune e) z1 = Ok z2 \/ z2 = z1).
  { destruct (_ <=? _)%Z in H2.
    - apply bind_ok in H2. destruct H2 as (z3 & H2 & H3). injection H3 as <- _. left. exact H2.
    - injection H2 as <- _. right. reflexivity. }
  destruct (before_fans _ _ _ _ _ Fu Se H1 K) as (F2 & R2 & M2).
  rewrite processFans_agree; [reflexivity|]. intros n v b I. apply C. eapply all_writes_ok; eauto.
Qed.

(** ** The daemon *)
Section Run.
  Context (f : flags) (sf : sflags) (pow10 : Z -> dbl) (sb : sensor_bus) (config : smap SensorConfig)
    (failures : list string) (first : option string) (devices : smap Z) (zs : list (start_in * zone)).
  Context (bus_ok : string -> bool) (zp : list (Z * PIDConf)) (confs : list (Z * ZoneConfig)).
  Hypothesis (Nd : NoDup (map fst config)).
  Hypothesis (Bf : some_of bus_ok zp confs zs).
  Hypothesis (Ps : forall id pids, In (id, pids) zp -> pids_served config pids).
  Hypothesis (Su : sensible_setup sf pow10 sb config zp confs).
  Hypothesis (Sb : Forall (fun e => sensible_begin (fst e)) zs).
  Let Sp := se_pids _ _ _ _ _ _ Su.
  Let Sz := se_zones _ _ _ _ _ _ Su.
  Let Uf := se_fans _ _ _ _ _ _ Su.
  Let Ms := se_start _ _ _ _ _ _ Su.

  Definition small_passive (p : passive) : Prop := mag_le 100 (pow10 (p_scale p)) /\ modest_speed (p_unscaled p).
  Definition small_reader (x : sensor) : Prop :=
    match x with Pluggable _ (RPassive p _) _ _ => small_passive p | _ => True end.
  Definition fan_device (path : string) (percent : bool) (min max : Z) : Prop :=
    exists name info, In (name, info) config /\ sc_type info = "fan" /\ drives sb info path /\
      percent = (0 <? sc_max info) /\ min = sc_min info /\ max = sc_max info.
  Definition good_writer (x : sensor) : Prop :=
    match x with
    | Pluggable _ _ (WDbus path d) _ => fan_device path (dw_percent d) (dw_min d) (dw_max d)
    | Pluggable _ _ (WSysfs path pc mn mx) _ => fan_device path pc mn mx
    | _ => True
    end.
  Definition good_sensor (n : string) (x : sensor) : Prop :=
    (writable config n -> exists t r w i, x = Pluggable t r w i) /\
    (writable config n -> small_reader x) /\ good_writer x.
  Definition good_sensors (m : smap sensor) : Prop := forall n x, mget n m = Some x -> good_sensor n x.
  Definition good_devices (d : smap Z) : Prop := devices_in_range sb config devices d.
  Definition good_loop (l : loop) : Prop :=
    full (l_zone l) /\ forall n, In n (z_fanInputs (l_zone l)) -> writable config n.
  Definition good (s : system) : Prop :=
    good_sensors (sy_sensors s) /\ good_devices (sy_devices s) /\ Forall good_loop (sy_loops s).

  Lemma fan_device_usable path pc mn mx : fan_device path pc mn mx -> pc = true -> usable_range mn mx.
  Proof.
    intros (name & info & I & Ty & _ & -> & -> & ->) H. apply (Uf name); auto. apply Z.ltb_lt. exact H.
  Qed.
  Lemma fan_device_range path pc mn mx raw : fan_device path pc mn mx -> stored_ok pc mn mx raw ->
    exists name info, In (name, info) config /\ sc_type info = "fan" /\ drives sb info path /\ in_fan_range raw info.
  Proof.
    intros (name & info & I & Ty & Dr & -> & -> & ->) H. exists name, info.
    repeat (split; [assumption || reflexivity|]). unfold in_fan_range, stored_ok in *. destruct (Z.ltb_spec 0 (sc_max info)); lia.
  Qed.

  (** Built sensors. *)
  Lemma created_small n info p : In (n, info) config -> sc_type info = "fan" -> bus_path (sc_readPath info) ->
    createDbusPassive sf pow10 (sb_now sb n) (sc_type info) n (sb_replies sb n) info = Some p -> small_passive p.
  Proof.
    intros I Ty Bp H. destruct Ms as (M0 & M1).
    destruct (create_cases _ _ _ _ _ _ _ _ H) as (V & [(Mi & _)|(_ & i & St & Tr & _)]).
    - unfold createDbusPassive in H. rewrite V in H. cbn [negb] in H. unfold missing in Mi. unfold getService in H.
      assert (X : (if negb (HANDLE_MISSING_OBJECT_PATHS sf) then None
        else Some (initFromSettings pow10 (sb_now sb n) (MkProps 0 dnan d0 d0 false true) true
             (passive_new (sc_type info) n true
               (if String.eqb (sc_readPath info) "" then getSensorPath (sc_type info) n else sc_readPath info)))) = Some p).
      { destruct (br_service (sb_replies sb n)) as [[|o r]|]; try contradiction; exact H. }
      clear H. destruct (HANDLE_MISSING_OBJECT_PATHS sf); cbn [negb] in X; [|discriminate].
      injection X as <-. split.
      + unfold initFromSettings, setAvailableFromProperty, passive_new, updateValue. cbn.
        destruct (String.eqb (sc_type info) "margin"); exact M0.
      + intros F. exfalso. unfold initFromSettings, setAvailableFromProperty, passive_new, updateValue in F. cbn in F.
        destruct (String.eqb (sc_type info) "margin"); cbn in F; discriminate F.
    - destruct (M1 _ _ _ I Ty Bp St) as (A & B). split; [rewrite (tr_scale _ _ _ _ _ _ _ Tr); exact A|].
      rewrite (tr_unscaled _ _ _ _ _ _ _ Tr). cbn. apply modest_scaled; assumption.
  Qed.

  Lemma fan_info n info info' : In (n, info) config -> In (n, info') config -> info = info'.
  Proof.
    intros A B. clear - Nd A B. induction config as [|[k i] r IH]; [destruct A|]. cbn in Nd. inversion Nd as [|? ? N1 N2]; subst.
    destruct A as [A|A], B as [B|B].
    - congruence.
    - injection A as -> ->. exfalso. apply N1. apply in_map_iff. exists (n, info'). auto.
    - injection B as -> ->. exfalso. apply N1. apply in_map_iff. exists (n, info). auto.
    - auto.
  Qed.

  Lemma built_good m : buildSensors sf pow10 sb config = Ok m -> good_sensors m.
  Proof.
    intros B n x E. destruct (C60_lemma _ _ _ _ _ B Nd) as (_ & G). destruct (G _ _ E) as (info & I & K & S).
    split; [|split].
    - intros (info' & I' & Ty). assert (info' = info) by (eapply fan_info; eauto). subst info'.
      destruct x as [t r w i|t i h]; [eauto|destruct S; contradiction].
    - intros (info' & I' & Ty). assert (info' = info) by (eapply fan_info; eauto). subst info'.
      destruct x as [t [p red|q| |] w i|t i h]; try exact Logic.I. destruct S as (_ & _ & _ & (Bp & Cr & _) & _).
      eapply created_small; eauto.
    - assert (P : forall b : bool, (b = true <-> 0 < sc_max info) -> b = (0 <? sc_max info)).
      { intros b Hb. destruct (Z.ltb_spec 0 (sc_max info)); destruct b; auto; [apply Hb; assumption|]. exfalso. destruct Hb as (Hb & _). specialize (Hb eq_refl). lia. }
      destruct x as [t r [path d|path pc mn mx|] i|t i h]; try exact Logic.I; destruct S as (_ & _ & _ & _ & W).
      + destruct W as (Ty & Wo & -> & _ & Pc & Mn & Mx & _). exists n, info. unfold drives. auto 9.
      + destruct W as (Ty & Wo & Rs & Pc & -> & ->). exists n, info. unfold drives. auto 9.
  Qed.

  (** What a poll shows. *)
  Lemma view_small s files now fans : good_sensors (sy_sensors s) -> (forall p, modest_file (files p)) ->
    (forall n, In n fans -> writable config n) -> modest_speeds fans (view_env s files now).
  Proof.
    intros G Mf W n v I E. cbn [view_env pe_sensor] in E. destruct (mget n (sy_sensors s)) as [x|] eqn:Ex; [|discriminate].
    destruct (G _ _ Ex) as (K1 & K2 & _). assert (Wn := W _ I). destruct (K1 Wn) as (t & r & w & i & ->).
    assert (Sr := K2 Wn). cbn [sensor_poll] in E.
    destruct r as [p red|q| |]; cbn [reader_read bind] in E; try discriminate.
    - injection E as <-. cbn. apply Sr.
    - unfold sysfs_read in E. assert (Mq := Mf q). destruct (files q); cbn [bind] in E; try discriminate.
      injection E as <-. cbn. intros _. apply bnd_mag; [lia|]. apply (bnd_weaken 53); [lia|]. apply bnd_D; [exact Mq|lia].
  Qed.

  Lemma good_calm m v : good_sensors m -> unit_command v -> calm (sensors_write_env m) v.
  Proof.
    intros G U n g b E. unfold sensors_write_env in E. destruct (mget n m) as [x|] eqn:Ex; [|discriminate].
    cbn in E. injection E as <-. destruct (G _ _ Ex) as (_ & _ & W).
    destruct x as [t r [path d|path pc mn mx|] i|t i h]; cbn [sensor_write]; try discriminate.
    - destruct (dbus_unit d v b true (fan_device_usable _ _ _ _ W) U) as (raw & _ & ->). discriminate.
    - destruct (sysfs_unit pc mn mx v true None (fan_device_usable _ _ _ _ W) U) as (raw & _ & ->). discriminate.
  Qed.

  (** Carrying out a write. *)
  Lemma good_write ok k s n v b : good s -> unit_command v ->
    exists k' s', apply_write ok (k, s) (n, v, b) = Ok (k', s') /\ good s'.
  Proof.
    intros (G & Dv & L) U. unfold apply_write. destruct (mget n (sy_sensors s)) as [x|] eqn:Ex.
    2: { do 2 eexists. split; [reflexivity|]. (split; [|split]); assumption. }
    assert (Gx := G _ _ Ex).
    destruct x as [t r [path d|path pc mn mx|] i|t i h];
      try (do 2 eexists; split; [reflexivity|]; (split; [|split]); assumption).
    - destruct (dbus_unit d v b (ok k) (fan_device_usable _ _ _ _ (proj2 (proj2 Gx))) U) as (raw & So & ->).
      cbn [bind fst]. do 2 eexists. split; [reflexivity|].
      match goal with |- good (match ?o with _ => _ end) => set (snt := o) end.
      set (d' := MkDbusWriter (dw_percent d) (dw_min d) (dw_max d) raw _) in *.
      assert (Gs : good_sensors (mset n (Pluggable t r (WDbus path d') i) (sy_sensors s))).
      { intros n' x' E'. rewrite mget_mset in E'. destruct (String.eqb_spec n' n) as [-> |_]; [|apply G; exact E'].
        injection E' as <-. destruct Gx as (A & B & C). split; [intros _; eauto|]. split; [exact B|exact C]. }
      destruct snt as [raw'|] eqn:Es; (split; [exact Gs|split; [|exact L]]); [|exact Dv].
      assert (raw' = raw).
      { unfold snt, sent, d' in Es. cbn [dw_calls] in Es.
        destruct (negb (raw =? dw_oldValue d) || b); cbn [app] in Es.
        - destruct (_ <? _)%nat; [|discriminate]. destruct (ok k); [congruence|discriminate].
        - rewrite Nat.ltb_irrefl in Es. discriminate. }
      subst raw'. intros path' v' E'. cbn [sy_devices set_devices set_sensors] in E'. rewrite mget_mset in E'.
      destruct (String.eqb_spec path' path) as [-> |_]; [|apply Dv; exact E'].
      injection E' as <-. right. eapply fan_device_range; [apply Gx|exact So].
    - destruct (sysfs_unit pc mn mx v (ok k) (mget path (sy_devices s)) (fan_device_usable _ _ _ _ (proj2 (proj2 Gx))) U)
        as (raw & So & ->).
      cbn [bind]. do 2 eexists. split; [reflexivity|].
      assert (Q : forall d', mget path (sy_devices s) = Some d' \/ d' = raw ->
        good (set_devices (mset path d' (sy_devices s)) s)).
      { intros d' Hd. split; [exact G|]. split; [|exact L]. intros path' v' E'. cbn [sy_devices set_devices] in E'.
        rewrite mget_mset in E'. destruct (String.eqb_spec path' path) as [-> |_]; [|apply Dv; exact E'].
        injection E' as <-. destruct Hd as [Hd| ->]; [apply Dv; exact Hd|]. right. eapply fan_device_range; [apply Gx|exact So]. }
      destruct (ok k); [apply Q; auto|]. destruct (mget path (sy_devices s)) as [d'|] eqn:Ed; [apply Q; auto|].
      (split; [|split]); assumption.
  Qed.

  Lemma good_writes ok ws : (forall n v b, In (n, v, b) ws -> unit_command v) ->
    forall k s, good s -> exists ks, foldM (apply_write ok) ws (k, s) = Ok ks /\ good (snd ks).
  Proof.
    induction ws as [|[[n v] b] r IH]; intros U k s G; cbn [foldM]; [eexists; split; [reflexivity|exact G]|].
    destruct (good_write ok k s n v b G) as (k' & s' & -> & G'); [eapply U; left; reflexivity|].
    cbn [bind]. apply IH; [|exact G']. intros. eapply U. right. eauto.
  Qed.

  Lemma new_writes_in z z' n v b : In (n, v, b) (new_writes z z') -> In (n, v, b) (writes_in (z_trace z')).
  Proof.
    unfold new_writes, writes_in. intros I. apply in_flat_map in I. destruct I as (e & I & J).
    apply in_flat_map. exists e. split; [|exact J]. rewrite <- in_rev in *.
    rewrite <- (firstn_skipn (List.length (z_trace z') - List.length (z_trace z)) (z_trace z')). apply in_or_app. left. exact I.
  Qed.

  (** Signals. *)
  Lemma handle_small p m p' : small_passive p -> modest_message m -> handleSensorValue sf pow10 p m = Ok p' -> small_passive p'.
  Proof.
    intros (A & B) Mm H.
    assert (Up : forall now v force q, p_scale q = p_scale p -> p_unscaled q = p_unscaled p -> (dfinite v -> mag_le 100 v) ->
      small_passive (updateValue pow10 now v force q)).
    { intros now v force q Eq Eu Hv. unfold updateValue. cbv zeta.
      assert (Q : forall x, p_scale (if negb (disfinite v) then pset_badReading true x else x) = p_scale x /\
                 p_unscaled (if negb (disfinite v) then pset_badReading true x else x) = p_unscaled x)
        by (intros x; destruct (negb (disfinite v)); split; reflexivity).
      destruct (Q (pset_badReading false q)) as (Q1 & Q2). cbn [pset_badReading p_scale p_unscaled] in Q1, Q2.
      destruct (negb (disfinite v) && negb force).
      - split; [rewrite Q1, Eq; exact A|rewrite Q2, Eu; exact B].
      - match goal with |- context [p_typeMargin ?y] => set (s1 := y) in * end.
        destruct (p_typeMargin s1); (split; [cbn; rewrite Q1, Eq; exact A|cbn; rewrite Q1, Eq; apply modest_scaled; assumption]). }
    unfold handleSensorValue in H.
    destruct (String.eqb (m_intf m) value_intf) eqn:E1.
    { destruct (mget "Value" (m_props m)) as [v|] eqn:E; [|injection H as <-; split; assumption].
      apply bind_ok in H. destruct H as (d & Hd & H). injection H as <-. apply Up; auto.
      intros Fd. apply (Mm v d); auto. unfold says. rewrite E1. exact E. }
    destruct (String.eqb (m_intf m) critical_intf).
    { destruct (mget "CriticalAlarmLow" (m_props m)), (mget "CriticalAlarmHigh" (m_props m));
        try (injection H as <-; split; assumption);
        apply bind_ok in H; destruct H as (a & _ & H); apply bind_ok in H; destruct H as (a' & _ & H);
        injection H as <-; split; assumption. }
    destruct (UNC_FAILSAFE sf && String.eqb (m_intf m) warning_intf).
    { destruct (mget "WarningAlarmHigh" (m_props m)); [|injection H as <-; split; assumption].
      apply bind_ok in H; destruct H as (a & _ & H); injection H as <-; split; assumption. }
    destruct (String.eqb (m_intf m) available_intf).
    { destruct (mget "Available" (m_props m)); [|injection H as <-; split; assumption].
      apply bind_ok in H; destruct H as (a & _ & H). injection H as <-. destruct a; [split; assumption|].
      apply Up; auto. intros X. discriminate X. }
    destruct (String.eqb (m_intf m) functional_intf).
    { destruct (mget "Functional" (m_props m)); [|injection H as <-; split; assumption].
      apply bind_ok in H; destruct H as (a & _ & H); injection H as <-; split; assumption. }
    injection H as <-. split; assumption.
  Qed.

  Lemma signal_good path m l l' : modest_message m -> good_sensors l -> signal_all sf pow10 path m l = Ok l' -> good_sensors l'.
  Proof.
    intros Mm G H n x' E. assert (S := signal_all_get sf pow10 path m n l l' H).
    destruct (mget n l) as [x|] eqn:Ex; [|congruence]. destruct S as (x1 & E1 & S). assert (x1 = x') by congruence. subst x1.
    assert (Gx := G _ _ Ex). unfold sensor_signal in S.
    destruct x as [t [p red|q| |] w i|t i h]; try (injection S as <-; exact Gx).
    destruct (String.eqb (p_path p) path); [|injection S as <-; exact Gx].
    apply bind_ok in S. destruct S as (p' & Hp & S). injection S as <-. destruct Gx as (A & B & C).
    split; [intros _; eauto|]. split; [|exact C]. intros W. cbn in *. eapply handle_small; eauto.
  Qed.

  Lemma host_good n v m : good_sensors m -> good_sensors (host_write n v m).
  Proof.
    intros G. unfold host_write. destruct (mget n m) as [[t r w i|t i h]|] eqn:E; try exact G.
    intros n' x' E'. rewrite mget_mset in E'. destruct (String.eqb_spec n' n) as [-> |_]; [|apply G; exact E'].
    injection E' as <-. destruct (G _ _ E) as (A & B & C). split; [|split; exact (fun _ => Logic.I) || exact Logic.I].
    intros W. destruct (A W) as (? & ? & ? & ? & K). discriminate K.
  Qed.

  (** One step. *)
  Lemma zone_start_ok st z : In (st, z) zs -> start_ok z /\ forall n, In n (z_fanInputs z) -> writable config n.
  Proof.
    intros I. apply In_nth_error in I. destruct I as (i & I).
    destruct (zone_source _ _ _ _ Bf _ _ _ I) as (built & id & pids & B & J & Jz). destruct Bf as (Nz & _).
    destruct (proj2 (C49_structure _ _ _ _ B) Nz _ _ _ J Jz) as (c & Zc & Z). split.
    - eapply built_start_ok; eauto.
    - intros n Hn. destruct (Ps _ _ J) as (_ & _ & _ & P4). apply P4. apply listed_of.
      rewrite (zo_fanInputs _ _ _ _ Z) in Hn. exact Hn.
  Qed.

  Lemma good_start m s0 : buildSensors sf pow10 sb config = Ok m ->
    sys_start f m failures (host_initial first) devices zs = Ok s0 -> good s0.
  Proof.
    intros B St. apply built_good in B.
    assert (Zs := zone_start_ok). unfold sys_start in St.
    assert (G0 : good (Sys m failures (host_initial first) [] devices)).
    { split; [exact B|]. split; [intros p v E; left; exact E|constructor]. }
    revert G0 St. generalize (Sys m failures (host_initial first) [] devices). clear Bf B.
    revert Sb Zs. induction zs as [|[st z] r IH]; intros Sb' Zs s G St; cbn [foldM] in St; [injection St as <-; exact G|].
    apply Forall_cons_iff in Sb'. destruct Sb' as ((Mf & It) & Sb'). cbn [fst] in Mf, It.
    apply bind_ok in St. destruct St as (s1 & H1 & H2). destruct (Zs st z (or_introl eq_refl)) as (So & Wz).
    apply (IH Sb') with (s := s1); [intros; eapply Zs; right; eauto| |exact H2].
    unfold start_zone in H1. apply bind_ok in H1. destruct H1 as ([] & _ & H1). apply bind_ok in H1. destruct H1 as (l & Hl & H1).
    injection H1 as <-. destruct G as (G1 & G2 & G3). split; [exact G1|]. split; [exact G2|].
    apply Forall_app. split; [exact G3|]. constructor; [|constructor]. split.
    - eapply full_start; [exact So| |exact It|exact Hl]. apply view_small; assumption.
    - assert (C := proj1 (loop_start_frame _ _ _ _ _ _ Hl)).
      assert (Q : z_fanInputs (l_zone l) = z_fanInputs z) by (use_conf C; reflexivity). rewrite Q. exact Wz.
  Qed.

  Lemma loop_step_good ev l l' : good_loop l -> sensible_event (z_fanInputs (l_zone l)) ev -> loop_step f l ev = Ok l' -> good_loop l'.
  Proof.
    intros (F & W) Se H. split; [eapply full_step; eauto|].
    assert (C := proj1 (loop_step_conf _ _ _ _ H)).
    assert (Q : z_fanInputs (l_zone l') = z_fanInputs (l_zone l)) by (use_conf C; reflexivity). rewrite Q. exact W.
  Qed.

  Lemma update_good ev i ls ls' : Forall good_loop ls ->
    (forall l, nth_error ls i = Some l -> sensible_event (z_fanInputs (l_zone l)) ev) ->
    update_nth i (fun l => loop_step f l ev) ls = Ok ls' -> Forall good_loop ls'.
  Proof.
    intros G Se H. apply update_nth_spec in H. destruct H as (Ln & B & C).
    rewrite Forall_forall in *. intros l' I. apply In_nth_error in I. destruct I as (j & E).
    destruct (Nat.eq_dec j i) as [-> |N].
    - destruct (nth_error ls i) as [l|] eqn:El.
      + destruct (C _ eq_refl) as (l1 & E1 & H1). assert (l1 = l') by congruence. subst l1.
        eapply loop_step_good; [apply G; eapply nth_error_In; eauto|apply Se; reflexivity|exact H1].
      + apply nth_error_None in El. assert (nth_error ls' i <> None) by congruence. apply nth_error_Some in H. lia.
    - rewrite (B _ N) in E. apply G. eapply nth_error_In; eauto.
  Qed.

  Lemma good_keep s e s' : good s -> sensible_news e -> sys_step f sf pow10 s e = Ok s' -> good s'.
  Proof.
    intros (G1 & G2 & G3) Sn H.
    destruct e as [path m|n' v t|m|c|i w|i b|i p b]; cbn [sys_step] in H.
    - apply bind_ok in H. destruct H as (l & E & H). injection H as <-.
      split; [|split; assumption]. eapply signal_good; eauto.
    - injection H as <-. split; [apply host_good; exact G1|]. split; assumption.
    - apply bind_ok in H. destruct H as (l & E & H). injection H as <-. split; [|split]; assumption.
    - injection H as <-. split; [|split]; assumption.
    - apply tick_split in H. destruct H as [(_ & ->)|(l & l' & ls & k' & El & Hl & El' & Ej & Hw & _)].
      { split; [|split]; assumption. }
      assert (Gl : good_loop l) by (rewrite Forall_forall in G3; apply G3; eapply nth_error_In; eauto).
      destruct Sn as (N1 & N2 & N3).
      assert (Sv : sensible_event (z_fanInputs (l_zone l)) (LTick (tick_of s w))).
      { split; [|split; [|exact N3]]; apply view_small; try assumption; apply Gl. }
      assert (Gl' := loop_step_good _ _ _ Gl Sv Hl).
      destruct (good_writes (wk_write_ok w) (new_writes (l_zone l) (l_zone l'))) with (k := O) (s := set_loops ls s) as (ks & E & Gk).
      + intros n v b I. apply new_writes_in in I. destruct Gl' as ((_ & _ & _ & Uw) & _). eapply Uw; eauto.
      + split; [exact G1|]. split; [exact G2|]. cbn [sy_loops set_loops]. rewrite Forall_forall in *. intros x I.
        apply In_nth_error in I. destruct I as (j & E). destruct (Nat.eq_dec j i) as [-> |N]; [congruence|].
        rewrite (Ej _ N) in E. apply G3. eapply nth_error_In; eauto.
      + rewrite Hw in E. injection E as <-. exact Gk.
    - apply bind_ok in H. destruct H as (ls & U & H). injection H as <-. split; [exact G1|]. split; [exact G2|].
      eapply (update_good (LManual b)); [exact G3| |exact U]. intros; exact Logic.I.
    - apply bind_ok in H. destruct H as (ls & U & H). injection H as <-. split; [exact G1|]. split; [exact G2|].
      eapply (update_good (LEnable p b)); [exact G3| |exact U]. intros; exact Logic.I.
  Qed.

  Lemma good_runs evs s : runs f sf pow10 sb config failures first devices zs evs s -> Forall sensible_news evs -> good s.
  Proof.
    intros [_ _ (m & s0 & B & St & R)] Sn. assert (G := good_start _ _ B St). clear St B.
    revert s0 G R. unfold sys_run. induction evs as [|e r IH]; intros s0 G R; cbn [foldM] in R; [injection R as <-; exact G|].
    apply Forall_cons_iff in Sn. destruct Sn as (S1 & S2). apply bind_ok in R. destruct R as (s1 & H1 & H2).
    apply (IH S2 s1); [|exact H2]. eapply good_keep; eauto.
  Qed.

  (** The wake-up of a zone returns. *)
  Lemma tick_returns evs s i w : runs f sf pow10 sb config failures first devices zs evs s -> good s ->
    served f sb config (STick i w) -> sensible_news (STick i w) -> exists s', sys_tick f i w s = Ok s'.
  Proof.
    intros R (G1 & G2 & G3) Se (N1 & N2 & N3).
    destruct (nth_error (sy_loops s) i) as [l|] eqn:El.
    2: { unfold sys_tick. rewrite El. eexists. reflexivity. }
    destruct (tick_parts f sf pow10 sb config failures first devices zs bus_ok zp confs Bf Ps _ _ _ _ _ R El Se) as (Ck & l' & Sl).
    assert (Gl : good_loop l) by (rewrite Forall_forall in G3; apply G3; eapply nth_error_In; eauto).
    assert (Sv : sensible_event (z_fanInputs (l_zone l)) (LTick (tick_of s w))).
    { split; [|split; [|exact N3]]; apply view_small; try assumption; apply Gl. }
    assert (Ag : loop_step f l (LTick (tick_of s w)) = Ok l').
    { rewrite tick_agree; [exact Sl|apply Gl|exact Sv|]. intros v U. apply good_calm; assumption. }
    assert (Gl' := loop_step_good _ _ _ Gl Sv Ag).
    unfold sys_tick. rewrite El. cbv zeta. rewrite Ck. cbn [bind].
    assert (U : exists ls, update_nth i (fun l => loop_step f l (LTick (tick_of s w))) (sy_loops s) = Ok ls).
    { revert El Ag. generalize (sy_loops s) as ls0, (tick_of s w). clear. intros ls0 e. revert i.
      induction ls0 as [|a r IH]; intros [|i] E A; cbn [nth_error update_nth] in E |- *; try discriminate.
      - injection E as ->. rewrite A. cbn [bind]. eauto.
      - destruct (IH _ E A) as (ls & ->). cbn [bind]. eauto. }
    destruct U as (ls & U). rewrite U. cbn [bind].
    assert (Gls := update_good (LTick (tick_of s w)) i _ _ G3 (fun x Ex => ltac:(assert (x = l) by congruence; subst x; exact Sv)) U).
    apply update_nth_spec in U. destruct U as (_ & _ & U). destruct (U _ El) as (l1 & El2 & H1).
    assert (l1 = l') by congruence. subst l1. rewrite El2.
    destruct (good_writes (wk_write_ok w) (new_writes (l_zone l) (l_zone l'))) with (k := O) (s := set_loops ls s) as (ks & -> & Gk).
    - intros n v b I. apply new_writes_in in I. destruct Gl' as ((_ & _ & _ & Uw) & _). eapply Uw; eauto.
    - split; [|split]; assumption.
    - cbn [bind]. eexists. reflexivity.
  Qed.

  Lemma update_total {A : Type} i (g : A -> A) l : exists l', update_nth i (fun x => Ok (g x)) l = Ok l'.
  Proof.
    revert i. induction l as [|a r IH]; intros [|i]; cbn; eauto. destruct (IH i) as (l' & ->). cbn. eauto.
  Qed.

  Lemma step_returns evs s e : runs f sf pow10 sb config failures first devices zs evs s -> good s ->
    served f sb config e -> sensible_news e -> exists s', sys_step f sf pow10 s e = Ok s'.
  Proof.
    intros R G Se Sn. destruct e as [path m|n' v t|m|c|i w|i b|i p b]; cbn [sys_step].
    - destruct (signal_all_ok sf pow10 path m (sy_sensors s) Se) as (l & ->). cbn. eauto.
    - eauto.
    - cbn in Se. unfold handleRedundancy. destruct (rm_status m); [|congruence|destruct (rm_collection m)]; cbn; eauto.
    - eauto.
    - eapply tick_returns; eauto.
    - cbn [loop_step]. destruct (update_total i (fun l => with_zone (setManualMode b (l_zone l)) l) (sy_loops s)) as (ls & E).
      rewrite E. cbn. eauto.
    - cbn [loop_step]. destruct (update_total i (fun l => with_zone (setProcessEnabled p b (l_zone l)) l) (sy_loops s)) as (ls & E).
      rewrite E. cbn. eauto.
  Qed.

  Lemma C80_some evs s more : runs f sf pow10 sb config failures first devices zs evs s ->
    Forall sensible_news evs -> Forall (served f sb config) more -> Forall sensible_news more ->
    exists s', sys_run f sf pow10 more s = Ok s'.
  Proof.
    intros R Sn. assert (G := good_runs _ _ R Sn). clear Sn. revert evs s R G. unfold sys_run.
    induction more as [|e r IH]; intros evs s R G F N; cbn [foldM]; [eauto|].
    apply Forall_cons_iff in F. destruct F as (F1 & F2). apply Forall_cons_iff in N. destruct N as (N1 & N2).
    destruct (step_returns _ _ _ R G F1 N1) as (s1 & H1). rewrite H1. cbn [bind].
    apply (IH (evs ++ [e])%list); [|eapply good_keep; eauto|exact F2|exact N2]. eapply runs_more; [exact R|].
    unfold sys_run. cbn [foldM]. rewrite H1. reflexivity.
  Qed.

  Lemma C80_devices_some evs s : runs f sf pow10 sb config failures first devices zs evs s ->
    Forall sensible_news evs -> devices_in_range sb config devices (sy_devices s).
  Proof. intros R Sn. destruct (good_runs _ _ R Sn) as (_ & D & _). exact D. Qed.
End Run.

Lemma C80_lemma f sf pow10 sb config failures first devices zs bus_ok zp confs :
  NoDup (map fst config) -> built_from bus_ok zp confs zs -> (forall id pids, In (id, pids) zp -> pids_served config pids) ->
  sensible_setup sf pow10 sb config zp confs -> Forall (fun e => sensible_begin (fst e)) zs ->
  forall evs s more, runs f sf pow10 sb config failures first devices zs evs s ->
    Forall sensible_news evs -> Forall (served f sb config) more -> Forall sensible_news more ->
    exists s', sys_run f sf pow10 more s = Ok s'.
Proof. intros Nd Bf Ps Su Sb. exact (C80_some _ _ _ _ _ _ _ _ _ _ _ _ Nd (built_some_all _ _ _ _ Bf) Ps Su Sb). Qed.
Lemma C80_devices_lemma f sf pow10 sb config failures first devices zs bus_ok zp confs :
  NoDup (map fst config) -> built_from bus_ok zp confs zs -> (forall id pids, In (id, pids) zp -> pids_served config pids) ->
  sensible_setup sf pow10 sb config zp confs -> Forall (fun e => sensible_begin (fst e)) zs ->
  forall evs s, runs f sf pow10 sb config failures first devices zs evs s ->
    Forall sensible_news evs -> devices_in_range sb config devices (sy_devices s).
Proof. intros Nd Bf Ps Su Sb. exact (C80_devices_some _ _ _ _ _ _ _ _ _ _ _ _ Nd (built_some_all _ _ _ _ Bf) Ps Su Sb). Qed.
