(** * Files behind sysfs paths with wildcards (C85). *)
From Coq Require Import ZArith Bool List String Lia.
From Verif Require Import Base BaseFacts Dbl ZoneModel LoopModel SpecZone LoopProofs SensorModel SpecSensor
  WriteModel SpecWrite PathProofs ConfigModel SystemModel SpecSystem SystemProofs SystemProofs2 SystemProofs3
  SystemProofs4.
Import ListNotations.
Local Open Scope string_scope.

Lemma C85_missing_lemma sf pow10 sb config name info p base rest :
  In (name, info) config ->
  (sysfs_path (sc_readPath info) /\ p = sc_readPath info \/
   sc_type info = "fan" /\ sysfs_out (sc_writePath info) /\ p = sc_writePath info) ->
  first_stars p base rest -> sb_dir sb base = None -> forall m, buildSensors sf pow10 sb config <> Ok m.
Proof.
  intros I P F D m B.
  assert (N : forall q, ~ resolves (sb_dir sb) p q).
  { intros q [(Y & _)|(b' & r' & F' & [(D' & _)|(n & o & d & D' & _)])].
    - apply Y. destruct F as (-> & _). exists base, rest. reflexivity.
    - destruct (first_stars_unique _ _ _ _ _ F F') as (<- & _). congruence.
    - destruct (first_stars_unique _ _ _ _ _ F F') as (<- & _). congruence. }
  assert (X := proj1 (C60_fails_lemma sf pow10 sb config) (ex_intro _ m B)).
  destruct X as (X & _). rewrite Forall_forall in X. destruct (X _ I) as (_ & X1 & _ & X2 & _).
  destruct P as [(P & ->)|(Ty & P & ->)].
  - destruct (X1 P) as (q & Q). exact (N _ Q).
  - destruct (X2 Ty P) as (q & Q). exact (N _ Q).
Qed.

Lemma C85_poll_lemma f sf pow10 sb config failures first devices zs name info path evs s :
  runs f sf pow10 sb config failures first devices zs evs s ->
  In (name, info) config -> known_type (sc_type info) -> sysfs_path (sc_readPath info) ->
  resolves (sb_dir sb) (sc_readPath info) path ->
  forall files files' now, files path = files' path ->
    pe_sensor (view_env s files now) name = pe_sensor (view_env s files' now) name.
Proof.
  intros R I K Sp Rs files files' now E.
  destruct (runs_sensor _ _ _ _ _ _ _ _ _ _ _ _ _ R I K) as (x0 & x & S0 & Ex & C & _).
  assert (N : ~ bus_path (sc_readPath info) /\ ~ external_path (sc_readPath info)).
  { unfold bus_path, external_path, sysfs_path in *. destruct Sp as (A & B & D). split; [tauto|].
    intros (_ & X). apply B. apply ext_contains. exact X. }
  destruct S0 as (_ & S0). destruct x0 as [t rd w i|t i h]; [|tauto].
  destruct S0 as (_ & -> & -> & Rd & _). destruct rd as [p0 red|q| |]; cbn in Rd; try tauto.
  destruct Rd as (_ & Rd). assert (q = path) as -> by (eapply resolves_unique; eassumption).
  cbn [core] in C. apply sysfs_core in C.
  destruct x as [t' r' w' i'|t' i' h']; cbn in C; [|discriminate]. injection C as -> -> _ ->.
  cbn [view_env pe_sensor]. rewrite Ex. cbn [sensor_poll reader_read]. rewrite E. reflexivity.
Qed.

Lemma C85_untouched_lemma f sf pow10 sb config failures first devices zs path evs : forall s,
  runs f sf pow10 sb config failures first devices zs evs s ->
  (forall name info, In (name, info) config -> sc_type info = "fan" -> ~ drives sb info path) ->
  mget path (sy_devices s) = mget path devices.
Proof.
  induction evs as [|e evs IH] using rev_ind; intros s [Nd Fr (m & s0 & B & St & R)] N.
  - injection R as <-. apply start_rest in St. cbn in St. destruct St as (_ & _ & _ & -> & _). reflexivity.
  - unfold sys_run in R. rewrite foldM_app in R. apply bind_ok in R. destruct R as (s1 & R & H).
    cbn [foldM] in H. apply bind_ok in H. destruct H as (s2 & H & X). injection X as <-.
    assert (R1 : runs f sf pow10 sb config failures first devices zs evs s1).
    { constructor; auto. exists m, s0. auto. }
    rewrite <- (IH _ R1 N).
    destruct e as [q mm|n' v t|mm|c|i w|i b|i p b]; try (f_equal; eapply C64_quiet_lemma; [exact H|discriminate]).
    cbn [sys_step] in H. apply tick_split in H.
    destruct H as [(_ & ->)|(l0 & l1 & ls & k' & E0 & Hl & E1 & _ & H & Es)]; [reflexivity|].
    destruct (mget path (sy_devices s2)) as [x|] eqn:X2, (mget path (sy_devices s1)) as [y|] eqn:X1;
      try reflexivity; [destruct (Z.eq_dec x y) as [->|Ne]; [reflexivity|]| |]; exfalso.
    all: destruct (writes_change _ path _ _ _ _ H) as (j & n & v & force & wr & raw & A1 & A2 & A3 & A4 & A5 & A6);
      [cbn [snd sy_devices set_loops]; congruence|].
    all: destruct (runs_writers _ _ _ _ _ _ _ _ _ _ _ _ _ _ R1 A3 A4) as (info & B1 & B2 & B3 & B4).
    all: exact (N _ _ B1 B2 B3).
Qed.

Lemma C85_which_lemma dir p :
  (forall q, FixupPath dir p = Ok q <-> resolves dir p q) /\
  (forall q q', resolves dir p q -> resolves dir p q' -> q = q') /\
  ((forall q, ~ resolves dir p q) <-> exists e, FixupPath dir p = Throw e).
Proof.
  split; [intros q; apply FixupPath_ok|]. split; [intros q q'; apply resolves_unique|]. split.
  - intros N. destruct (FixupPath_fails dir p) as [(q & Q)|F]; [destruct (N _ Q)|eauto].
  - intros (e & F) q Q. apply FixupPath_ok in Q. congruence.
Qed.

Lemma C85_order_lemma : exists dir dir' p q q',
  (forall d, match dir d, dir' d with
             | Some l, Some l' => forall n, In n l <-> In n l'
             | None, None => True
             | _, _ => False
             end) /\
  resolves dir p q /\ resolves dir' p q' /\ q <> q'.
Proof.
  exists (fun _ => Some ["hwmon0"; "hwmon1"]), (fun _ => Some ["hwmon1"; "hwmon0"]), "/sys/class/hwmon/**/pwm1",
    "/sys/class/hwmon/hwmon0/pwm1", "/sys/class/hwmon/hwmon1/pwm1".
  split; [intros d n; cbn; tauto|]. split; [apply FixupPath_ok; reflexivity|].
  split; [apply FixupPath_ok; reflexivity|discriminate].
Qed.

Lemma C85_empty_lemma : exists sf pow10 sb config m x,
  buildSensors sf pow10 sb config = Ok m /\ mget "t0" m = Some x /\
  (forall files, files "/sys/class/hwmon/**/temp1_input" = NoFile ->
     forall failures power now, sensor_poll failures power files now x = UB "uninitialised value").
Proof.
  exists (SFlags true false), (fun _ => d0),
    (SensorBus (fun _ => Replies None None None None None) (fun _ => false) (fun _ => 0%Z) (fun _ => Some []) (fun _ => true)),
    [("t0", MkSensorConfig "temp" "/sys/class/hwmon/**/temp1_input" "" 0 0 0 false true false)],
    [("t0", Pluggable 0 (RSysfs "/sys/class/hwmon/**/temp1_input") WReadOnlyNoExcept false)],
    (Pluggable 0 (RSysfs "/sys/class/hwmon/**/temp1_input") WReadOnlyNoExcept false).
  split; [reflexivity|]. split; [reflexivity|].
  intros files E failures power now. cbn [sensor_poll reader_read]. rewrite E. reflexivity.
Qed.

Lemma C85_same_lemma : exists sb (config : smap SensorConfig) n n' i i' path,
  In (n, i) config /\ In (n', i') config /\ n <> n' /\ sc_type i = "fan" /\ sc_type i' = "fan" /\
  sc_writePath i <> sc_writePath i' /\ drives sb i path /\ drives sb i' path.
Proof.
  pose (a := MkSensorConfig "fan" "None" "/sys/class/hwmon/**/pwm1" 0 255 0 false true false).
  pose (b := MkSensorConfig "fan" "None" "/sys/class/hwmon/hwmon3/pwm1" 0 255 0 false true false).
  exists (SensorBus (fun _ => Replies None None None None None) (fun _ => false) (fun _ => 0%Z)
            (fun _ => Some ["hwmon3"]) (fun _ => true)), [("fan0", a); ("fan1", b)], "fan0", "fan1", a, b,
    "/sys/class/hwmon/hwmon3/pwm1".
  split; [left; reflexivity|]. split; [right; left; reflexivity|]. split; [discriminate|].
  split; [reflexivity|]. split; [reflexivity|]. split; [discriminate|].
  split; right; (split; [split|apply FixupPath_ok; reflexivity]).
  1,3: intros [X|X]; discriminate X.
  all: apply contains_iff; [discriminate|reflexivity].
Qed.
