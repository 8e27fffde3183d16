(** * When a sensor can be set up (C60; proofs only). *)
From Coq Require Import ZArith Bool List String.
From Verif Require Import Base BaseFacts Dbl ConfigModel SensorModel SpecSensor SensorProofs WriteModel SpecWrite SystemModel
  SpecSystem SystemProofs SpecSetup.
Import ListNotations.
Local Open Scope string_scope.

Lemma valid_known type : validType type = true <-> known_type type.
Proof.
  unfold validType, known_type. rewrite smem_In. cbn. intuition congruence.
Qed.

Lemma flag_fits key (m : smap dvalue) :
  (exists b, match mget key m with Some v => get_bool v | None => Ok false end = Ok b) <-> if_present is_flag key m.
Proof.
  unfold if_present, is_flag. destruct (mget key m) as [v|].
  - split.
    + intros (b & H) v' E. injection E as <-. destruct v; try discriminate. eauto.
    + intros H. destruct (H v eq_refl) as (b & ->). eexists. reflexivity.
  - split; [discriminate|]. intros _. eexists. reflexivity.
Qed.

Lemma props_fit b : (exists p, getProperties b = Ok p) <-> values_fit b.
Proof.
  unfold getProperties, values_fit. destruct (br_value b) as [m|].
  2: { split; [intros (p & H); discriminate|intros (p & H & _); discriminate]. }
  unfold if_present, is_text, is_integer, is_number, is_text. split.
  - intros (p & H). exists m. split; [reflexivity|].
    apply bind_ok in H. destruct H as ([] & H1 & H). apply bind_ok in H. destruct H as (sc & H2 & H).
    apply bind_ok in H. destruct H as (mx & H3 & H). apply bind_ok in H. destruct H as (mn & H4 & H).
    apply bind_ok in H. destruct H as (va & H5 & _).
    split; [intros v E; rewrite E in H1; destruct v; try discriminate; eauto|].
    split; [intros v E; rewrite E in H2; destruct v; try discriminate; eauto|].
    split; [intros v E (s & ->); rewrite E in H3; discriminate|].
    split; [intros v E (s & ->); rewrite E in H4; discriminate|].
    intros v E (s & ->); rewrite E in H5; discriminate.
  - intros (p & E & H1 & H2 & H3 & H4 & H5). injection E as <-.
    assert (N : forall k, (forall v, mget k m = Some v -> ~ exists s, v = VStr s) ->
              exists d, match mget k m with Some v => to_double v | None => Ok d0 end = Ok d).
    { intros k K. destruct (mget k m) as [v|]; [|eexists; reflexivity].
      destruct v; try (eexists; reflexivity). exfalso. eapply K; [reflexivity|]. eauto. }
    destruct (N _ H3) as (mx & ->), (N _ H4) as (mn & ->), (N _ H5) as (va & ->).
    destruct (mget "Unit" m) as [u|]; [destruct (H1 u eq_refl) as (s & ->)|];
      (destruct (mget "Scale" m) as [z|]; [destruct (H2 z eq_refl) as (n & ->)|]); eexists; reflexivity.
Qed.

Lemma alarms_fit_iff sf b : (exists a, thresholdsAsserted sf b = Ok a) <-> alarms_fit sf b.
Proof.
  assert (W : (exists a, match br_warning b with None => Ok false
               | Some w => match mget "WarningAlarmHigh" w with Some v => get_bool v | None => Ok false end end = Ok a) <->
              (forall w, br_warning b = Some w -> if_present is_flag "WarningAlarmHigh" w)).
  { destruct (br_warning b) as [w|].
    - rewrite flag_fits. split; [intros H w' E; injection E as <-; exact H|intros H; apply H; reflexivity].
    - split; [discriminate|intros _; eexists; reflexivity]. }
  unfold thresholdsAsserted, alarms_fit, warning_fits. destruct (br_critical b) as [c|].
  - assert (L := flag_fits "CriticalAlarmLow" c). assert (H := flag_fits "CriticalAlarmHigh" c). unfold raised.
    split.
    + intros (a & E). split; [discriminate|]. intros c' X. injection X as <-.
      apply bind_ok in E. destruct E as (lo & E1 & E). apply bind_ok in E. destruct E as (hi & E2 & E).
      split; [apply L; eauto|]. destruct lo.
      * left. destruct (mget "CriticalAlarmLow" c) as [v|]; [|discriminate]. destruct v; try discriminate. cbn in E1. congruence.
      * right. split; [apply H; eauto|]. destruct hi.
        -- left. destruct (mget "CriticalAlarmHigh" c) as [v|]; [|discriminate]. destruct v; try discriminate. cbn in E2. congruence.
        -- right. intros U. rewrite U in E. cbn [andb negb] in E. apply W. eauto.
    + intros (_ & K). destruct (K c eq_refl) as (K1 & K2). apply L in K1. destruct K1 as (lo & E1). rewrite E1.
      cbn [bind]. destruct lo; [cbn [bind]; rewrite andb_false_r; eexists; reflexivity|].
      destruct K2 as [K2|(K2 & K3)]; [rewrite K2 in E1; discriminate|].
      apply H in K2. destruct K2 as (hi & E2). rewrite E2. cbn [bind].
      destruct hi; [rewrite andb_false_r; eexists; reflexivity|].
      destruct K3 as [K3|K3]; [rewrite K3 in E2; discriminate|].
      destruct (UNC_FAILSAFE sf); cbn [andb negb]; [apply W, K3; reflexivity|eexists; reflexivity].
  - destruct (UNC_FAILSAFE sf); cbn [negb].
    + rewrite W. split; [intros K; split; [intros _ _; exact K|discriminate]|intros (K & _); exact (K eq_refl eq_refl)].
    + split; [intros _; split; [intros _ X; discriminate|discriminate]|intros _; eexists; reflexivity].
Qed.

Lemma create_iff sf pow10 now type id b info :
  createDbusPassive sf pow10 now type id b info <> None <-> bus_sensor_fits sf b type.
Proof.
  unfold bus_sensor_fits. rewrite <- valid_known, <- props_fit, <- alarms_fit_iff.
  unfold createDbusPassive, missing, getService. destruct (validType type); cbn [negb].
  2: { split; [congruence|intros (X & _); discriminate]. }
  assert (A : forall x : passive, (if negb (HANDLE_MISSING_OBJECT_PATHS sf) then None else Some x) <> None <->
              HANDLE_MISSING_OBJECT_PATHS sf = true)
    by (intros x; destruct (HANDLE_MISSING_OBJECT_PATHS sf); cbn; split; congruence).
  destruct (br_service b) as [[|o r]|].
  - rewrite A. tauto.
  - destruct (getProperties b) as [p|e|e].
    + destruct (thresholdsAsserted sf b) as [a|e|e].
      * split; [intros _; split; [reflexivity|right; split; [tauto|split; eexists; reflexivity]]|].
        intros _. destruct (if sc_ignoreDbusMinMax info then _ else _). discriminate.
      * split; [congruence|intros (_ & [(X & _)|(_ & _ & a & X)]); [contradiction|discriminate]].
      * split; [congruence|intros (_ & [(X & _)|(_ & _ & a & X)]); [contradiction|discriminate]].
    + split; [congruence|intros (_ & [(X & _)|(_ & (a & X) & _)]); [contradiction|discriminate]].
    + split; [congruence|intros (_ & [(X & _)|(_ & (a & X) & _)]); [contradiction|discriminate]].
  - rewrite A. tauto.
Qed.

Lemma C60_setup_lemma sf pow10 sb config :
  (exists m, buildSensors sf pow10 sb config = Ok m) <->
  Forall (can_be_built sf sb) config /\ own_objects config.
Proof.
  rewrite C60_fails_lemma. assert (E : forall e, buildable_sensor sf pow10 sb e <-> can_be_built sf sb e).
  { intros [name info]. unfold buildable_sensor, can_be_built. rewrite create_iff. tauto. }
  rewrite !Forall_forall. split; intros (A & B); (split; [|exact B]); intros e I; apply E, A, I.
Qed.
