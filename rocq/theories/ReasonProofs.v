(** * The reason a poll gives (C61; proofs only). *)
From Coq Require Import ZArith Bool List String.
From Verif Require Import Base BaseFacts Dbl ZoneModel SpecZone ConfigModel SensorModel SpecSensor SensorProofs WriteModel
  SpecWrite SystemModel SpecSystem SystemProofs SystemProofs2.
Import ListNotations.
Local Open Scope string_scope.

Lemma C61_reason_lemma f sf pow10 sb config failures first devices zs evs s name info files now :
  runs f sf pow10 sb config failures first devices zs evs s ->
  In (name, info) config -> known_type (sc_type info) -> bus_path (sc_readPath info) ->
  exists v, pe_sensor (view_env s files now) name = Some v /\
    (missing (sb_replies sb name) -> sv_reason v = "Sensor D-Bus object missing") /\
    (forall i, ~ missing (sb_replies sb name) -> starts sf (sb_now sb name) (sb_replies sb name) info i ->
     let h := heard (sc_readPath info) evs in
     first_case
       [(is_bad i h, "Sensor reading bad");
        (sc_type info = "margin" /\ is_hot pow10 i h, "Margin hot");
        (is_alarmed (UNC_FAILSAFE sf) i h, "Sensor threshold asserted");
        (~ is_available i h, "Sensor unavailable");
        (~ is_functional h, "Sensor not functional")] "Unknown" (sv_reason v)).
Proof.
  intros R I K Bp. destruct (runs_passive _ _ _ _ _ _ _ _ _ _ _ _ _ R I K Bp) as (p0 & p & w & red & Cr & Pr & Red & Ex).
  cbn [view_env pe_sensor]. rewrite Ex. cbn [sensor_poll reader_read bind reader_getFailReason].
  eexists. split; [reflexivity|]. cbn [sv_reason].
  destruct (C29_texts_lemma _ _ _ _ _ _ _ _ _ _ None Cr Pr) as (A & B).
  split; [intros M; apply A, M|]. intros i NM St. exact (proj1 (B i NM St)).
Qed.

Definition no_object (x : sensor) : Prop :=
  match x with Pluggable _ (RPassive _ _) _ _ => False | _ => True end.

Lemma no_object_core sf pow10 n evs : forall x x',
  foldM (core_after sf pow10 n) evs x = Ok x' -> no_object x -> no_object x'.
Proof.
  induction evs as [|e r IH]; intros x x' H N; cbn [foldM] in H; [injection H as <-; exact N|].
  apply bind_ok in H. destruct H as (x1 & H1 & H2). apply (IH _ _ H2). clear IH H2.
  destruct e; cbn [core_after] in H1; try (injection H1 as <-; exact N).
  - destruct x as [t [p red|q| |] w i|t i h]; cbn in H1; try contradiction; injection H1 as <-; exact I.
  - injection H1 as <-. destruct (String.eqb n _); [|exact N]. destruct x; [exact N|exact I].
Qed.

Lemma C61_no_reason_lemma f sf pow10 sb config failures first devices zs evs s name info files now v :
  runs f sf pow10 sb config failures first devices zs evs s ->
  In (name, info) config -> known_type (sc_type info) -> ~ bus_path (sc_readPath info) ->
  pe_sensor (view_env s files now) name = Some v -> sv_reason v = "Unimplemented".
Proof.
  intros R Ic K Nb. destruct (runs_sensor _ _ _ _ _ _ _ _ _ _ _ _ _ R Ic K) as (x0 & x & S0 & Ex & C & _).
  assert (N0 : no_object (core x0)).
  { destruct S0 as (_ & S0). destruct x0 as [t0 r0 w0 i0|t0 i0 h0]; [|exact I].
    destruct S0 as (_ & _ & _ & Rd & _). destruct r0 as [p0 red0|q| |]; cbn in Rd |- *; tauto. }
  apply (no_object_core _ _ _ _ _ _ C) in N0.
  cbn [view_env pe_sensor]. rewrite Ex. destruct x as [t r w i|t i h].
  - cbn [sensor_poll]. destruct (reader_read files now r); cbn [bind]; try discriminate.
    intros E. injection E as <-. cbn [sv_reason]. destruct r; [contradiction|reflexivity..].
  - cbn. intros E. injection E as <-. reflexivity.
Qed.
