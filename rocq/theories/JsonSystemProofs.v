(** * From a JSON document to a running daemon. *)
From Coq Require Import ZArith Bool List String Permutation Sorting.Sorted Lia.
From Verif Require Import Base BaseFacts Dbl DblFacts PidModel ZoneModel LoopModel BuilderModel SpecBuilder BuilderProofs
  ConfigModel SensorModel WriteModel SystemModel SpecSystem SystemProofs SystemProofs2 SystemProofs3 SystemProofs4
  JsonModel SpecJson JsonProofs SpecJsonSystem.
Import ListNotations.
Local Open Scope string_scope.

Lemma smem_In k l : smem k l = true <-> In k l.
Proof.
  induction l as [|x r IH]; simpl; [split; [discriminate|tauto]|].
  destruct (String.eqb_spec k x) as [E|E]; [subst; tauto|]. rewrite IH. split; [auto|]. intros [H|H]; [congruence|exact H].
Qed.
Lemma in_order_z_get {V} (m : list (Z * V)) k v : in_order_z m -> In (k, v) m -> zget k m = Some v.
Proof.
  unfold in_order_z. induction m as [|[a b] r IH]; intros O I; [destruct I|].
  inversion O as [|? ? O1 F]; subst. simpl. destruct I as [E|I].
  - injection E as -> ->. rewrite Z.eqb_refl. reflexivity.
  - rewrite Forall_forall in F. specialize (F _ I). simpl in F.
    destruct (Z.eqb_spec k a); [lia|]. apply IH; assumption.
Qed.
Lemma in_order_z_nodup {V} (m : list (Z * V)) : in_order_z m -> NoDup (map fst m).
Proof.
  unfold in_order_z. induction 1 as [|[a b] r O IH F]; simpl; constructor; [|exact IH].
  intros I. apply in_map_iff in I. destruct I as ([a' b'] & E & I). simpl in E. subst.
  rewrite Forall_forall in F. specialize (F _ I). simpl in F. lia.
Qed.
Lemma in_order_nodup {V} (m : smap V) : in_order m -> NoDup (map fst m).
Proof.
  unfold in_order. induction 1 as [|[a b] r O IH F]; simpl; constructor; [|exact IH].
  intros I. apply in_map_iff in I. destruct I as ([a' b'] & E & I). simpl in E. subst.
  rewrite Forall_forall in F. specialize (F _ I). simpl in F. rewrite ltb_irrefl in F. discriminate.
Qed.
Lemma find_rev_in {A} (f : A -> bool) l x : find f (rev l) = Some x -> In x l /\ f x = true.
Proof. intros E. apply find_some in E. rewrite <- in_rev in E. exact E. Qed.

Lemma written_sensor m ss n info : sensors_as_written m ss -> In (n, info) m ->
  exists s, last_sensor n ss = Some s /\ In s ss /\ st_name s = n /\ info = sensor_of s.
Proof.
  intros [O G] I. pose proof (sorted_In_mget m n info O I) as E. rewrite G in E.
  destruct (last_sensor n ss) as [s|] eqn:L; [|discriminate]. cbn in E. injection E as <-.
  exists s. split; [reflexivity|]. apply find_rev_in in L. destruct L as [L1 L2].
  apply String.eqb_eq in L2. auto.
Qed.
Lemma written_pid m ps n info : pids_as_written m ps -> In (n, info) m ->
  exists p, In p ps /\ pt_name p = n /\ info = pid_of p.
Proof.
  intros [O G] I. pose proof (sorted_In_mget m n info O I) as E. rewrite G in E.
  destruct (last_pid n ps) as [s|] eqn:L; [|discriminate]. cbn in E. injection E as <-.
  exists s. apply find_rev_in in L. destruct L as [L1 L2]. apply String.eqb_eq in L2. auto.
Qed.
Lemma written_zone c ss zs id pids : as_written c ss zs -> In (id, pids) (l_pids c) ->
  exists z, In z zs /\ zt_id z = id /\ zget id (l_zones c) = Some (zone_conf_of z) /\ pids_as_written pids (zt_pids z).
Proof.
  intros (_ & O & _ & G) I. pose proof (in_order_z_get _ _ _ O I) as E. specialize (G id).
  destruct (last_zone id zs) as [z|] eqn:L; [|destruct G; congruence].
  apply find_rev_in in L. destruct L as [L1 L2]. apply Z.eqb_eq in L2.
  destruct G as (G1 & pids' & G2 & G3). rewrite E in G2. injection G2 as <-. exists z. auto.
Qed.

Lemma inputs_names names margins missing : map si_name (inputs_of names margins missing) = names.
Proof.
  unfold inputs_of. rewrite map_map. cbn [si_name].
  rewrite <- (map_map snd (fun x => x)), map_id. generalize 0. induction names as [|n r IH]; intros k; [reflexivity|].
  cbn. f_equal. apply IH.
Qed.
Lemma inputs_margin names margins missing i :
  In i (inputs_of names margins missing) -> si_convertTempToMargin i = true -> In (si_convertMarginZero i) margins.
Proof.
  unfold inputs_of. intros I T. apply in_map_iff in I. destruct I as ([k n] & <- & _). cbn -[Nat.ltb] in *.
  apply nth_In. apply Nat.ltb_lt. exact T.
Qed.
Lemma pid_of_type p : ci_type (pid_of p) = pt_type p.
Proof. reflexivity. Qed.
Lemma pid_of_names p : map si_name (ci_inputs (pid_of p)) = pt_inputs p.
Proof. apply inputs_names. Qed.
Lemma pid_of_inputs p : pt_inputs p <> [] -> ci_inputs (pid_of p) <> [].
Proof. intros N E. apply N. rewrite <- (pid_of_names p), E. reflexivity. Qed.
Lemma thermal_pid_type n p : is_thermal_pid (n, pid_of p) = true <-> thermal_type (pt_type p).
Proof. unfold is_thermal_pid, thermal_type. cbn [snd]. rewrite pid_of_type. apply smem_In. Qed.
Lemma fan_pid_type n p : is_fan_pid (n, pid_of p) = true <-> pt_type p = "fan".
Proof. unfold is_fan_pid. cbn [snd]. rewrite pid_of_type. apply String.eqb_eq. Qed.

Lemma served_config c ss zs : as_written c ss zs -> text_served ss zs ->
  forall id pids, In (id, pids) (l_pids c) -> pids_served (l_sensors c) pids.
Proof.
  intros W T id pids I. destruct (written_zone _ _ _ _ _ W I) as (z & Iz & Ez & _ & Wp).
  assert (R : forall n, text_readable ss n -> readable (l_sensors c) n).
  { intros n (s & L & K & P). exists (sensor_of s). split; [|auto].
    apply mget_In. destruct W as ((_ & G) & _). rewrite G, L. reflexivity. }
  assert (Fn : forall n, text_fan ss n -> writable (l_sensors c) n).
  { intros n (s & L & K). exists (sensor_of s). split; [|exact K].
    apply mget_In. destruct W as ((_ & G) & _). rewrite G, L. reflexivity. }
  assert (P : forall n info, In (n, info) pids -> exists p, In p (zt_pids z) /\ info = pid_of p /\ pid_text_served ss p).
  { intros n info Ip. destruct (written_pid _ _ _ _ Wp Ip) as (p & Hp & _ & Ep). exists p.
    split; [exact Hp|]. split; [exact Ep|]. apply (T z p Iz Hp). }
  split; [|split; [|split]].
  - intros [n info] Ip F. destruct (P _ _ Ip) as (p & Hp & -> & S1 & S2 & S3).
    apply fan_pid_type in F. cbn [snd]. apply pid_of_inputs. apply S1. auto.
  - intros [n info] i Ip F Ii C. destruct (P _ _ Ip) as (p & Hp & -> & S1 & S2 & S3). cbn [snd] in *.
    rewrite pid_of_type in F. specialize (S3 F). rewrite Forall_forall in S3.
    pose proof (inputs_margin _ _ _ _ Ii C) as M. apply in_map_iff in M. destruct M as (x & <- & Ix). apply S3, Ix.
  - intros n ([n' info] & Ip & F & In'). destruct (P _ _ Ip) as (p & Hp & -> & S1 & S2 & S3).
    apply thermal_pid_type in F. unfold names_of in In'. cbn [snd] in In'. rewrite pid_of_names in In'.
    apply R. apply S1; auto.
  - intros n ([n' info] & Ip & F & In'). destruct (P _ _ Ip) as (p & Hp & -> & S1 & S2 & S3).
    apply fan_pid_type in F. unfold names_of in In'. cbn [snd] in In'. rewrite pid_of_names in In'.
    split; [apply R; apply S1; auto|apply Fn; apply S2; auto].
Qed.

Lemma sensors_buildable sf pow10 sb bus_ok c ss zs : as_written c ss zs -> bus_serves sf pow10 sb bus_ok ss zs ->
  Forall (buildable_sensor sf pow10 sb) (l_sensors c) /\ own_objects (l_sensors c).
Proof.
  intros (W & Rest) (B & Ow & _). split.
  - apply Forall_forall. intros [n info] I.
    destruct (written_sensor _ _ _ _ W I) as (s & _ & Is & <- & ->). apply B. exact Is.
  - assert (Nd : NoDup (map fst (l_sensors c))) by (apply in_order_nodup; exact (proj1 W)).
    assert (G : forall l, (forall e, In e l -> In e (l_sensors c)) -> NoDup (map fst l) -> own_objects l); [|apply G; auto].
    induction l as [|[n info] r IH]; intros Sub N; [constructor|]. cbn [map fst] in N. inversion N as [|? ? N1 N2]; subst.
    constructor; [|apply IH; [intros e I; apply Sub; right; exact I|exact N2]].
    apply Forall_forall. intros [n' info'] I' X X' E. cbn [snd] in *.
    destruct (written_sensor _ _ _ _ W (Sub _ (or_introl eq_refl))) as (s & _ & Is & <- & ->).
    destruct (written_sensor _ _ _ _ W (Sub _ (or_intror I'))) as (s' & _ & Is' & <- & ->).
    apply N1. rewrite (Ow s s' Is Is' X X' E). apply in_map_iff. eexists. split; [|exact I']. reflexivity.
Qed.
Lemma zones_buildable sf pow10 sb bus_ok c ss zs : as_written c ss zs -> bus_serves sf pow10 sb bus_ok ss zs ->
  text_served ss zs ->
  forall e, In e (l_pids c) -> buildable bus_ok (l_zones c) e.
Proof.
  intros W (_ & _ & B) T [id pids] I. destruct (written_zone _ _ _ _ _ W I) as (z & Iz & <- & G & Wp).
  destruct (B z Iz) as [B1 B2]. split; [eexists; exact G|]. split; [exact B1|]. cbn [fst snd].
  intros [n info] Ip F. destruct (written_pid _ _ _ _ Wp Ip) as (p & Hp & <- & ->).
  apply thermal_pid_type in F. cbn [fst snd]. split; [|apply B2; assumption].
  apply pid_of_inputs. apply (T z p Iz Hp). auto.
Qed.

Theorem C68_lemma f sf pow10 sb bus_ok failures first devices j ss zs :
  doc_says j ss zs -> text_served ss zs -> bus_serves sf pow10 sb bus_ok ss zs ->
  exists c m built,
    load_json j = Ok c /\ buildSensors sf pow10 sb (l_sensors c) = Ok m /\
    buildZones bus_ok (l_pids c) (l_zones c) = Ok built /\ as_written c ss zs /\
    forall lz, Permutation (map snd lz) (map snd built) ->
      Forall (fun e => files_ok sb (l_sensors c) (st_files (fst e)) /\ tuning_readable f (st_tune (fst e))) lz ->
      exists s0, sys_start f m failures (host_initial first) devices lz = Ok s0 /\
        forall evs, Forall (served f sb (l_sensors c)) evs -> returns_or_bad_command (sys_run f sf pow10 evs s0).
Proof.
  intros D T B. destruct (C65_lemma _ _ _ D) as (c & E & W).
  destruct (proj2 (C60_fails_lemma sf pow10 sb (l_sensors c)) (sensors_buildable _ _ _ _ _ _ _ W B)) as (m & Em).
  destruct (proj2 (buildZones_returns bus_ok (l_zones c) (l_pids c)) (zones_buildable _ _ _ _ _ _ _ W B T)) as (built & Eb).
  exists c, m, built. split; [exact E|]. split; [exact Em|]. split; [exact Eb|]. split; [exact W|].
  intros lz L F.
  assert (N : NoDup (map fst (l_pids c))) by (apply in_order_z_nodup, W).
  assert (Nc : NoDup (map fst (l_sensors c))) by (apply in_order_nodup, W).
  assert (Bf : built_from bus_ok (l_pids c) (l_zones c) lz) by (split; [exact N|]; exists built; split; assumption).
  pose proof (served_config _ _ _ W T) as Sv.
  destruct (C63_start_lemma f sf pow10 sb (l_sensors c) failures first devices _ bus_ok (l_pids c) (l_zones c) Bf Sv m Nc Em)
    as (s0 & E0 & R0).
  { rewrite Forall_forall in *. intros [st z] I. exact (F (st, z) I). }
  exists s0. split; [exact E0|]. intros evs Fe.
  exact (C63_lemma f sf pow10 sb (l_sensors c) failures first devices _ bus_ok (l_pids c) (l_zones c) Bf Sv [] s0 evs R0 Fe).
Qed.
