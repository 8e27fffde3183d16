(** * Loading a JSON configuration gives what it says. *)
From Coq Require Import ZArith Bool List String Lia Sorting.Sorted FunctionalExtensionality.
From Verif Require Import Base BaseFacts Dbl PidModel ZoneModel BuilderModel ConfigModel SensorModel
  JsonModel SpecJson.
Import ListNotations.
Local Open Scope string_scope.

(** ** Keys *)

Lemma mget_notin {V} (m : smap V) k : ~ In k (map fst m) -> mget k m = None.
Proof.
  induction m as [|[a b] r IH]; simpl; intros N; [reflexivity|].
  destruct (String.eqb_spec k a) as [E|E]; [subst; tauto|]. apply IH. tauto.
Qed.
Lemma mget_in {V} (m : smap V) k v : NoDup (map fst m) -> In (k, v) m -> mget k m = Some v.
Proof.
  induction m as [|[a b] r IH]; simpl; intros N I; [tauto|].
  inversion N as [|? ? N1 N2]; subst. destruct I as [E|I].
  - injection E as -> ->. rewrite String.eqb_refl. reflexivity.
  - destruct (String.eqb_spec k a) as [E|E]; [|auto].
    subst. exfalso. apply N1. change a with (fst (a, v)). apply in_map. exact I.
Qed.
Lemma says_find j fs k o : keys_say j fs -> In (k, o) fs -> jfind k j = o.
Proof.
  intros (m & -> & N & F) I. rewrite Forall_forall in F. specialize (F _ I). cbn in F.
  destruct o as [v|]; cbn; [apply mget_in; assumption|apply mget_notin; exact F].
Qed.
Lemma says_at j fs k v : keys_say j fs -> In (k, Some v) fs -> jat k j = Ok v.
Proof.
  intros S I. pose proof (says_find _ _ _ _ S I) as E. destruct S as (m & -> & _).
  cbn in *. rewrite E. reflexivity.
Qed.
Lemma says_index j fs k v : keys_say j fs -> In (k, Some v) fs -> jindex k j = Ok v.
Proof.
  intros S I. pose proof (says_find _ _ _ _ S I) as E. destruct S as (m & -> & _).
  cbn in *. rewrite E. reflexivity.
Qed.
Lemma says_obj j fs : keys_say j fs -> exists m, j = JObj m.
Proof. intros (m & -> & _). eauto. Qed.

Ltac field := simpl; repeat (first [left; reflexivity | right]).
Ltac keys S :=
  repeat match goal with
  | |- context [jfind ?k ?j] =>
      let o := fresh "o" in let E := fresh "E" in
      evar (o : option json);
      assert (E : jfind k j = o) by (subst o; eapply says_find; [exact S|field]);
      subst o; rewrite E; clear E
  end.

(** ** Conversions *)

Lemma to_double_num x : json_to_double (num_json x) = Ok (num_val x).
Proof. destruct x as [n|d]; cbn; [unfold int_json; destruct (0 <=? n)%Z; reflexivity|reflexivity]. Qed.
Lemma to_signed_id bits n : (0 < bits)%Z -> (- 2 ^ (bits - 1) <= n < 2 ^ (bits - 1))%Z -> to_signed bits n = n.
Proof.
  intros B R. unfold to_signed.
  assert (E : (2 ^ bits = 2 * 2 ^ (bits - 1))%Z).
  { rewrite <- Z.pow_succ_r by lia. f_equal. lia. }
  rewrite Z.mod_small by lia. lia.
Qed.
Lemma to_int64_int n : int64 n -> json_to_int64 (int_json n) = Ok n.
Proof.
  intros R. unfold int_json. destruct (0 <=? n)%Z; cbn [json_to_int64]; rewrite to_signed_id; auto; lia.
Qed.
Lemma to_int_int n : int32 n -> json_to_int (int_json n) = Ok n.
Proof.
  intros R. unfold int_json. destruct (0 <=? n)%Z; cbn [json_to_int]; rewrite to_signed_id; auto; lia.
Qed.
Lemma to_uint64_int n : uint64 n -> json_to_uint64 (int_json n) = Ok n.
Proof.
  intros [R _]. unfold int_json. destruct (Z.leb_spec 0 n); [reflexivity|lia].
Qed.
Lemma mapM_map {A B C} (f : B -> outcome C) (g : A -> B) (h : A -> C) l :
  (forall x, In x l -> f (g x) = Ok (h x)) -> mapM f (map g l) = Ok (map h l).
Proof.
  induction l as [|x r IH]; intros E; cbn; [reflexivity|].
  rewrite E by (left; reflexivity). cbn. rewrite IH by (intros; apply E; right; assumption). reflexivity.
Qed.
Lemma to_strs l : json_to_vector json_to_string (strs_json l) = Ok l.
Proof.
  cbn. rewrite (mapM_map _ _ (fun s => s)) by reflexivity. rewrite map_id. reflexivity.
Qed.
Lemma to_nums l : json_to_vector json_to_double (nums_json l) = Ok (map num_val l).
Proof. cbn. apply mapM_map. intros x _. apply to_double_num. Qed.

Lemma get_or_map {A B} (f : json -> outcome B) (g : A -> json) (h : A -> B) d o :
  given (fun x => f (g x) = Ok (h x)) o -> get_or f d (option_map g o) = Ok (or_default d (option_map h o)).
Proof. destruct o; cbn; intros E; [exact E|reflexivity]. Qed.
Lemma get_num o : get_or json_to_double d0 (option_map num_json o) = Ok (num_or_zero o).
Proof. apply (get_or_map _ _ num_val). destruct o; cbn; [apply to_double_num|exact I]. Qed.
Lemma get_id {A} (f : json -> outcome A) (g : A -> json) d o :
  given (fun x => f (g x) = Ok x) o -> get_or f d (option_map g o) = Ok (or_default d o).
Proof. destruct o; cbn; intros E; [exact E|reflexivity]. Qed.
Lemma get_bool d o : get_or json_to_bool d (option_map JBool o) = Ok (or_default d o).
Proof. apply get_id. destruct o; cbn; reflexivity || exact I. Qed.
Lemma get_str d o : get_or json_to_string d (option_map JStr o) = Ok (or_default d o).
Proof. apply get_id. destruct o; cbn; reflexivity || exact I. Qed.
Lemma get_int64 d o : given int64 o -> get_or json_to_int64 d (option_map int_json o) = Ok (or_default d o).
Proof. intros R. apply get_id. destruct o; cbn in *; [apply to_int64_int; exact R|exact I]. Qed.
Lemma get_int d o : given int32 o -> get_or json_to_int d (option_map int_json o) = Ok (or_default d o).
Proof. intros R. apply get_id. destruct o; cbn in *; [apply to_int_int; exact R|exact I]. Qed.
Lemma get_strs d o : get_or (json_to_vector json_to_string) d (option_map strs_json o) = Ok (or_default d o).
Proof. apply get_id. destruct o; cbn -[json_to_vector]; [apply to_strs|exact I]. Qed.
Lemma get_nums o : get_or (json_to_vector json_to_double) [] (option_map nums_json o) =
  Ok (map num_val (or_default [] o)).
Proof. destruct o; cbn -[json_to_vector]; [apply to_nums|reflexivity]. Qed.

(** ** Sensors *)

Lemma at_to_says {A} (f : json -> outcome A) j fs k v :
  keys_say j fs -> In (k, Some v) fs -> at_to f k j = f v.
Proof. intros S I. unfold at_to. rewrite (says_at _ _ _ _ S I). reflexivity. Qed.

Ltac at_keys S :=
  repeat match goal with
  | |- context [at_to ?f ?k ?j] =>
      let v := fresh "v" in let E := fresh "E" in
      evar (v : json);
      assert (E : at_to f k j = f v) by (subst v; eapply at_to_says; [exact S|field]);
      subst v; rewrite E; clear E
  end.

Lemma fan_limit_says j s k o :
  jfind k j = option_map int_json o -> given int64 o ->
  fan_limit s k j = Ok (if String.eqb s "fan" then or_default 0%Z o else 0%Z).
Proof.
  intros E R. unfold fan_limit. rewrite E. destruct o as [n|]; cbn.
  - destruct (String.eqb s "fan"); [apply to_int64_int; exact R|reflexivity].
  - destruct (String.eqb s "fan"); reflexivity.
Qed.

Lemma sensor_loads j s : sensor_says j s -> from_json_SensorConfig j = Ok (sensor_of s).
Proof.
  intros (R1 & R2 & R3 & S). unfold from_json_SensorConfig. at_keys S. cbn [bind json_to_string].
  rewrite (fan_limit_says j _ "min" (st_min s)) by (exact R1 || (eapply says_find; [exact S|field])).
  rewrite (fan_limit_says j _ "max" (st_max s)) by (exact R2 || (eapply says_find; [exact S|field])).
  keys S. rewrite get_str, !get_bool, get_int64 by exact R3. reflexivity.
Qed.

(** ** Maps *)

Lemma find_app {A} (f : A -> bool) l1 l2 :
  find f (l1 ++ l2) = match find f l1 with Some x => Some x | None => find f l2 end.
Proof. induction l1 as [|x r IH]; cbn; [reflexivity|]. destruct (f x); [reflexivity|exact IH]. Qed.

Lemma foldM_smap {A B} (read : smap B -> json -> outcome (smap B)) (says1 : json -> A -> Prop)
    (name : A -> string) (val : A -> B) :
  (forall j a m, says1 j a -> read m j = Ok (mset (name a) (val a) m)) ->
  forall js l, Forall2 says1 js l -> forall m, in_order m ->
  exists m', foldM read js m = Ok m' /\ in_order m' /\
    forall k, mget k m' =
      match find (fun a => String.eqb k (name a)) (rev l) with Some a => Some (val a) | None => mget k m end.
Proof.
  intros R. induction 1 as [|j a js l Sj F IH]; intros m O; cbn.
  - exists m. auto.
  - rewrite (R _ _ _ Sj). cbn.
    destruct (IH _ (sorted_mset m (name a) (val a) O)) as (m' & E & O' & G).
    exists m'. split; [exact E|]. split; [exact O'|].
    intros k. rewrite G, find_app. destruct (find _ (rev l)) as [x|]; [reflexivity|].
    cbn. rewrite mget_mset. destruct (String.eqb k (name a)); reflexivity.
Qed.

Lemma sensors_load js ss : Forall2 sensor_says js ss ->
  exists m, foldM read_sensor js [] = Ok m /\ sensors_as_written m ss.
Proof.
  intros F. destruct (foldM_smap read_sensor sensor_says st_name sensor_of) with (js := js) (l := ss) (m := @nil (string * SensorConfig))
    as (m & E & O & G).
  - intros j s m S. unfold read_sensor. rewrite (sensor_loads _ _ S). cbn [bind].
    destruct S as (_ & _ & _ & S). erewrite says_index; [|exact S|field]. reflexivity.
  - exact F.
  - constructor.
  - exists m. split; [exact E|]. split; [exact O|]. intros n. rewrite G. unfold last_sensor.
    destruct (find _ _); reflexivity.
Qed.

(** ** Inputs *)

Lemma smem_existsb k l : smem k l = existsb (String.eqb k) l.
Proof. induction l as [|x r IH]; cbn; [reflexivity|]. destruct (String.eqb k x); [reflexivity|exact IH]. Qed.
Lemma splice_margins_from names : forall margins off all,
  (forall i, nth (off + i) all dnan = nth i margins dnan) ->
  (forall i, Nat.ltb (off + i) (List.length all) = Nat.ltb i (List.length margins)) ->
  splice_margins (map (fun n => MkInput n dnan false false) names) margins =
  map (fun x => MkInput (snd x) (nth (fst x) all dnan) (Nat.ltb (fst x) (List.length all)) false)
      (combine (seq off (List.length names)) names).
Proof.
  induction names as [|n r IH]; intros margins off all E L; cbn -[Nat.ltb]; [reflexivity|].
  pose proof (E O) as E0. pose proof (L O) as L0. rewrite Nat.add_0_r in E0, L0.
  destruct margins as [|z zs].
  - rewrite E0, L0. cbn -[Nat.ltb]. f_equal.
    specialize (IH [] (S off) all). cbn -[Nat.ltb] in IH.
    rewrite <- IH.
    + destruct r; reflexivity.
    + intros i. specialize (E (S i)). rewrite Nat.add_succ_r in E. cbn in E. cbn. rewrite E. destruct i; reflexivity.
    + intros i. specialize (L (S i)). rewrite Nat.add_succ_r in L. exact L.
  - rewrite E0, L0. cbn -[Nat.ltb]. f_equal. apply IH.
    + intros i. specialize (E (S i)). rewrite Nat.add_succ_r in E. exact E.
    + intros i. specialize (L (S i)). rewrite Nat.add_succ_r in L. exact L.
Qed.
Lemma inputs_load names margins missing : spliceInputs names margins missing = inputs_of names margins missing.
Proof.
  unfold spliceInputs, inputs_of. rewrite (splice_margins_from names margins 0 margins) by reflexivity.
  rewrite map_map. apply map_ext. intros [i n]. cbn -[Nat.ltb]. rewrite smem_existsb.
  destruct (existsb (String.eqb n) missing); reflexivity.
Qed.

(** ** Tables *)

Lemma nth_in_combine {A B} (la : list A) (lb : list B) i da db :
  i < List.length la -> i < List.length lb -> In (nth i la da, nth i lb db) (combine la lb).
Proof.
  revert lb i. induction la as [|a r IH]; intros [|b lb] i La Lb; cbn in *; try lia.
  destruct i as [|i]; [left; reflexivity|right; apply IH; lia].
Qed.
Lemma point_keys_eq : point_keys = map (fun i => to_string (Z.of_nat i)) (seq 0 20).
Proof. vm_compute. reflexivity. Qed.
Lemma point_key i : i < 20 -> nth i point_keys "" = to_string (Z.of_nat i).
Proof.
  intros L. rewrite point_keys_eq.
  rewrite (nth_indep _ "" (to_string (Z.of_nat 0))) by (rewrite map_length, seq_length; exact L).
  rewrite (map_nth (fun i => to_string (Z.of_nat i))). rewrite seq_nth by exact L. reflexivity.
Qed.
Lemma nth_pad {A} (l : list A) (g : A -> json) i : i < 20 ->
  nth i (map (fun x => Some (g x)) l ++ repeat None 20)%list None = option_map g (nth_error l i).
Proof.
  intros L. revert i L. induction l as [|x r IH]; intros i L.
  - change (nth i (repeat (@None json) 20) None = option_map g (nth_error [] i)).
    rewrite nth_repeat. destruct i; reflexivity.
  - destruct i as [|i]; [reflexivity|]. apply IH. lia.
Qed.
Lemma mapM_ok {A B} (f : A -> outcome B) (h : A -> B) l :
  (forall x, In x l -> f x = Ok (h x)) -> mapM f l = Ok (map h l).
Proof. intros E. rewrite <- (map_id l) at 1. apply mapM_map. exact E. Qed.

Lemma points_load key j r l : jfind key j = r -> points_say r l ->
  exists t, from_json_points key j = Ok t /\ (fun i => nth i t dnan) = table_of l.
Proof.
  intros E P. unfold from_json_points. rewrite E. destruct r as [r|], l as [l|]; unfold points_say in P; try contradiction.
  - destruct P as [L S].
    rewrite (mapM_ok _ (fun i => nth i (map num_val l) dnan)).
    + eexists. split; [reflexivity|]. extensionality i. unfold table_of. cbn [or_default].
      destruct (Nat.lt_ge_cases i 20) as [Li|Li].
      * rewrite (nth_indep _ dnan (nth 0 (map num_val l) dnan))
          by (rewrite map_length, seq_length; exact Li).
        rewrite (map_nth (fun i => nth i (map num_val l) dnan)). rewrite seq_nth by exact Li. reflexivity.
      * rewrite !nth_overflow; [reflexivity|rewrite map_length; lia|].
        rewrite map_length, seq_length. exact Li.
    + intros i I. apply in_seq in I. unfold maxStepwisePoints in I.
      assert (Li : i < 20) by lia.
      rewrite (says_find _ _ (to_string (Z.of_nat i)) (option_map num_json (nth_error l i)) S).
      * destruct (nth_error l i) as [x|] eqn:N; cbn.
        -- rewrite to_double_num. f_equal. symmetry. apply (nth_error_nth (map num_val l)).
           rewrite nth_error_map, N. reflexivity.
        -- f_equal. symmetry. apply nth_overflow. rewrite map_length. apply nth_error_None. exact N.
      * rewrite <- (point_key i Li), <- (nth_pad l num_json i Li). apply nth_in_combine.
        -- exact Li.
        -- rewrite app_length, repeat_length. lia.
  - eexists. split; [reflexivity|]. extensionality i. unfold table_of. cbn [or_default map].
    rewrite nth_repeat. destruct i; reflexivity.
Qed.

(** ** Controllers *)

Lemma controller_loads j p : pid_says j p -> from_json_ControllerInfo j = Ok (pid_of p).
Proof.
  intros (R & s & Ss & S). unfold from_json_ControllerInfo. at_keys S. keys S.
  cbn [bind json_to_string]. rewrite to_strs. cbn [bind]. rewrite to_double_num. cbn [bind].
  rewrite get_nums, get_strs. cbn [bind]. erewrite says_at; [|exact S|field]. cbn [bind].
  rewrite inputs_load, get_int by exact R.
  unfold settings_say in Ss. unfold pid_of.
  destruct (pt_settings p) as [t|t].
  - destruct Ss as [T Ss]. keys Ss. rewrite !get_num, get_bool. cbn [bind].
    rewrite (proj2 (String.eqb_neq _ _) T). cbn [negb].
    unfold from_json_pid. at_keys Ss. rewrite !to_double_num. cbn [bind]. reflexivity.
  - destruct Ss as (T & r & o & Pr & Po & Ss). rewrite T. cbn [String.eqb negb Ascii.eqb Bool.eqb].
    rewrite (says_find s _ "checkHysteresisWithSetpoint" None Ss) by field.
    rewrite (says_find s _ "derivativeCoeff" None Ss) by field.
    rewrite (says_find s _ "positiveHysteresis" _ Ss) by field.
    rewrite (says_find s _ "negativeHysteresis" _ Ss) by field.
    rewrite !get_num. cbn [bind get_or].
    unfold from_json_stepwise. at_keys Ss. rewrite to_double_num. cbn [bind json_to_bool].
    destruct (points_load "reading" s r (ss_reading t)) as (t1 & E1 & F1);
      [eapply says_find; [exact Ss|field]|exact Pr|].
    destruct (points_load "output" s o (ss_output t)) as (t2 & E2 & F2);
      [eapply says_find; [exact Ss|field]|exact Po|].
    rewrite E1. cbn [bind]. rewrite E2. cbn [bind]. rewrite F1, F2. reflexivity.
Qed.

Lemma pids_load js ps : Forall2 pid_says js ps ->
  exists m, foldM read_pid js [] = Ok m /\ pids_as_written m ps.
Proof.
  intros F. destruct (foldM_smap read_pid pid_says pt_name pid_of) with (js := js) (l := ps) (m := @nil (string * ControllerInfo))
    as (m & E & O & G).
  - intros j s m S. unfold read_pid. rewrite (controller_loads _ _ S).
    destruct S as (_ & pj & _ & S). erewrite says_index; [|exact S|field]. reflexivity.
  - exact F.
  - constructor.
  - exists m. split; [exact E|]. split; [exact O|]. intros n. rewrite G. unfold last_pid.
    destruct (find _ _); reflexivity.
Qed.

(** ** Zones *)

Lemma zget_zset {V} k k' (v : V) m : zget k' (zset k v m) = if (k' =? k)%Z then Some v else zget k' m.
Proof.
  induction m as [|[a b] r IH]; cbn.
  - destruct (k' =? k)%Z; reflexivity.
  - destruct (Z.eqb_spec k a) as [E|E]; cbn.
    + subst. destruct (k' =? a)%Z; reflexivity.
    + destruct (k <? a)%Z; cbn; [reflexivity|].
      rewrite IH. destruct (Z.eqb_spec k' a) as [E'|E']; [|reflexivity].
      subst. destruct (Z.eqb_spec a k); [congruence|reflexivity].
Qed.
Lemma zset_in {V} k (v : V) m x : In x (zset k v m) -> x = (k, v) \/ In x m.
Proof.
  induction m as [|[a b] r IH]; cbn.
  - intros [H|H]; [left; auto|tauto].
  - destruct (k =? a)%Z; [intros [H|H]; auto|].
    destruct (k <? a)%Z; cbn; intros [H|H]; auto. destruct (IH H); auto.
Qed.
Lemma in_order_zset {V} k (v : V) m : in_order_z m -> in_order_z (zset k v m).
Proof.
  unfold in_order_z. induction m as [|[a b] r IH]; intros O; cbn; [repeat constructor|].
  inversion O as [|? ? O1 F]; subst. destruct (Z.eqb_spec k a) as [E|E].
  - subst. constructor; [exact O1|]. exact F.
  - destruct (Z.ltb_spec k a) as [L|L].
    + constructor; [exact O|]. constructor; [exact L|].
      eapply Forall_impl; [|exact F]. cbn. intros x Hx. lia.
    + constructor; [apply IH; exact O1|]. apply Forall_forall. intros x I.
      apply zset_in in I. destruct I as [-> |I]; cbn; [lia|].
      rewrite Forall_forall in F. exact (F x I).
Qed.

Lemma time_loads j k d o : jfind k j = option_map int_json o -> given uint64 o -> (exists m, j = JObj m) ->
  read_cycle_time j k d = Ok (time_of d o).
Proof.
  intros E R [m ->]. unfold read_cycle_time, getCycleTimeSetting_json. cbn in E. rewrite E.
  destruct o as [n|]; cbn -[json_to_uint64]; [|reflexivity].
  cbn in R. rewrite to_uint64_int by exact R. cbn [bind].
  destruct R as [R _]. destruct (Z.leb_spec 1 n) as [L|L]; destruct (Z.eqb_spec n 0) as [N|N]; try lia; reflexivity.
Qed.

Definition zmaps_as_written (c : list (Z * PIDConf) * list (Z * ZoneConfig)) (c0 : list (Z * PIDConf) * list (Z * ZoneConfig))
    (zones : list zone_text) : Prop :=
  in_order_z (fst c) /\ in_order_z (snd c) /\
  forall id,
    match last_zone id zones with
    | None => zget id (snd c) = zget id (snd c0) /\ zget id (fst c) = zget id (fst c0)
    | Some z => zget id (snd c) = Some (zone_conf_of z) /\
        exists pids, zget id (fst c) = Some pids /\ pids_as_written pids (zt_pids z)
    end.

Lemma zone_loads j z c : zone_says j z ->
  exists pids, pids_as_written pids (zt_pids z) /\
    read_zone c j = Ok (zset (zt_id z) pids (fst c), zset (zt_id z) (zone_conf_of z) (snd c)).
Proof.
  intros (R1 & R2 & R3 & _ & js & F & S). destruct (pids_load _ _ F) as (pids & E & W).
  exists pids. split; [exact W|]. unfold read_zone.
  rewrite (says_index j _ "id" _ S) by field. cbn [bind]. rewrite to_int64_int by exact R1. cbn [bind].
  rewrite (says_index j _ "minThermalOutput" _ S) by field. cbn [bind]. rewrite to_double_num. cbn [bind].
  rewrite (says_index j _ "failsafePercent" _ S) by field. cbn [bind]. rewrite to_double_num. cbn [bind].
  rewrite (time_loads j _ _ (zt_cycleIntervalTimeMS z));
    [|eapply says_find; [exact S|field]|exact R2|eapply says_obj; exact S].
  cbn [bind].
  rewrite (time_loads j _ _ (zt_updateThermalsTimeMS z));
    [|eapply says_find; [exact S|field]|exact R3|eapply says_obj; exact S].
  cbn [bind]. keys S. rewrite get_bool. cbn [bind].
  rewrite (says_index j _ "pids" _ S) by field. cbn [bind jelements]. rewrite E. reflexivity.
Qed.

Lemma zones_load js zs : Forall2 zone_says js zs -> forall c0, in_order_z (fst c0) -> in_order_z (snd c0) ->
  exists c, foldM read_zone js c0 = Ok c /\ zmaps_as_written c c0 zs.
Proof.
  induction 1 as [|j z js zs Sj F IH]; intros c0 O1 O2.
  - exists c0. split; [reflexivity|]. split; [exact O1|]. split; [exact O2|]. intros id. cbn. auto.
  - destruct (zone_loads _ _ c0 Sj) as (pids & W & E). cbn [foldM]. rewrite E. cbn [bind].
    destruct (IH (zset (zt_id z) pids (fst c0), zset (zt_id z) (zone_conf_of z) (snd c0))) as (c & Ec & P1 & P2 & P3);
      [apply in_order_zset; exact O1|apply in_order_zset; exact O2|].
    exists c. split; [exact Ec|]. split; [exact P1|]. split; [exact P2|].
    intros id. specialize (P3 id). unfold last_zone in *. cbn [rev]. rewrite find_app.
    destruct (find _ (rev zs)) as [z'|]; [exact P3|]. cbn [find].
    cbn [fst snd] in P3. rewrite !zget_zset in P3. destruct (Z.eqb id (zt_id z)); [|exact P3].
    destruct P3 as [-> ->]. split; [reflexivity|]. exists pids. auto.
Qed.

(** ** The document *)

Lemma zones_validate js zs : Forall2 zone_says js zs -> foldM validate_zone js tt = Ok tt.
Proof.
  induction 1 as [|j z js zs Sj F IH]; [reflexivity|]. cbn [foldM].
  destruct Sj as (_ & _ & _ & N & pjs & Fp & S).
  unfold validate_zone at 1, jcount. rewrite (says_find j _ "pids" _ S) by field. cbn [Nat.eqb negb].
  rewrite (says_index j _ "pids" _ S) by field. cbn [bind jsize].
  destruct Fp as [|pj p pjs ps Sp Fp]; [congruence|]. exact IH.
Qed.

Theorem C65_lemma j sensors zones : doc_says j sensors zones ->
  exists c, load_json j = Ok c /\ as_written c sensors zones.
Proof.
  intros (N & js & jz & Fs & Fz & S). unfold load_json, validateJson, jcount.
  rewrite (says_find j _ "sensors" _ S) by field. rewrite (says_find j _ "zones" _ S) by field.
  cbn [Nat.eqb negb].
  rewrite (says_index j _ "sensors" _ S) by field. cbn [bind jsize].
  rewrite (says_index j _ "zones" _ S) by field. cbn [bind jelements].
  assert (L : Nat.eqb (List.length js) 0 = false).
  { destruct Fs; [congruence|reflexivity]. }
  rewrite L, (zones_validate _ _ Fz). cbn [bind].
  unfold buildSensorsFromJson. rewrite (says_index j _ "sensors" _ S) by field. cbn [bind jelements].
  destruct (sensors_load _ _ Fs) as (m & E & W). rewrite E. cbn [bind].
  unfold buildPIDsFromJson. rewrite (says_index j _ "zones" _ S) by field. cbn [bind jelements].
  destruct (zones_load _ _ Fz ([], [])) as (c & Ec & P1 & P2 & P3); [constructor|constructor|].
  rewrite Ec. cbn [bind]. eexists. split; [reflexivity|].
  split; [exact W|]. split; [exact P1|]. split; [exact P2|]. exact P3.
Qed.
