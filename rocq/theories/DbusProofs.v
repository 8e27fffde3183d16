(** * Which sensors and objects are found on D-Bus. *)
From Coq Require Import ZArith Bool List String Ascii Lia.
From Verif Require Import Base BaseFacts Dbl PidModel ZoneModel BuilderModel SensorModel WriteModel SpecWrite SystemModel SpecSystem
  SpecConfig JsonModel SpecJson ConfigModel ConfigProofs DbusConfigModel SpecDbus.
Import ListNotations.
Local Open Scope string_scope.

(** ** Names *)
Lemma underscored_eq s : sensorNameToDbusName s = underscored s.
Proof. induction s as [|c r IH]; [reflexivity|]. cbn. rewrite IH. reflexivity. Qed.

Lemma contains_iff part s : part <> "" -> (str_contains part s = true <-> contains part s).
Proof. intros N. exact (occurs_iff part s N). Qed.
Lemma contains_false part s : part <> "" -> (str_contains part s = false <-> ~ contains part s).
Proof. intros N. exact (occurs_iff_false part s N). Qed.

Lemma contains_cons part c s : contains part s -> contains part (String c s).
Proof. intros (a & b & E). exists (String c a), b. cbn. rewrite E. reflexivity. Qed.

Lemma called_name path : called path (getSensorNameFromPath path).
Proof.
  induction path as [|c r IH].
  - split; [|left; reflexivity]. intros (a & b & E). destruct a; discriminate.
  - cbn [getSensorNameFromPath]. destruct (str_contains "/" r) eqn:C.
    + destruct IH as [N [E|(a & E)]]; split; try exact N.
      * exfalso. apply N. rewrite <- E. apply contains_iff; [discriminate|exact C].
      * right. exists (String c a). cbn. rewrite E at 1. reflexivity.
    + apply contains_false in C; [|discriminate]. destruct (Ascii.eqb_spec c "/"%char) as [E|E].
      * subst. split; [exact C|]. right. exists "". reflexivity.
      * split; [|left; reflexivity]. intros (a & b & X). destruct a as [|c' a]; cbn in X.
        -- injection X as X _. contradiction.
        -- injection X as _ X. apply C. exists a, b. exact X.
Qed.
Lemma no_slash_tail n m a : n = a ++ "/" ++ m -> contains "/" n.
Proof. intros ->. exists a, m. reflexivity. Qed.
Lemma app_cut (a b x y : string) : ~ contains "/" x -> ~ contains "/" y ->
  a ++ "/" ++ x = b ++ "/" ++ y -> x = y.
Proof.
  intros Nx Ny. revert b. induction a as [|c a IH]; intros [|c' b] E; cbn in E.
  - injection E as E. exact E.
  - injection E as _ E. exfalso. apply Nx. rewrite E. exists b, y. reflexivity.
  - injection E as _ E. exfalso. apply Ny. rewrite <- E. exists a, x. reflexivity.
  - injection E as _ E. exact (IH b E).
Qed.
Lemma called_unique path n m : called path n -> called path m -> n = m.
Proof.
  intros [Nn [En|(a & En)]] [Nm [Em|(b & Em)]].
  - congruence.
  - exfalso. apply Nn. rewrite <- En. exact (no_slash_tail _ _ _ Em).
  - exfalso. apply Nm. rewrite <- Em. exact (no_slash_tail _ _ _ En).
  - apply (app_cut a b); congruence.
Qed.

(** ** Unordered maps *)
Lemma mget_uset {V} k k' (v : V) m : mget k' (uset k v m) = if String.eqb k' k then Some v else mget k' m.
Proof.
  induction m as [|[a b] r IH]; cbn [uset mget]; [reflexivity|].
  destruct (String.eqb_spec k a) as [E|E]; cbn [mget].
  - subst. destruct (String.eqb_spec k' a); reflexivity.
  - destruct (String.eqb_spec k' a) as [E'|E'].
    + subst. destruct (String.eqb_spec a k); [congruence|reflexivity].
    + exact IH.
Qed.
Lemma uset_keys {V} k (v : V) m : NoDup (map fst m) -> NoDup (map fst (uset k v m)).
Proof.
  assert (K : forall x m, In x (map fst (uset k v m)) -> x = k \/ In x (map fst m)).
  { intros x m'. induction m' as [|[a b] r IH]; cbn; [intuition congruence|].
    destruct (String.eqb_spec k a); cbn; [subst; tauto|]. intros [H|H]; [auto|]. apply IH in H. tauto. }
  induction m as [|[a b] r IH]; intros N; [cbn; constructor; [tauto|constructor]|].
  cbn [uset]. destruct (String.eqb_spec k a) as [E|E]; [subst; exact N|].
  cbn in *. inversion N as [|? ? N1 N2]; subst. constructor; [|apply IH, N2].
  intros I. apply K in I. destruct I; [congruence|contradiction].
Qed.
Lemma NoDup_mget {V} (m : smap V) k v : NoDup (map fst m) -> In (k, v) m -> mget k m = Some v.
Proof.
  induction m as [|[a b] r IH]; intros N I; [destruct I|]. cbn in *. inversion N as [|? ? N1 N2]; subst.
  destruct I as [E|I]; [injection E as -> ->; rewrite String.eqb_refl; reflexivity|].
  destruct (String.eqb_spec k a) as [E|E]; [|apply IH; assumption].
  subst. exfalso. apply N1. apply in_map_iff. exists (a, v). auto.
Qed.

(** ** What the mapper says *)
Definition seen : Type := string -> string -> string -> Prop.
Definition relevant (p i : string) : Prop := (i = value_intf /\ ~ contains "pwm" p) \/ i = pwm_intf.

Record scanned (S : seen) (st : smap (bool * string) * smap string) : Prop := Scanned {
  sc_o_keys : NoDup (map fst (fst st));
  sc_s_keys : NoDup (map fst (snd st));
  sc_has : forall o h m, mget o (fst st) = Some (h, m) ->
    (h = true <-> exists p i, S p o i /\ config_intf i) /\
    (S m o manager_intf \/ ((forall p, ~ S p o manager_intf) /\ m = ""));
  sc_known : forall p o i, S p o i -> exists x, mget o (fst st) = Some x;
  sc_from : forall p i, mget p (snd st) = Some i -> relevant p i /\ exists o, S p o i;
  sc_all : forall p o i, S p o i -> relevant p i -> exists i', mget p (snd st) = Some i'
}.

Lemma is_config_iff i : is_config_intf i = true <-> config_intf i.
Proof.
  unfold is_config_intf, config_intf. rewrite !orb_true_iff, !String.eqb_eq. tauto.
Qed.

Lemma scan_interface_ok S st path owner i :
  scanned S st -> (exists x, mget owner (fst st) = Some x) ->
  scanned (fun p o j => S p o j \/ (p = path /\ o = owner /\ j = i)) (scan_interface path owner st i) /\
  (exists x, mget owner (fst (scan_interface path owner st i)) = Some x).
Proof.
  destruct st as [owners sensors]. intros [K1 K2 H1 H2 H3 H4] [[h m] Ex]. cbn [fst snd] in *.
  unfold scan_interface. rewrite Ex. cbn [fst snd].
  set (m' := if String.eqb i manager_intf then path else m).
  set (h' := if is_config_intf i then true else h).
  assert (Eo : (if is_config_intf i
                then (true, snd (if String.eqb i manager_intf then (h, path) else (h, m)))
                else if String.eqb i manager_intf then (h, path) else (h, m)) = (h', m')).
  { unfold h', m'. destruct (is_config_intf i), (String.eqb i manager_intf); reflexivity. }
  rewrite Eo. clear Eo. specialize (H1 owner) as Ho. specialize (Ho _ _ Ex). destruct Ho as [Ho1 Ho2].
  set (S' := fun p o j => S p o j \/ p = path /\ o = owner /\ j = i).
  assert (Own : forall o h0 m0, mget o (uset owner (h', m') owners) = Some (h0, m0) ->
     (h0 = true <-> exists p j, S' p o j /\ config_intf j) /\
     (S' m0 o manager_intf \/ ((forall p, ~ S' p o manager_intf) /\ m0 = ""))).
  { intros o h0 m0 E. rewrite mget_uset in E. destruct (String.eqb_spec o owner) as [->|No].
    - injection E as <- <-. split.
      + unfold h'. destruct (is_config_intf i) eqn:C.
        * split; [intros _|reflexivity]. exists path, i. split; [right; auto|apply is_config_iff; exact C].
        * rewrite Ho1. split; intros (p & j & X & Y); exists p, j; split; auto; [left; exact X|].
          destruct X as [X|(-> & _ & ->)]; [exact X|]. apply is_config_iff in Y. congruence.
      + unfold m'. destruct (String.eqb_spec i manager_intf) as [->|Nm]; [left; right; auto|].
        destruct Ho2 as [X|[X ->]]; [left; left; exact X|]. right. split; [|reflexivity].
        intros p [Y|(_ & _ & Y)]; [exact (X p Y)|congruence].
    - destruct (H1 o h0 m0 E) as [A B]. split.
      + rewrite A. split; intros (p & j & X & Y); exists p, j; split; auto; [left; exact X|].
        destruct X as [X|(_ & ? & _)]; [exact X|contradiction].
      + destruct B as [X|[X ->]]; [left; left; exact X|]. right. split; [|reflexivity].
        intros p [Y|(_ & ? & _)]; [exact (X p Y)|contradiction]. }
  assert (Kn : forall p o j, S' p o j -> exists x, mget o (uset owner (h', m') owners) = Some x).
  { intros p o j X. rewrite mget_uset. destruct (String.eqb_spec o owner) as [->|No]; [eexists; reflexivity|].
    destruct X as [X|(_ & ? & _)]; [apply (H2 _ _ _ X)|contradiction]. }
  assert (Ko : NoDup (map fst (uset owner (h', m') owners))) by (apply uset_keys, K1).
  assert (Old : forall p j, mget p sensors = Some j -> relevant p j /\ exists o, S' p o j).
  { intros p j E. destruct (H3 p j E) as [A (o & B)]. split; [exact A|]. exists o. left. exact B. }
  assert (Exo : exists x, mget owner (uset owner (h', m') owners) = Some x).
  { rewrite mget_uset, String.eqb_refl. eexists; reflexivity. }
  destruct (String.eqb i value_intf || String.eqb i pwm_intf)%bool eqn:V.
  - destruct (String.eqb i value_intf && str_contains "pwm" path)%bool eqn:P; (split; [|exact Exo]).
    + constructor; cbn [fst snd]; try assumption.
      intros p o j [X|(-> & -> & ->)] R; [apply (H4 _ _ _ X R)|].
      exfalso. apply andb_true_iff in P. destruct P as [P1 P2]. apply String.eqb_eq in P1.
      apply contains_iff in P2; [|discriminate]. destruct R as [[_ R]|R]; [contradiction|].
      rewrite P1 in R. vm_compute in R. discriminate.
    + assert (Rel : relevant path i).
      { apply orb_true_iff in V. rewrite !String.eqb_eq in V. destruct V as [V|V]; [left|right; exact V].
        split; [exact V|]. rewrite V, String.eqb_refl in P. cbn in P. apply contains_false in P; [exact P|discriminate]. }
      constructor; cbn [fst snd]; try assumption; [apply uset_keys, K2| |].
      * intros p j E. rewrite mget_uset in E. destruct (String.eqb_spec p path) as [->|Np].
        -- injection E as <-. split; [exact Rel|]. exists owner. right. auto.
        -- apply Old, E.
      * intros p o j X R. rewrite mget_uset. destruct (String.eqb_spec p path) as [->|Np]; [eexists; reflexivity|].
        destruct X as [X|(? & _ & _)]; [apply (H4 _ _ _ X R)|contradiction].
  - split; [|exact Exo]. constructor; cbn [fst snd]; try assumption.
    intros p o j [X|(-> & -> & ->)] R; [apply (H4 _ _ _ X R)|].
    exfalso. apply orb_false_iff in V. rewrite !String.eqb_neq in V. destruct V as [V1 V2].
    destruct R as [[R _]|R]; contradiction.
Qed.

Lemma scanned_ext S S' st : (forall p o i, S p o i <-> S' p o i) -> scanned S st -> scanned S' st.
Proof.
  intros E [K1 K2 H1 H2 H3 H4]. constructor; try assumption.
  - intros o h m G. destruct (H1 o h m G) as [A B]. split.
    + rewrite A. split; intros (p & i & X & Y); exists p, i; split; auto; apply E; exact X.
    + destruct B as [B|[B ->]]; [left; apply E, B|]. right. split; [|reflexivity].
      intros p X. apply (B p), E, X.
  - intros p o i X. apply (H2 p o i), E, X.
  - intros p i G. destruct (H3 p i G) as [A (o & B)]. split; [exact A|]. exists o. apply E, B.
  - intros p o i X. apply (H4 p o i), E, X.
Qed.

Lemma scan_interfaces_ok path owner l : forall S st,
  scanned S st -> (exists x, mget owner (fst st) = Some x) ->
  scanned (fun p o j => S p o j \/ (p = path /\ o = owner /\ In j l)) (fold_left (scan_interface path owner) l st).
Proof.
  induction l as [|i r IH]; intros S st H X; cbn [fold_left].
  - apply (scanned_ext S); [|exact H]. cbn. tauto.
  - destruct (scan_interface_ok S st path owner i H X) as [H' X'].
    apply (scanned_ext (fun p o j => (S p o j \/ (p = path /\ o = owner /\ j = i)) \/ (p = path /\ o = owner /\ In j r)));
      [|apply IH; assumption].
    cbn [In]. intros p o j. intuition congruence.
Qed.
Lemma scan_owners_ok path l : forall S st,
  scanned S st ->
  scanned (fun p o j => S p o j \/ (p = path /\ exists is, In (o, is) l /\ In j is))
    (fold_left (fun st own =>
      fold_left (scan_interface path (fst own)) (snd own)
        (let '(owners, sensors) := st in
         (match mget (fst own) owners with
          | Some _ => owners
          | None => uset (fst own) (false, "") owners
          end, sensors))) l st).
Proof.
  induction l as [|[o is] r IH]; intros S st H; cbn [fold_left fst snd].
  - apply (scanned_ext S); [|exact H]. intros p o i. split; [auto|]. intros [X|(_ & is & [] & _)]. exact X.
  - assert (H0 : scanned S (let '(owners, sensors) := st in
         (match mget o owners with Some _ => owners | None => uset o (false, "") owners end, sensors)) /\
       exists x, mget o (fst (let '(owners, sensors) := st in
         (match mget o owners with Some _ => owners | None => uset o (false, "") owners end, sensors))) = Some x).
    { destruct st as [owners sensors]. destruct (mget o owners) as [x|] eqn:E; cbn [fst].
      - split; [exact H|]. exists x. exact E.
      - split; [|rewrite mget_uset, String.eqb_refl; eexists; reflexivity].
        destruct H as [K1 K2 H1 H2 H3 H4]. cbn [fst snd] in *.
        assert (No : forall p i, ~ S p o i) by (intros p i X; destruct (H2 _ _ _ X); congruence).
        constructor; cbn [fst snd]; try assumption; [apply uset_keys, K1| |].
        + intros o' h m G. rewrite mget_uset in G. destruct (String.eqb_spec o' o) as [->|N]; [|apply H1, G].
          injection G as <- <-. split.
          * split; [discriminate|]. intros (p & i & X & _). destruct (No _ _ X).
          * right. split; [|reflexivity]. intros p X. destruct (No _ _ X).
        + intros p o' i X. rewrite mget_uset. destruct (String.eqb o' o); [eexists; reflexivity|apply (H2 _ _ _ X)]. }
    destruct H0 as [H0 X0].
    apply (scanned_ext (fun p o' j => (S p o' j \/ (p = path /\ o' = o /\ In j is)) \/
                                     (p = path /\ exists is', In (o', is') r /\ In j is'))).
    + intros p o' j. split.
      * intros [[A|(-> & -> & A)]|(-> & is' & A & B)]; [left; exact A|right|right].
        -- split; [reflexivity|]. exists is. split; [left; reflexivity|exact A].
        -- split; [reflexivity|]. exists is'. split; [right; exact A|exact B].
      * intros [A|(-> & is' & [A|A] & B)]; [left; left; exact A| |].
        -- injection A as <- <-. left. right. auto.
        -- right. split; [reflexivity|]. exists is'. auto.
    + apply IH. apply scan_interfaces_ok; assumption.
Qed.
Lemma scan_ok resp :
  scanned (fun p o i => exists services intfs, In (p, services) resp /\ In (o, intfs) services /\ In i intfs) (scan resp).
Proof.
  unfold scan.
  assert (G : forall l S st, scanned S st ->
    scanned (fun p o i => S p o i \/ exists services intfs, In (p, services) l /\ In (o, intfs) services /\ In i intfs)
     (fold_left (fun st obj =>
        fold_left (fun st own =>
          fold_left (scan_interface (fst obj) (fst own)) (snd own)
            (let '(owners, sensors) := st in
             (match mget (fst own) owners with
              | Some _ => owners
              | None => uset (fst own) (false, "") owners
              end, sensors)))
          (snd obj) st) l st)).
  { induction l as [|[path services] r IH]; intros S st H; cbn [fold_left fst snd].
    - apply (scanned_ext S); [|exact H]. intros p o i. split; [auto|]. intros [X|(s & is & [] & _)]. exact X.
    - eapply scanned_ext; [|apply IH, scan_owners_ok, H].
      intros p o i. split.
      + intros [[A|(-> & is & A & B)]|(s & is & A & B & C)]; [left; exact A|right|right].
        * exists services, is. split; [left; reflexivity|auto].
        * exists s, is. split; [right; exact A|auto].
      + intros [A|(s & is & [A|A] & B & C)]; [left; left; exact A| |].
        * injection A as -> ->. left. right. split; [reflexivity|]. exists is. auto.
        * right. exists s, is. auto. }
  eapply scanned_ext; [|apply (G resp (fun _ _ _ => False))].
  - intros p o i. tauto.
  - constructor; cbn [fst snd map mget]; try constructor; try discriminate; intros; contradiction.
Qed.

(** ** Sensors *)
Definition sensors_of (resp : subtree) : smap string := snd (scan resp).

Lemma sensors_nodup resp : NoDup (map fst (sensors_of resp)).
Proof. apply (sc_s_keys _ _ (scan_ok resp)). Qed.
Lemma sensors_kind resp p i : In (p, i) (sensors_of resp) ->
  (i = value_intf /\ bus_sensor resp p) \/ (i = pwm_intf /\ bus_pwm resp p).
Proof.
  intros I. pose proof (scan_ok resp) as H. apply (NoDup_mget _ _ _ (sc_s_keys _ _ H)) in I.
  destruct (sc_from _ _ H _ _ I) as [[[-> N]| ->] (o & s & is & A & B & C)].
  - left. split; [reflexivity|]. split; [exists s, o, is; auto|exact N].
  - right. split; [reflexivity|]. exists s, o, is. auto.
Qed.
Lemma sensors_complete resp p : bus_sensor resp p \/ bus_pwm resp p -> exists i, In (p, i) (sensors_of resp).
Proof.
  intros K. pose proof (scan_ok resp) as H.
  assert (X : exists i, mget p (sensors_of resp) = Some i).
  { destruct K as [[(s & o & is & A & B & C) N]|(s & o & is & A & B & C)].
    - apply (sc_all _ _ H p o value_intf); [exists s, is; auto|]. left. auto.
    - apply (sc_all _ _ H p o pwm_intf); [exists s, is; auto|]. right. reflexivity. }
  destruct X as [i X]. exists i. apply mget_In. exact X.
Qed.

Definition bus_of (resp : subtree) : list string := map fst (sensors_of resp).
Lemma searched_bus resp : searched resp (bus_of resp).
Proof.
  split; [apply sensors_nodup|]. intros path. unfold bus_of. rewrite in_map_iff. split.
  - intros ([x i] & <- & I). destruct (sensors_kind _ _ _ I) as [[_ K]|[_ K]]; auto.
  - intros K. destruct (sensors_complete _ _ K) as [i I]. exists (path, i). auto.
Qed.
Lemma map_filter_fst {V} (p : string -> bool) (m : smap V) :
  map fst (filter (fun s => p (fst s)) m) = filter p (map fst m).
Proof. induction m as [|[k v] r IH]; [reflexivity|]. cbn. destruct (p k); cbn; rewrite IH; reflexivity. Qed.

(** Paths that were found, with the interface that was noted for them. *)
Definition kind_ok (resp : subtree) (e : string * string) : Prop :=
  (snd e = value_intf /\ bus_sensor resp (fst e)) \/ (snd e = pwm_intf /\ bus_pwm resp (fst e)).
Lemma findSensors_found w name l :
  s_bus w = bus_of (s_resp w) ->
  findSensors (s_regex w) (sensors_of (s_resp w)) (sensorNameToDbusName name) = Ok l ->
  found w name (map fst l) /\ Forall (kind_ok (s_resp w)) l.
Proof.
  intros B. unfold findSensors. intros E. apply bind_ok in E. destruct E as (p & E & F). injection F as <-.
  rewrite underscored_eq in E. split.
  - exists p. split; [exact E|]. rewrite B. apply map_filter_fst.
  - apply Forall_forall. intros [x i] I. apply filter_In in I. destruct I as [I _].
    exact (sensors_kind _ _ _ I).
Qed.
Lemma found_unique w name l l' : found w name l -> found w name l' -> l = l'.
Proof. intros (p & E & ->) (q & F & ->). rewrite E in F. injection F as <-. reflexivity. Qed.

(** ** Objects *)
Lemma NoDup_app_snoc {A} (l : list A) x : NoDup l -> ~ In x l -> NoDup (l ++ [x])%list.
Proof.
  induction l as [|y r IH]; intros N I; [constructor; [tauto|constructor]|]. cbn in *.
  inversion N as [|? ? N1 N2]; subst. constructor; [|apply IH; tauto].
  rewrite in_app_iff. cbn. intuition congruence.
Qed.
Lemma gather_ok managed owners confs :
  gather managed owners = Ok confs ->
  NoDup (map fst confs) /\
  (forall path o, In (path, o) confs -> exists owner m objs, In (owner, (true, m)) owners /\
     managed owner m = Some objs /\ In (path, o) objs /\ existsb (fun i => is_config_intf (fst i)) o = true) /\
  (forall owner m, In (owner, (true, m)) owners -> exists objs, managed owner m = Some objs /\
     forall path o, In (path, o) objs -> existsb (fun i => is_config_intf (fst i)) o = true ->
       In path (map fst confs)).
Proof.
  unfold gather.
  assert (Keep : forall l confs, NoDup (map fst confs) ->
     NoDup (map fst (fold_left keep_configured l confs)) /\
     (forall e, In e (fold_left keep_configured l confs) -> In e confs \/
        (In e l /\ existsb (fun i => is_config_intf (fst i)) (snd e) = true)) /\
     (forall x, In x (map fst confs) -> In x (map fst (fold_left keep_configured l confs))) /\
     (forall e, In e l -> existsb (fun i => is_config_intf (fst i)) (snd e) = true ->
        In (fst e) (map fst (fold_left keep_configured l confs)))).
  { induction l as [|e r IH]; intros c N; cbn [fold_left].
    - split; [exact N|]. split; [auto|]. split; [auto|]. intros e [].
    - assert (N' : NoDup (map fst (keep_configured c e)) /\
         (forall x, In x (keep_configured c e) -> In x c \/ (x = e /\ existsb (fun i => is_config_intf (fst i)) (snd e) = true)) /\
         (forall x, In x (map fst c) -> In x (map fst (keep_configured c e))) /\
         (existsb (fun i => is_config_intf (fst i)) (snd e) = true -> In (fst e) (map fst (keep_configured c e)))).
      { unfold keep_configured. destruct (existsb (fun i => is_config_intf (fst i)) (snd e)) eqn:X; cbn [andb].
        2: { split; [exact N|]. split; [auto|]. split; [auto|discriminate]. }
        destruct (mmem (fst e) c) eqn:M; cbn [negb].
        - split; [exact N|]. split; [auto|]. split; [auto|]. intros _. apply mmem_get in M. destruct M as [v M].
          apply mget_In in M. apply in_map_iff. exists (fst e, v). auto.
        - split; [|split; [|split]].
          + rewrite map_app. cbn. apply NoDup_app_snoc. exact N. intros I. apply in_map_iff in I.
            destruct I as ([k v] & E & I). cbn in E. subst k.
            assert (Some v <> None) by discriminate. apply H. rewrite <- (NoDup_mget _ _ _ N I).
            unfold mmem in M. destruct (mget (fst e) c); [discriminate|reflexivity].
          + intros x I. apply in_app_iff in I. destruct I as [I|[I|[]]]; auto.
          + intros x I. rewrite map_app. apply in_app_iff. auto.
          + intros _. rewrite map_app. apply in_app_iff. right. left. reflexivity. }
      destruct N' as (A & B & C & D). destruct (IH _ A) as (A' & B' & C' & D').
      split; [exact A'|]. split; [|split].
      + intros x I. destruct (B' x I) as [J|J]; [|right; cbn; tauto].
        destruct (B x J) as [J'|[-> J']]; [left; exact J'|right; cbn; auto].
      + intros x I. auto.
      + intros x [<-|I] X; [apply C', D, X|apply D'; assumption]. }
  assert (G : forall l c c',
     foldM (fun confs o =>
       if negb (fst (snd o)) then Ok confs
       else match managed (fst o) (snd (snd o)) with
            | None => Throw "Error getting managed objects"
            | Some l => Ok (fold_left keep_configured l confs)
            end) l c = Ok c' -> NoDup (map fst c) ->
     NoDup (map fst c') /\
     (forall e, In e c' -> In e c \/ exists owner m objs, In (owner, (true, m)) l /\
        managed owner m = Some objs /\ In e objs /\ existsb (fun i => is_config_intf (fst i)) (snd e) = true) /\
     (forall x, In x (map fst c) -> In x (map fst c')) /\
     (forall owner m, In (owner, (true, m)) l -> exists objs, managed owner m = Some objs /\
        forall e, In e objs -> existsb (fun i => is_config_intf (fst i)) (snd e) = true -> In (fst e) (map fst c'))).
  { induction l as [|[o [h m]] r IH]; intros c c' E N; cbn [foldM fst snd] in E.
    - injection E as <-. split; [exact N|]. split; [auto|]. split; [auto|]. intros owner m [].
    - destruct h; cbn [negb] in E.
      + destruct (managed o m) as [objs|] eqn:Mo; [|discriminate]. cbn [bind] in E.
        destruct (Keep objs c N) as (A & B & C & D). destruct (IH _ _ E A) as (A' & B' & C' & D').
        split; [exact A'|]. split; [|split].
        * intros e I. destruct (B' e I) as [J|(ow & m' & os & J1 & J2 & J3 & J4)].
          -- destruct (B e J) as [K|[K1 K2]]; [left; exact K|]. right. exists o, m, objs.
             split; [left; reflexivity|auto].
          -- right. exists ow, m', os. split; [right; exact J1|auto].
        * intros x I. auto.
        * intros ow m' [I|I].
          -- injection I as <- <-. exists objs. split; [exact Mo|]. intros e I X. apply C', D; assumption.
          -- apply D', I.
      + cbn [bind] in E. destruct (IH _ _ E N) as (A' & B' & C' & D'). split; [exact A'|]. split; [|split].
        * intros e I. destruct (B' e I) as [J|(ow & m' & os & J1 & J2)]; [left; exact J|]. right.
          exists ow, m', os. split; [right; exact J1|auto].
        * exact C'.
        * intros ow m' [I|I]; [discriminate|apply D', I]. }
  intros E. destruct (G owners [] confs E) as (A & B & C & D); [constructor|].
  split; [exact A|]. split.
  - intros path o I. destruct (B _ I) as [[]|X]. exact X.
  - intros owner m I. destruct (D owner m I) as (objs & M & X). exists objs. split; [exact M|].
    intros path o J Y. exact (X (path, o) J Y).
Qed.

(** ** Profiles *)
Lemma select_interfaces_ok selected o : forall o', selected <> [] ->
  select_interfaces selected o = Ok o' -> only_selected selected o o'.
Proof.
  induction o as [|[i props] r IH]; intros o' N E; cbn in E; [injection E as <-; constructor|].
  apply bind_ok in E. destruct E as (keep & E1 & E). apply bind_ok in E. destruct E as (r' & E2 & E).
  injection E as <-. specialize (IH _ N E2).
  assert (K : keep = true <-> in_profile selected props).
  { unfold profile_selected in E1. unfold in_profile. destruct (mget "Profiles" props) as [v|].
    - apply bind_ok in E1. destruct E1 as (l & E1 & E3). unfold get_strs in E1. destruct v; try discriminate.
      injection E1 as ->. destruct l as [|p l].
      + injection E3 as <-. split; auto.
      + injection E3 as <-. split.
        * intros X. right. right. right.
          change (existsb (fun p => smem p selected) (p :: l) = true) in X. apply existsb_exists in X. destruct X as (q & I & X).
          exists (p :: l), q. apply smem_In in X. auto.
        * intros [X|[X|[X|(l' & q & X & I & J)]]]; try congruence. injection X as <-.
          change (existsb (fun p => smem p selected) (p :: l) = true). apply existsb_exists. exists q. split; [exact I|]. apply smem_In. exact J.
    - injection E1 as <-. split; auto. }
  destruct keep.
  - apply OsKeep; [apply K; reflexivity|exact IH].
  - apply OsDrop; [|exact IH]. intros X. apply K in X. discriminate.
Qed.
Lemma only_selected_refl o : only_selected [] o o.
Proof. induction o as [|[i props] r IH]; constructor; [left; reflexivity|exact IH]. Qed.
Lemma select_objects_ok selected l : forall l', selected <> [] -> select_objects selected l = Ok l' ->
  (NoDup (map fst l) -> NoDup (map fst l')) /\
  (forall x, In x (map fst l') -> In x (map fst l)) /\
  (forall path o, In (path, o) l' -> exists o', In (path, o') l /\ only_selected selected o' o) /\
  (forall path o, In (path, o) l -> exists o', only_selected selected o o' /\ (o' = [] \/ In (path, o') l')).
Proof.
  induction l as [|[path o] r IH]; intros l' N E; cbn in E.
  - injection E as <-. split; [auto|]. split; [auto|]. split; intros ? ? [].
  - apply bind_ok in E. destruct E as (o' & E1 & E). apply bind_ok in E. destruct E as (r' & E2 & E).
    injection E as <-. apply select_interfaces_ok in E1; [|exact N]. destruct (IH _ N E2) as (A & B & C & D).
    split; [|split; [|split]].
    + intros X. cbn in X. inversion X as [|? ? X1 X2]; subst. destruct o'; [apply A, X2|].
      cbn. constructor; [|apply A, X2]. intros Y. apply X1, B, Y.
    + intros x X. cbn. destruct o'; [right; apply B, X|]. cbn in X. destruct X as [X|X]; [auto|right; apply B, X].
    + intros p x X. destruct o' as [|y o'].
      * destruct (C _ _ X) as (z & Z1 & Z2). exists z. split; [right; exact Z1|exact Z2].
      * destruct X as [X|X].
        -- injection X as <- <-. exists o. split; [left; reflexivity|exact E1].
        -- destruct (C _ _ X) as (z & Z1 & Z2). exists z. split; [right; exact Z1|exact Z2].
    + intros p x [X|X].
      * injection X as <- <-. exists o'. split; [exact E1|]. destruct o'; [left; reflexivity|right; left; reflexivity].
      * destruct (D _ _ X) as (z & Z1 & Z2). exists z. split; [exact Z1|]. destruct Z2 as [Z2|Z2]; [auto|].
        right. destruct o'; [exact Z2|right; exact Z2].
Qed.

(** ** The objects that are read *)
Definition mgr_of (resp : subtree) (owner : string) : string :=
  match mget owner (fst (scan resp)) with Some (_, m) => m | None => "" end.
Lemma managers_ok resp : managers resp (mgr_of resp).
Proof.
  pose proof (scan_ok resp) as S. intros owner. unfold mgr_of.
  destruct (mget owner (fst (scan resp))) as [[h m]|] eqn:E.
  - destruct (sc_has _ _ S _ _ _ E) as [_ [X|[X ->]]]; [left; exact X|right]. split; [|reflexivity]. exact X.
  - right. split; [|reflexivity]. intros path (s & is & X). destruct (sc_known _ _ S path owner manager_intf) as [y Y].
    + exists s, is. exact X.
    + congruence.
Qed.
Lemma has_config_iff resp owner : has_config resp owner <-> In (owner, (true, mgr_of resp owner)) (fst (scan resp)).
Proof.
  pose proof (scan_ok resp) as S. split.
  - intros (path & s & is & i & X1 & X2 & X3 & X4).
    destruct (sc_known _ _ S path owner i) as [[h m] Y]; [exists s, is; auto|].
    destruct (sc_has _ _ S _ _ _ Y) as [Z _].
    assert (h = true) by (apply Z; exists path, i; split; [exists s, is; auto|exact X4]). subst h.
    apply mget_In. unfold mgr_of. rewrite Y. reflexivity.
  - intros I. apply (NoDup_mget _ _ _ (sc_o_keys _ _ S)) in I.
    destruct (sc_has _ _ S _ _ _ I) as [[Z _] _]. destruct (Z eq_refl) as (p & i & (s & is & X1 & X2 & X3) & X4).
    exists p, s, is, i. auto.
Qed.
Lemma owner_mgr resp owner h m : In (owner, (h, m)) (fst (scan resp)) -> m = mgr_of resp owner.
Proof.
  intros X. unfold mgr_of. rewrite (NoDup_mget _ _ _ (sc_o_keys _ _ (scan_ok resp)) X). reflexivity.
Qed.
Lemma configured_iff (o : object) : existsb (fun i => is_config_intf (fst i)) o = true <->
  exists i props, In (i, props) o /\ config_intf i.
Proof.
  rewrite existsb_exists. split.
  - intros ([i props] & I & X). exists i, props. split; [exact I|]. apply is_config_iff, X.
  - intros (i & props & I & X). exists (i, props). split; [exact I|]. apply is_config_iff, X.
Qed.
Lemma gathered_offered cb resp confs : gather (cb_managed cb) (fst (scan resp)) = Ok confs ->
  forall path o, In (path, o) confs -> offered cb resp (mgr_of resp) path o.
Proof.
  intros G path o I. destruct (gather_ok _ _ _ G) as (_ & G2 & _).
  destruct (G2 _ _ I) as (owner & m & l & X1 & X2 & X3 & X4).
  pose proof (owner_mgr _ _ _ _ X1). subst m. exists owner, l. split; [apply has_config_iff, X1|].
  split; [exact X2|]. split; [exact X3|]. apply configured_iff, X4.
Qed.

Lemma reads_ok cb resp confs selected objs :
  gather (cb_managed cb) (fst (scan resp)) = Ok confs ->
  cb_profiles cb = Some selected -> apply_profiles selected confs = Ok objs -> reads cb resp objs.
Proof.
  intros G P A. pose proof (gathered_offered _ _ _ G) as Off1. destruct (gather_ok _ _ _ G) as (G1 & _ & G3).
  assert (Off2 : forall path o, offered cb resp (mgr_of resp) path o -> exists o', In (path, o') confs).
  { intros path o (owner & l & X1 & X2 & X3 & X4). apply has_config_iff in X1. destruct (G3 _ _ X1) as (l' & Y1 & Y2).
    rewrite X2 in Y1. injection Y1 as <-. specialize (Y2 _ _ X3 (proj2 (configured_iff o) X4)).
    apply in_map_iff in Y2. destruct Y2 as ([k v] & E & I). cbn in E. subst k. exists v. exact I. }
  exists selected, (mgr_of resp). split; [exact P|]. split; [apply managers_ok|].
  assert (W : forall owner, has_config resp owner -> cb_managed cb owner (mgr_of resp owner) <> None).
  { intros owner X. apply has_config_iff in X. destruct (G3 _ _ X) as (l & Y & _). congruence. }
  unfold apply_profiles in A. destruct selected as [|s0 sel].
  - injection A as <-. split; [exact G1|]. split; [exact W|]. split.
    + intros path o I. exists o. split; [apply Off1, I|apply only_selected_refl].
    + intros path o X. destruct (Off2 _ _ X) as [o' I]. exists o', o'. split; [apply Off1, I|].
      split; [apply only_selected_refl|right; exact I].
  - destruct (select_objects_ok (s0 :: sel) confs objs) as (A1 & A2 & A3 & A4); [discriminate|exact A|].
    split; [apply A1, G1|]. split; [exact W|]. split.
    + intros path o I. destruct (A3 _ _ I) as (o' & I' & X). exists o'. split; [apply Off1, I'|exact X].
    + intros path o X. destruct (Off2 _ _ X) as [o1 I]. destruct (A4 _ _ I) as (o2 & Y & Z).
      exists o1, o2. split; [apply Off1, I|]. split; [exact Y|exact Z].
Qed.
