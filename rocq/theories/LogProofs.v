(** * Proofs about logging. *)
From Coq Require Import ZArith Bool List String Ascii Lia Sorted.
From Verif Require Import Base BaseFacts Dbl DblFacts DblOrder PidModel LogModel SpecLog.
Import ListNotations.
Local Open Scope string_scope.
Local Open Scope Z_scope.

(** ** Failsafe log *)

Lemma fs_run_app h1 : forall l h2,
  fs_run l (h1 ++ h2) =
    (fst (fs_run (fst (fs_run l h1)) h2), snd (fs_run l h1) ++ snd (fs_run (fst (fs_run l h1)) h2))%list.
Proof.
  induction h1 as [|a r IH]; intros l h2; cbn.
  - destruct (fs_run l h2); reflexivity.
  - destruct (outputFailsafeLog l a) as [l1 o]. rewrite IH.
    destruct (fs_run l1 r) as [l2 os]. reflexivity.
Qed.

Lemma prints_step size max start h a :
  prints size max start h a = snd (outputFailsafeLog (fst (fs_run (fslogger_new size max start) h)) a).
Proof.
  unfold prints. rewrite fs_run_app. cbn. destruct (outputFailsafeLog _ a) as [l o]. cbn. apply last_last.
Qed.

Lemma in_second_app t a b : in_second t (a ++ b) = in_second t a + in_second t b.
Proof. unfold in_second. rewrite filter_app, app_length. lia. Qed.
Lemma in_second_nonneg t a : 0 <= in_second t a.
Proof. unfold in_second. lia. Qed.
Lemma in_second_le_length t a : in_second t a <= Z.of_nat (List.length a).
Proof.
  unfold in_second. induction a as [|x r IH]; cbn; [lia|].
  destruct ((t <=? x) && (x <? t + 1000)); cbn [List.length]; lia.
Qed.
Lemma in_second_none t a : (forall x, In x a -> x < t \/ t + 1000 <= x) -> in_second t a = 0.
Proof.
  unfold in_second. induction a as [|x r IH]; intro H; cbn; [reflexivity|].
  replace ((t <=? x) && (x <? t + 1000)) with false; [apply IH; intros; apply H; now right|].
  symmetry. apply andb_false_iff. destruct (H x (or_introl eq_refl)).
  - left. apply Z.leb_gt. lia.
  - right. apply Z.ltb_ge. lia.
Qed.
Lemma in_second_all t a : (forall x, In x a -> t <= x < t + 1000) -> in_second t a = Z.of_nat (List.length a).
Proof.
  unfold in_second. induction a as [|x r IH]; intro H; cbn [filter List.length]; [reflexivity|].
  replace ((t <=? x) && (x <? t + 1000)) with true.
  - cbn [List.length]. rewrite !Nat2Z.inj_succ, IH; [reflexivity|]. intros; apply H; now right.
  - symmetry. apply andb_true_iff. destruct (H x (or_introl eq_refl)). split; [apply Z.leb_le|apply Z.ltb_lt]; lia.
Qed.

Lemma drop_old_spec now stamps :
  (forall x, In x stamps -> 0 <= x <= now) -> now < 2 ^ 64 ->
  exists dr, stamps = (dr ++ drop_old now stamps)%list /\ (forall x, In x dr -> x + 1000 <= now).
Proof.
  intros H N. induction stamps as [|t r IH]; cbn.
  - exists []. split; [reflexivity|intros x []].
  - destruct (H t (or_introl eq_refl)) as [T0 T1].
    rewrite Z.mod_small by lia. destruct (Z.leb_spec 1000 (now - t)).
    + destruct IH as (dr & E & O); [intros; apply H; now right|].
      exists (t :: dr). cbn. rewrite <- E. split; [reflexivity|]. intros x [<-|I]; [lia|auto].
    + exists []. split; [reflexivity|intros x []].
Qed.

(** With [ts] the true times of the stamps. *)
Lemma drop_old_recent size now ts :
  0 < size -> (forall x, In x ts -> 0 <= x <= now) -> now < 2 ^ 64 -> StronglySorted Z.le ts ->
  exists dr kept, ts = (dr ++ kept)%list /\
    drop_old now (map (fun x => x mod size) ts) = map (fun x => x mod size) kept /\
    forall x, In x kept -> now - 999 <= x <= now.
Proof.
  intros Z0 H N S. induction ts as [|t r IH]; cbn.
  - exists [], []. repeat split; intros; contradiction.
  - destruct (H t (or_introl eq_refl)) as [T0 T1]. inversion S as [|? ? S1 S2]; subst.
    pose proof (Z.mod_pos_bound t size Z0) as M. pose proof (Z.mod_le t size T0 Z0) as L.
    rewrite Z.mod_small by lia. destruct (Z.leb_spec 1000 (now - t mod size)).
    + destruct IH as (dr & kept & E & D & R); [intros; apply H; now right|assumption|].
      exists (t :: dr), kept. cbn. rewrite <- E. auto.
    + exists [], (t :: r). split; [reflexivity|]. split; [reflexivity|].
      intros x I. split; [|apply H; exact I]. destruct I as [<-|I]; [lia|].
      rewrite Forall_forall in S2. specialize (S2 x I). lia.
Qed.

Definition rate_inv (size max now0 : Z) (l : fslogger) (P : list Z) : Prop :=
  fl_size l = size /\ fl_max l = max /\ (forall x, In x P -> 0 <= x <= now0) /\
  (exists dr, P = (dr ++ fl_stamps l)%list /\ forall x, In x dr -> x + 1000 <= now0) /\
  (forall t, in_second t P <= max).

Lemma rate_step size max now0 l P a :
  rate_inv size max now0 l P -> 0 <= now0 <= fa_now a -> fa_now a < 2 ^ 64 -> fa_now a < size ->
  let '(l', o) := outputFailsafeLog l a in
  exists Q, rate_inv size max (fa_now a) l' (P ++ Q) /\ (o <> None -> Q = [fa_now a]) .
Proof.
  intros (SZ & M & B & (dr & E & O) & C) N0 N1 N2. unfold outputFailsafeLog. rewrite SZ, (Z.mod_small (fa_now a) size) by lia.
  destruct (drop_old_spec (fa_now a) (fl_stamps l)) as (dr2 & E2 & O2); [|lia|].
  { intros x I. destruct (B x); [rewrite E; apply in_or_app; now right|lia]. }
  set (stamps := drop_old (fa_now a) (fl_stamps l)) in *.
  assert (E3 : P = ((dr ++ dr2) ++ stamps)%list) by (rewrite E, E2, app_assoc; reflexivity).
  assert (O3 : forall x, In x (dr ++ dr2) -> x + 1000 <= fa_now a).
  { intros x I. apply in_app_iff in I. destruct I as [I|I]; [specialize (O x I); lia|auto]. }
  destruct ((fl_max l <=? Z.of_nat (List.length stamps)) || smem _ _) eqn:F; cbn [fst snd].
  - exists []. split; [|congruence]. rewrite app_nil_r. split; [reflexivity|]. split; [exact M|]. split; [intros x I; specialize (B x I); lia|].
    split; [exists (dr ++ dr2)%list; auto|exact C].
  - exists [fa_now a]. split; [|reflexivity]. apply orb_false_iff in F. destruct F as [F _]. apply Z.leb_gt in F.
    split; [reflexivity|]. split; [exact M|]. cbn [fl_stamps]. split; [|split].
    + intros x I. apply in_app_iff in I. destruct I as [I|[<-|[]]]; [specialize (B x I); lia|lia].
    + exists (dr ++ dr2)%list. split; [rewrite E3 at 1; rewrite !app_assoc; reflexivity|exact O3].
    + intro t. rewrite in_second_app.
      destruct (Z_le_gt_dec t (fa_now a)) as [T0|T0]; [destruct (Z_lt_ge_dec (fa_now a) (t + 1000)) as [T1|T1]|].
      * rewrite E3, in_second_app. rewrite (in_second_none t (dr ++ dr2)).
        2:{ intros x I. specialize (O3 x I). lia. }
        pose proof (in_second_le_length t stamps). pose proof (in_second_le_length t [fa_now a]). cbn in H0. lia.
      * rewrite (in_second_none t [fa_now a]); [specialize (C t); lia|]. intros x [<-|[]]. lia.
      * rewrite (in_second_none t [fa_now a]); [specialize (C t); lia|]. intros x [<-|[]]. lia.
Qed.

Lemma rate_run size max : forall h l P now0,
  rate_inv size max now0 l P -> 0 <= now0 -> clock_from now0 (map fa_now h) ->
  Forall (fun a => fa_now a < size) h ->
  forall t, in_second t (P ++ print_times h (snd (fs_run l h))) <= max.
Proof.
  induction h as [|a r IH]; intros l P now0 I N0 K W t; cbn.
  - rewrite app_nil_r. apply I.
  - cbn in K. destruct K as [K1 K2]. inversion W as [|? ? W1 W2]; subst.
    pose proof (rate_step size max now0 l P a I) as S.
    destruct (outputFailsafeLog l a) as [l1 o]. destruct S as (Q & I1 & HQ); [lia|lia|lia|].
    specialize (IH l1 (P ++ Q)%list (fa_now a) I1 ltac:(lia) K2 W2 t).
    destruct (fs_run l1 r) as [l2 os]. cbn in *. fold (print_times r os).
    rewrite in_second_app in *. rewrite in_second_app in IH.
    pose proof (in_second_nonneg t Q).
    destruct o as [x|]; cbn.
    + rewrite (HQ ltac:(discriminate)) in IH. change (fa_now a :: print_times r os) with ([fa_now a] ++ print_times r os)%list.
      rewrite in_second_app. lia.
    + lia.
Qed.

Lemma C38_lemma size max start h t0 t :
  0 <= max -> 0 <= t0 -> clock_from t0 (map fa_now h) -> Forall (fun a => fa_now a < size) h ->
  in_second t (print_times h (snd (fs_run (fslogger_new size max start) h))) <= max.
Proof.
  intros M T K W. apply (rate_run size max h (fslogger_new size max start) [] t0); [|assumption|assumption|assumption].
  split; [reflexivity|]. split; [reflexivity|]. split; [intros x []|]. split; [exists []; split; [reflexivity|intros x []]|].
  intro u. cbn. exact M.
Qed.

(** State and deduplication. *)
Lemma fs_state_step l a : fl_state (fst (outputFailsafeLog l a)) = fa_failsafe a.
Proof.
  unfold outputFailsafeLog. destruct (_ || _); cbn;
    destruct (fa_failsafe a), (fl_state l); reflexivity.
Qed.
Lemma last_default {A : Type} (x : A) l d d' : last (x :: l) d = last (x :: l) d'.
Proof. revert x. induction l as [|y r IH]; intro x; [reflexivity|]. change (last (y :: r) d = last (y :: r) d'). apply IH. Qed.
Lemma fs_state_run h : forall l, fl_state (fst (fs_run l h)) = last (map fa_failsafe h) (fl_state l).
Proof.
  induction h as [|a r IH]; intro l; cbn [fs_run]; [reflexivity|].
  pose proof (fs_state_step l a) as S. destruct (outputFailsafeLog l a) as [l1 o]. cbn in S.
  specialize (IH l1). destruct (fs_run l1 r) as [l2 os]. cbn [fst map] in *. rewrite IH, S.
  destruct r as [|b r']; [reflexivity|]. cbn [map].
  change (last (fa_failsafe b :: map fa_failsafe r') (fa_failsafe a) = last (fa_failsafe b :: map fa_failsafe r') (fl_state l)).
  apply last_default.
Qed.

Lemma C39_silence_lemma size max start h a :
  fa_failsafe a = false -> prints size max start h a <> None -> state_after start h = true.
Proof.
  rewrite prints_step. intros F P. unfold state_after.
  pose proof (fs_state_run h (fslogger_new size max start)) as S. cbn [fl_state fslogger_new] in S. rewrite <- S.
  unfold outputFailsafeLog in P. rewrite F in P.
  destruct (_ || _) in P; cbn in P; [congruence|]. destruct (fl_state _); [reflexivity|congruence].
Qed.

Lemma C39_leaving_lemma size max start h a x :
  prints size max start h a = Some x ->
  x = if fa_failsafe a then LIn (fa_location a) (fa_reason a) else LLeaves (fa_location a) (fa_reason a).
Proof.
  rewrite prints_step. unfold outputFailsafeLog. destruct (_ || _); cbn; [discriminate|].
  destruct (fa_failsafe a); [congruence|]. destruct (fl_state _); congruence.
Qed.

Lemma seen_kept msg st : forall h l,
  fl_state l = st -> In msg (fl_seen l) -> Forall (fun c => fa_failsafe c = st) h ->
  In msg (fl_seen (fst (fs_run l h))) /\ fl_state (fst (fs_run l h)) = st.
Proof.
  induction h as [|a r IH]; intros l S I F; cbn [fs_run]; [auto|].
  inversion F as [|? ? F1 F2]; subst.
  assert (G : In msg (fl_seen (fst (outputFailsafeLog l a)))).
  { unfold outputFailsafeLog. rewrite F1, eqb_reflx. cbn. destruct (_ || _); cbn; auto. }
  pose proof (fs_state_step l a) as S1. destruct (outputFailsafeLog l a) as [l1 o]. cbn in *.
  specialize (IH l1). rewrite S1, F1 in IH. specialize (IH eq_refl G F2). destruct (fs_run l1 r). exact IH.
Qed.

Lemma C39_once_lemma size max start h1 a h2 b :
  prints size max start h1 a <> None ->
  message b = message a ->
  prints size max start (h1 ++ a :: h2) b <> None ->
  exists c, In c (h2 ++ [b]) /\ fa_failsafe c <> fa_failsafe a.
Proof.
  intros P M Q. destruct (Forall_Exists_dec (fun c => fa_failsafe c = fa_failsafe a)) with (l := (h2 ++ [b])%list) as [F|F].
  { intro c. destruct (fa_failsafe c), (fa_failsafe a); auto; right; discriminate. }
  - exfalso. rewrite prints_step in P, Q.
    change (h1 ++ a :: h2)%list with (h1 ++ ([a] ++ h2))%list in Q.
    rewrite app_assoc, fs_run_app in Q. rewrite fs_run_app in Q. cbn [fst] in Q.
    set (l0 := fst (fs_run (fslogger_new size max start) h1)) in *. clearbody l0. cbn [fs_run] in Q.
    assert (G : In (message a) (fl_seen (fst (outputFailsafeLog l0 a)))).
    { unfold outputFailsafeLog in *. destruct (_ || _); cbn in *; [congruence|]. left. reflexivity. }
    pose proof (fs_state_step l0 a) as S. destruct (outputFailsafeLog l0 a) as [l1 o]. cbn in G, S, Q.
    apply Forall_app in F. destruct F as [F1 F2].
    destruct (seen_kept (message a) (fa_failsafe a) h2 l1 S G F1) as [G2 S2].
    set (l2 := fst (fs_run l1 h2)) in *. clearbody l2. apply Q.
    inversion F2 as [|? ? F3 _]; subst. unfold outputFailsafeLog. rewrite S2, F3, eqb_reflx. cbn [negb].
    fold (message b). rewrite M.
    apply smem_In in G2. rewrite G2, orb_true_r. reflexivity.
  - apply Exists_exists in F. exact F.
Qed.

(** A suppressed message has been accepted since the last change, or the second
    is full. *)
Definition full_inv (size now0 : Z) (l : fslogger) (h : list fs_attempt) : Prop :=
  fl_size l = size /\
  (exists ts, fl_stamps l = map (fun x => x mod size) ts /\
     StronglySorted Z.le ts /\ (forall x, In x ts -> 0 <= x <= now0) /\
     (forall t, in_second t ts <= in_second t (map fa_now h))) /\
  (forall m, In m (fl_seen l) ->
     exists h1 b h2, h = (h1 ++ b :: h2)%list /\ message b = m /\
                     Forall (fun c => fa_failsafe c = fl_state l) (b :: h2)).

Lemma sorted_snoc l x : StronglySorted Z.le l -> (forall y, In y l -> y <= x) -> StronglySorted Z.le (l ++ [x]).
Proof.
  intros S H. induction S as [|y r S IH F]; cbn; [repeat constructor|].
  constructor; [apply IH; intros; apply H; now right|].
  apply Forall_app. split; [exact F|]. constructor; [apply H; now left|constructor].
Qed.
Lemma sorted_suffix a b : StronglySorted Z.le (a ++ b) -> StronglySorted Z.le b.
Proof. induction a as [|x r IH]; cbn; [auto|]. intro S. inversion S. auto. Qed.

Lemma full_step size now0 l h a :
  0 < size -> full_inv size now0 l h -> 0 <= now0 <= fa_now a -> fa_now a < 2 ^ 64 ->
  full_inv size (fa_now a) (fst (outputFailsafeLog l a)) (h ++ [a]).
Proof.
  intros Z0 (SZ & (ts & TS & S & B & C) & G) N0 N1.
  assert (B' : forall x, In x ts -> 0 <= x <= fa_now a) by (intros x I; specialize (B x I); lia).
  destruct (drop_old_recent size (fa_now a) ts Z0 B' N1 S) as (dr & kept & E & KE & R).
  pose proof (fs_state_step l a) as ST.
  unfold outputFailsafeLog in *. rewrite TS, KE, SZ in *.
  assert (S' : StronglySorted Z.le kept) by (rewrite E in S; apply sorted_suffix in S; exact S).
  assert (C' : forall t, in_second t kept <= in_second t (map fa_now h)).
  { intro t. specialize (C t). rewrite E, in_second_app in C. pose proof (in_second_nonneg t dr). lia. }
  assert (G' : forall m, In m (if negb (Bool.eqb (fa_failsafe a) (fl_state l)) then [] else fl_seen l) ->
     exists h1 b h2, (h ++ [a] = h1 ++ b :: h2)%list /\ message b = m /\
                     Forall (fun c => fa_failsafe c = fa_failsafe a) (b :: h2)).
  { intros m I. destruct (Bool.eqb (fa_failsafe a) (fl_state l)) eqn:Q; cbn in I; [|destruct I].
    apply eqb_prop in Q. destruct (G m I) as (h1 & b & h2 & E1 & E2 & E3).
    exists h1, b, (h2 ++ [a])%list. split; [rewrite E1, <- app_assoc; reflexivity|]. split; [exact E2|].
    change (b :: h2 ++ [a])%list with ((b :: h2) ++ [a])%list. apply Forall_app. split.
    - rewrite Q. exact E3.
    - repeat constructor. }
  destruct (_ || _) in ST |- *; cbn [fst fl_state fl_stamps fl_seen] in ST |- *; rewrite ST;
    (split; [reflexivity|]; split); cbn [fl_stamps fl_seen fl_state].
  - exists kept. split; [reflexivity|]. split; [exact S'|]. split.
    + intros x I. apply B'. rewrite E. apply in_or_app. now right.
    + intro t. rewrite map_app, in_second_app. specialize (C' t). pose proof (in_second_nonneg t (map fa_now [a])). lia.
  - exact G'.
  - exists (kept ++ [fa_now a])%list. split; [rewrite map_app; reflexivity|]. split; [|split].
    + apply sorted_snoc; [exact S'|]. intros y I. specialize (R y I). lia.
    + intros x I. apply in_app_iff in I. destruct I as [I|[<-|[]]]; [|lia].
      apply B'. rewrite E. apply in_or_app. now right.
    + intro t. rewrite map_app, !in_second_app. specialize (C' t). cbn [map]. lia.
  - intros m [<-|I]; [|apply G'; exact I].
    exists h, a, []. split; [reflexivity|]. split; [reflexivity|repeat constructor].
Qed.

Lemma full_run size : 0 < size -> forall h h0 l now0,
  full_inv size now0 l h0 -> 0 <= now0 -> clock_from now0 (map fa_now h) ->
  full_inv size (last (map fa_now h) now0) (fst (fs_run l h)) (h0 ++ h).
Proof.
  intro Z0. induction h as [|a r IH]; intros h0 l now0 I N K; cbn [fs_run].
  - rewrite app_nil_r. exact I.
  - cbn in K. destruct K as [K1 K2].
    assert (I1 := full_step size now0 l h0 a Z0 I ltac:(lia) ltac:(lia)).
    destruct (outputFailsafeLog l a) as [l1 o]. cbn [fst] in I1.
    specialize (IH (h0 ++ [a])%list l1 (fa_now a) I1 ltac:(lia) K2).
    destruct (fs_run l1 r) as [l2 os]. cbn [fst map] in *. rewrite <- app_assoc in IH. cbn in IH.
    destruct r as [|b r']; [exact IH|]. cbn [map] in *.
    change (last (fa_now a :: fa_now b :: map fa_now r') now0) with (last (fa_now b :: map fa_now r') now0).
    rewrite (last_default (fa_now b) (map fa_now r') now0 (fa_now a)). exact IH.
Qed.

Lemma clock_last : forall ts t0, clock_from t0 ts -> t0 <= last ts t0 .
Proof.
  induction ts as [|x r IH]; intros t0 K; [cbn; lia|]. cbn in K. destruct K as [K1 K2]. specialize (IH x K2).
  destruct r as [|y r']; [cbn; lia|]. change (last (x :: y :: r') t0) with (last (y :: r') t0).
  rewrite (last_default y r' t0 x). lia.
Qed.
Lemma clock_app : forall ts t0 us, clock_from t0 (ts ++ us) -> clock_from t0 ts /\ clock_from (last ts t0) us.
Proof.
  induction ts as [|x r IH]; intros t0 us K; [split; [exact I|exact K]|].
  cbn in K. destruct K as [K1 K2]. destruct (IH x us K2) as [A B]. split; [cbn; auto|].
  destruct r as [|y r']; [exact B|]. change (last (x :: y :: r') t0) with (last (y :: r') t0).
  rewrite (last_default y r' t0 x). exact B.
Qed.

Lemma C39_complete_lemma size max start h a t0 :
  0 < size -> 0 <= t0 -> clock_from t0 (map fa_now (h ++ [a])) ->
  fa_failsafe a = true \/ state_after start h = true ->
  prints size max start h a = None ->
  (exists h1 b h2, h = (h1 ++ b :: h2)%list /\ message b = message a /\
                   Forall (fun c => fa_failsafe c = fa_failsafe a) (b :: h2)) \/
  max <= in_second (fa_now a - 999) (map fa_now h).
Proof.
  intros Z0 T K FS P. rewrite map_app in K. apply clock_app in K. destruct K as [K1 K2]. cbn in K2. destruct K2 as [K2 _].
  pose proof (clock_last _ _ K1) as L.
  assert (I0 : full_inv size t0 (fslogger_new size max start) []).
  { split; [reflexivity|]. split; [|intros m []]. exists []. split; [reflexivity|]. split; [constructor|].
    split; [intros x []|intro t; cbn; lia]. }
  pose proof (full_run size Z0 h [] _ t0 I0 T K1) as (SZ & (ts & TS & S & B & C) & G). cbn [app] in *.
  rewrite prints_step in P.
  pose proof (fs_state_run h (fslogger_new size max start)) as ST. cbn [fl_state fslogger_new] in ST. fold (state_after start h) in ST.
  assert (MX : fl_max (fst (fs_run (fslogger_new size max start) h)) = max).
  { clear. generalize (fslogger_new size max start) as l, (eq_refl : fl_max (fslogger_new size max start) = max).
    induction h as [|a r IH]; intros l E; cbn [fs_run]; [exact E|].
    assert (E1 : fl_max (fst (outputFailsafeLog l a)) = max).
    { unfold outputFailsafeLog. destruct (_ || _); exact E. }
    destruct (outputFailsafeLog l a) as [l1 o]. specialize (IH l1 E1). destruct (fs_run l1 r). exact IH. }
  set (l := fst (fs_run (fslogger_new size max start) h)) in *. clearbody l.
  assert (B' : forall x, In x ts -> 0 <= x <= fa_now a) by (intros x I; specialize (B x I); lia).
  destruct (drop_old_recent size (fa_now a) ts Z0 B' ltac:(lia) S) as (dr & stamps & E & KE & R).
  unfold outputFailsafeLog in P. rewrite TS, KE, map_length in P.
  destruct (fl_max l <=? Z.of_nat (List.length stamps)) eqn:F1.
  - right. apply Z.leb_le in F1. rewrite MX in F1. specialize (C (fa_now a - 999)). rewrite E, in_second_app in C.
    rewrite (in_second_all (fa_now a - 999) stamps) in C by (intros x I; specialize (R x I); lia).
    pose proof (in_second_nonneg (fa_now a - 999) dr). lia.
  - left. cbn [orb] in P. destruct (smem _ _) eqn:F2 in P.
    + apply smem_In in F2. fold (message a) in F2.
      destruct (Bool.eqb (fa_failsafe a) (fl_state l)) eqn:Q; cbn in F2; [|destruct F2].
      apply eqb_prop in Q. rewrite Q. apply G. exact F2.
    + exfalso. cbn in P. rewrite ST in P.
      destruct (fa_failsafe a); [discriminate|]. destruct FS as [FS|FS]; [discriminate|]. rewrite FS in P. discriminate.
Qed.

(** With times wider than a stamp every stamp looks old. *)
Lemma drop_old_all now stamps :
  2 ^ 32 + 1000 <= now < 2 ^ 64 -> Forall (fun x => 0 <= x < 2 ^ 32) stamps -> drop_old now stamps = [].
Proof.
  intros N F. induction F as [|x r X F IH]; cbn [drop_old]; [reflexivity|].
  rewrite Z.mod_small by lia. destruct (Z.leb_spec 1000 (now - x)); [exact IH|lia].
Qed.

Definition wide_inv (max : Z) (l : fslogger) (h : list fs_attempt) : Prop :=
  fl_size l = size32 /\ fl_max l = max /\ Forall (fun x => 0 <= x < 2 ^ 32) (fl_stamps l) /\
  (forall m, In m (fl_seen l) -> In m (map message h)).

Lemma wide_step max l h a :
  2 ^ 32 + 1000 <= fa_now a < 2 ^ 64 -> wide_inv max l h ->
  wide_inv max (fst (outputFailsafeLog l a)) (h ++ [a]).
Proof.
  intros N (SZ & M & F & G). unfold outputFailsafeLog. rewrite (drop_old_all _ _ N F).
  assert (G' : forall m, In m (if negb (Bool.eqb (fa_failsafe a) (fl_state l)) then [] else fl_seen l) ->
            In m (map message (h ++ [a]))).
  { intros m I. rewrite map_app. apply in_or_app. left. destruct (negb _) in I; [destruct I|auto]. }
  destruct (_ || _); (split; [exact SZ|]; split; [exact M|]; split); cbn [fst fl_stamps fl_seen app].
  - constructor.
  - exact G'.
  - constructor; [|constructor]. rewrite SZ. unfold size32. apply Z.mod_pos_bound. reflexivity.
  - intros m [<-|I]; [|apply G'; exact I]. rewrite map_app. apply in_or_app. right. now left.
Qed.

Lemma wide_run max : forall h h0 l,
  Forall (fun a => 2 ^ 32 + 1000 <= fa_now a < 2 ^ 64) h -> wide_inv max l h0 ->
  wide_inv max (fst (fs_run l h)) (h0 ++ h).
Proof.
  induction h as [|a r IH]; intros h0 l F I; cbn [fs_run]; [rewrite app_nil_r; exact I|].
  inversion F as [|? ? F1 F2]; subst.
  pose proof (wide_step max l h0 a F1 I) as I1. destruct (outputFailsafeLog l a) as [l1 o]. cbn [fst] in I1.
  specialize (IH (h0 ++ [a])%list l1 F2 I1). destruct (fs_run l1 r) as [l2 os]. cbn [fst] in *.
  rewrite <- app_assoc in IH. exact IH.
Qed.

Lemma C38_wide_lemma max start h a :
  0 < max -> Forall (fun a => 2 ^ 32 + 1000 <= fa_now a < 2 ^ 64) (h ++ [a]) ->
  fa_failsafe a = true \/ state_after start h = true ->
  (forall b, In b h -> message b <> message a) ->
  prints size32 max start h a <> None.
Proof.
  intros M F FS N. apply Forall_app in F. destruct F as [F1 F2]. inversion F2 as [|? ? F3 _]; subst.
  pose proof (wide_run max h [] (fslogger_new size32 max start) F1) as W. cbn [app] in W.
  destruct W as (SZ & MX & F & G).
  { split; [reflexivity|]. split; [reflexivity|]. split; [constructor|intros m []]. }
  rewrite prints_step.
  pose proof (fs_state_run h (fslogger_new size32 max start)) as ST. cbn [fl_state fslogger_new] in ST.
  fold (state_after start h) in ST.
  set (l := fst (fs_run (fslogger_new size32 max start) h)) in *. clearbody l.
  unfold outputFailsafeLog. rewrite (drop_old_all _ _ F3 F), MX, ST. cbn [List.length Z.of_nat].
  replace (max <=? 0) with false by (symmetry; apply Z.leb_gt; exact M). cbn [orb].
  fold (message a).
  destruct (smem (message a) (if negb (Bool.eqb (fa_failsafe a) (state_after start h)) then [] else fl_seen l)) eqn:Q.
  - exfalso. apply smem_In in Q. destruct (negb _) in Q; [destruct Q|].
    specialize (G _ Q). apply in_map_iff in G. destruct G as (b & E & I). exact (N b I E).
  - cbn [snd]. destruct (fa_failsafe a); [discriminate|]. destruct FS as [X|X]; [discriminate|].
    rewrite X. discriminate.
Qed.

(** ** Throttle *)
Lemma throttle_spec pace : forall ts st t bs,
  throttle_run pace st (ts ++ [t]) = (bs ++ [true])%list ->
  List.length bs = List.length ts ->
  match rev (match st with Some x => [x] | None => [] end ++ let_through ts bs) with
  | [] => True
  | x :: _ => pace <= t - x
  end.
Proof.
  induction ts as [|u r IH]; intros st t bs H L.
  - destruct bs; [|discriminate]. cbn in *. destruct st as [x|]; cbn in *; [|exact I].
    destruct (Z.ltb_spec (t - x) pace); cbn in H; [discriminate|lia].
  - destruct bs as [|b bs]; [discriminate|]. cbn [app throttle_run] in H.
    destruct (allowThrottle pace st u) as [st' b'] eqn:E. injection H as -> H.
    specialize (IH st' t bs H ltac:(cbn in L; lia)).
    unfold let_through in *. cbn [combine flat_map] in *.
    unfold allowThrottle in E. destruct st as [x|].
    + destruct (u - x <? pace); injection E as <- <-; cbn [app] in *; [exact IH|].
      destruct (rev (u :: flat_map _ (combine r bs))) as [|y q] eqn:Q in IH.
      { apply (f_equal (@List.length Z)) in Q. rewrite rev_length in Q. discriminate. }
      change (x :: u :: ?q0)%list with ([x] ++ (u :: q0))%list. rewrite rev_app_distr, Q. cbn. exact IH.
    + injection E as <- <-. exact IH.
Qed.
Lemma throttle_suppressed pace : forall ts st t bs,
  throttle_run pace st (ts ++ [t]) = (bs ++ [false])%list ->
  List.length bs = List.length ts ->
  exists x q, rev (match st with Some x => [x] | None => [] end ++ let_through ts bs) = x :: q /\ t - x < pace.
Proof.
  induction ts as [|u r IH]; intros st t bs H L.
  - destruct bs; [|discriminate]. cbn in *. destruct st as [x|]; cbn in *; [|discriminate].
    destruct (Z.ltb_spec (t - x) pace); cbn in H; [|discriminate]. exists x, []. auto.
  - destruct bs as [|b bs]; [discriminate|]. cbn [app throttle_run] in H.
    destruct (allowThrottle pace st u) as [st' b'] eqn:E. injection H as -> H.
    specialize (IH st' t bs H ltac:(cbn in L; lia)).
    unfold let_through in *. cbn [combine flat_map] in *.
    unfold allowThrottle in E. destruct st as [x|].
    + destruct (u - x <? pace); injection E as <- <-; cbn [app] in *; [exact IH|].
      destruct IH as (y & q & Q & LT).
      change (x :: u :: ?q0)%list with ([x] ++ (u :: q0))%list. rewrite rev_app_distr. cbn [app] in Q. rewrite Q.
      exists y, (q ++ rev [x])%list. auto.
    + injection E as <- <-. exact IH.
Qed.
Lemma throttle_length pace : forall ts st, List.length (throttle_run pace st ts) = List.length ts.
Proof. induction ts as [|t r IH]; intro st; cbn; [reflexivity|]. destruct (allowThrottle pace st t). cbn. auto. Qed.
Lemma throttle_prefix pace : forall ts st us,
  exists r, throttle_run pace st (ts ++ us) = (throttle_run pace st ts ++ r)%list.
Proof.
  induction ts as [|t r IH]; intros st us; cbn; [eexists; reflexivity|].
  destruct (allowThrottle pace st t) as [st' b]. destruct (IH st' us) as [q Q]. rewrite Q. eexists. reflexivity.
Qed.

Lemma C48_lemma pace ts t :
  let earlier := let_through ts (throttle_run pace None ts) in
  let now := last (throttle_run pace None (ts ++ [t])) false in
  now = true <-> earlier = [] \/ exists before x, earlier = (before ++ [x])%list /\ pace <= t - x.
Proof.
  cbv zeta. destruct (throttle_prefix pace ts None [t]) as [q Q].
  pose proof (throttle_length pace (ts ++ [t]) None) as L1. rewrite Q in *.
  pose proof (throttle_length pace ts None) as L2. rewrite !app_length in L1. cbn in L1.
  destruct q as [|b [|b' q]]; cbn in L1; try lia. rewrite last_last.
  set (bs := throttle_run pace None ts) in *. clearbody bs. destruct b.
  - split; [|reflexivity]. intros _. pose proof (throttle_spec pace ts None t bs Q L2) as S. cbn in S.
    destruct (rev (let_through ts bs)) as [|x p] eqn:R.
    + left. apply (f_equal (@rev Z)) in R. rewrite rev_involutive in R. exact R.
    + right. exists (rev p), x. split; [|exact S]. apply (f_equal (@rev Z)) in R. rewrite rev_involutive in R. exact R.
  - split; [discriminate|]. intro H. exfalso.
    destruct (throttle_suppressed pace ts None t bs Q L2) as (x & p & R & LT). cbn in R.
    apply (f_equal (@rev Z)) in R. rewrite rev_involutive in R. cbn in R. rewrite R in H.
    destruct H as [H|(bf & y & H & LE)]; [destruct (rev p); discriminate|].
    apply app_inj_tail in H. destruct H as [_ ->]. lia.
Qed.
