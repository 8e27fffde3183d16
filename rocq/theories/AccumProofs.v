(** * The requester when setpoints are accumulated (C86). *)
From Coq Require Import ZArith Bool List Ascii String Lia.
From Coq Require Import Floats.SpecFloat.
From Flocq Require Import BinarySingleNaN.
From Verif Require Import Base BaseFacts Dbl DblFacts DblOrder PidModel ZoneModel LoopModel SpecZone SpecWrite SpecAccum
  ZoneFrame ZoneThermal ZoneFan ZoneProofs LoopProofs ReactionProofs SystemProofs.
Import ListNotations.
Local Open Scope string_scope.

Lemma running_sums_length reqs : List.length (running_sums reqs) = List.length reqs.
Proof. unfold running_sums. rewrite map_length, seq_length. reflexivity. Qed.
Lemma profile_sums_app l r :
  profile_sums (l ++ [r]) = (profile_sums l ++ [(profile_of (fst r), profile_sum (profile_of (fst r)) (l ++ [r]))])%list.
Proof.
  unfold profile_sums. rewrite running_sums_app, map_app.
  assert (H : List.length (map (fun r => profile_of (fst r)) l) = List.length (running_sums l))
    by (rewrite map_length, running_sums_length; reflexivity).
  revert H. generalize (map (fun r => profile_of (fst r)) l), (running_sums l).
  induction l0 as [|x a IH]; intros [|y b] H; try discriminate; cbn; [reflexivity|].
  rewrite IH; [reflexivity|]. cbn in H. lia.
Qed.

Lemma fold_req_lead reqs :
  (fr_max (fold_req true reqs), fr_name (fold_req true reqs)) = fold_left lead (profile_sums reqs) (d0, "").
Proof.
  induction reqs as [|r reqs IH] using rev_ind; [reflexivity|].
  rewrite fold_req_app, profile_sums_app, fold_left_app, <- IH.
  destruct (fold_req_acc reqs) as (_ & B).
  destruct (fold_req true reqs) as [[m mx] nm]. unfold fr_max, fr_map, fr_name in *.
  destruct r as [n s]. cbn [fst snd] in *.
  assert (E : profile_sum (profile_of n) (reqs ++ [(n, s)]) = dadd (profile_sum (profile_of n) reqs) s).
  { rewrite profile_sum_app. cbn [fst snd]. rewrite String.eqb_refl. reflexivity. }
  rewrite E, <- B. simpl. unfold lead. simpl.
  destruct (dltb mx _); reflexivity.
Qed.

Definition naming (part : string) (ids : list string) : list string := filter (fun i => str_contains part i) ids.
Lemma naming_picks part ids : part <> "" -> picks (contains part) ids (naming part ids).
Proof.
  intros N. induction ids as [|i r IH]; cbn; [constructor|].
  assert (C := contains_iff part i N). destruct (str_contains part i).
  - apply picks_yes; [apply C; reflexivity|exact IH].
  - apply picks_no; [|exact IH]. intros X. apply C in X. discriminate X.
Qed.
Lemma contains_empty s : contains "" s.
Proof. exists "", s. reflexivity. Qed.
Lemma str_contains_empty s : str_contains "" s = true.
Proof. destruct s; reflexivity. Qed.
Lemma naming_all ids : picks (contains "") ids (naming "" ids).
Proof.
  induction ids as [|i r IH]; cbn; [constructor|]. rewrite str_contains_empty.
  apply picks_yes; [apply contains_empty|exact IH].
Qed.
Lemma picks_of part ids : picks (contains part) ids (naming part ids).
Proof. destruct (string_dec part "") as [-> |N]; [apply naming_all|apply naming_picks; exact N]. Qed.

Lemma append_assoc a b c : (a ++ b) ++ c = a ++ b ++ c.
Proof. induction a as [|x a IH]; cbn; [reflexivity|]. now rewrite IH. Qed.
Lemma append_nil_r a : a ++ "" = a.
Proof. induction a as [|x a IH]; cbn; [reflexivity|]. now rewrite IH. Qed.
Lemma append_eq_nil a b : a ++ b = "" -> a = "".
Proof. destruct a; [reflexivity|discriminate]. Qed.

Fixpoint tail_join (l : list string) : string :=
  match l with [] => "" | x :: r => " + " ++ x ++ tail_join r end.
Lemma concat_cons x r : String.concat " + " (x :: r) = x ++ tail_join r.
Proof.
  revert x. induction r as [|y r IH]; intros x; [cbn; symmetry; apply append_nil_r|].
  change (String.concat " + " (x :: y :: r)) with (x ++ " + " ++ String.concat " + " (y :: r)).
  rewrite IH. cbn [tail_join]. reflexivity.
Qed.
Lemma join_spec part ts : Forall (fun t => thermal_id t <> "") ts ->
  join_leaders part ts = String.concat " + " (naming part (map thermal_id ts)).
Proof.
  intros N. unfold join_leaders.
  assert (G : forall ts acc, acc <> "" ->
    fold_left (fun acc t => let id := thermal_id t in
       if str_contains part id then (if String.eqb acc "" then id else acc ++ " + " ++ id) else acc) ts acc =
    acc ++ tail_join (naming part (map thermal_id ts))).
  { clear. induction ts as [|t ts IH]; intros acc Na; cbn [fold_left naming filter map tail_join].
    - symmetry. apply append_nil_r.
    - cbv zeta. destruct (str_contains part (thermal_id t)) eqn:E.
      + destruct (String.eqb_spec acc "") as [X|_]; [contradiction|]. rewrite IH.
        * cbn [tail_join]. rewrite !append_assoc. reflexivity.
        * intros X. apply append_eq_nil in X. contradiction.
      + apply IH. exact Na. }
  induction ts as [|t ts IH]; [reflexivity|]. inversion N as [|? ? Nt Ns]; subst.
  cbn [fold_left map naming filter]. cbv zeta. destruct (str_contains part (thermal_id t)) eqn:E.
  - rewrite String.eqb_refl, G by exact Nt. rewrite concat_cons. reflexivity.
  - apply IH. exact Ns.
Qed.

Lemma det_core_accum z : z_accumulateSetPoint z = true ->
  z_maximumSetPointName (det_core z) =
  if dgeb (z_minThermalOutputSetPt z) (capped z) then "Minimum"
  else join_leaders
    match z_rpmCeilings z with
    | [] => z_maximumSetPointName z
    | c :: r => if dltb (min_element c r) (z_maximumSetPoint z) then "Ceiling" else z_maximumSetPointName z
    end (z_thermals z).
Proof.
  intros Ac. unfold det_core, apply_ceilings, capped. cbv zeta.
  destruct (z_rpmCeilings z) as [|c r]; [|destruct (dltb (min_element c r) (z_maximumSetPoint z))];
    cbn [z_maximumSetPoint z_accumulateSetPoint z_minThermalOutputSetPt set_maximumSetPointName set_maximumSetPoint
         z_maximumSetPointName z_thermals];
    rewrite Ac;
    cbn [z_maximumSetPoint z_accumulateSetPoint z_minThermalOutputSetPt set_maximumSetPointName set_maximumSetPoint
         z_maximumSetPointName z_thermals];
    (destruct (dgeb _ _); [reflexivity|destruct (String.eqb _ _); reflexivity]).
Qed.

Lemma ids_next rd ts : map thermal_id (map (ctl_next rd) ts) = map thermal_id ts.
Proof. rewrite map_map. apply map_ext. intros []; reflexivity. Qed.

Lemma C86_lemma f env te z z' :
  thermal_cycle f env te z = Ok z' -> tuningEnabled f = false -> z_accumulateSetPoint z = true ->
  Forall (fun t => thermal_id t <> "") (z_thermals z) ->
  Forall notnan (ceilings (cycle_readings env z) z) -> notnan (z_minThermalOutputSetPt z) ->
  exists top capped profile,
    is_max_of top (d0 :: running_sums (requests (cycle_readings env z) z)) /\
    capped_at (ceilings (cycle_readings env z) z) top capped /\
    leader (profile_sums (requests (cycle_readings env z) z)) top profile /\
    ((dle capped (z_minThermalOutputSetPt z) /\ z_maximumSetPoint z' = z_minThermalOutputSetPt z /\
      z_maximumSetPointName z' = "Minimum") \/
     (dlt (z_minThermalOutputSetPt z) capped /\ z_maximumSetPoint z' = capped /\ dlt capped top /\
      all_named "Ceiling" z (z_maximumSetPointName z')) \/
     (dlt (z_minThermalOutputSetPt z) capped /\ z_maximumSetPoint z' = capped /\ capped = top /\
      all_named profile z (z_maximumSetPointName z'))).
Proof.
  intros H Tn Ac Ni Nc Nm. apply cycle_requests in H. destruct H as (z2 & D & S & C & Cf & Th & _).
  rewrite determine_split, Tn in D. injection D as <-. rewrite Ac in S.
  set (reqs := requests (cycle_readings env z) z) in *.
  destruct (fold_req_acc reqs) as (A & _). assert (A2 := fold_req_lead reqs).
  assert (Em : z_maximumSetPoint z2 = fr_max (fold_req true reqs)) by (rewrite <- S; reflexivity).
  assert (En : z_maximumSetPointName z2 = fr_name (fold_req true reqs)) by (rewrite <- S; reflexivity).
  assert (Az : z_accumulateSetPoint z2 = true) by (use_conf Cf; exact Ac).
  assert (Mi : z_minThermalOutputSetPt z2 = z_minThermalOutputSetPt z) by (use_conf Cf; reflexivity).
  assert (Jn : forall part, all_named part z (join_leaders part (z_thermals z2))).
  { intros part. exists (naming part (map thermal_id (z_thermals z))). split; [apply picks_of|].
    rewrite join_spec.
    - rewrite Th, ids_next. reflexivity.
    - rewrite Th. apply Forall_map. eapply Forall_impl; [|exact Ni]. intros [] X; exact X. }
  rewrite (det_core_accum _ Az), det_core_max, Mi.
  exists (z_maximumSetPoint z2), (capped z2), (z_maximumSetPointName z2).
  split. { rewrite Em, A. apply fold_dmax_is_max. }
  assert (N2 : notnan (z_maximumSetPoint z2)) by (rewrite Em; apply fold_req_notnan).
  assert (Ncap := capped_notnan _ N2).
  split.
  { unfold capped, capped_at. rewrite C. destruct (ceilings (cycle_readings env z) z) as [|c r]; [auto|].
    right. assert (Ncc : notnan c) by (inversion Nc; assumption).
    rewrite min_element_fold. exists (fold_left dmin r c). split.
    - split.
      + exists (fold_left dmin r c). split; [apply fold_dmin_in|]. apply deq_refl, fold_dmin_notnan, Ncc.
      + intros x [<-|I] Nx; [apply fold_dmin_le_start, Ncc|apply fold_dmin_le; assumption].
    - destruct (dltb (fold_left dmin r c) (z_maximumSetPoint z2)) eqn:F; [right; split; [exact F|reflexivity]|].
      left. split; [|reflexivity]. apply dltb_false_dle; auto. apply fold_dmin_notnan, Ncc. }
  split. { rewrite Em, En. destruct (lead_spec (profile_sums reqs)) as (Ls & _). rewrite <- A2 in Ls. exact Ls. }
  unfold dgeb. destruct (dleb (capped z2) (z_minThermalOutputSetPt z)) eqn:E.
  { left. split; [exact E|]. split; reflexivity. }
  right. assert (L : dlt (z_minThermalOutputSetPt z) (capped z2)) by (apply dleb_false_dlt; assumption).
  unfold capped in *. rewrite C in *.
  destruct (ceilings (cycle_readings env z) z) as [|c r].
  - right. split; [exact L|]. split; [reflexivity|]. split; [reflexivity|apply Jn].
  - rewrite min_element_fold in *.
    destruct (dltb (fold_left dmin r c) (z_maximumSetPoint z2)) eqn:F.
    + left. split; [exact L|]. split; [reflexivity|]. split; [exact F|apply Jn].
    + right. split; [exact L|]. split; [reflexivity|]. split; [reflexivity|apply Jn].
Qed.

(** The controllers behind the winning sum are all named. *)
Lemma picks_in P l l' x : picks P l l' -> In x l -> P x -> In x l'.
Proof.
  intros H. induction H as [|y l l' Y H IH|y l l' Y H IH]; intros I X; [destruct I| |].
  - destruct I as [<-|I]; [left; reflexivity|right; auto].
  - destruct I as [<-|I]; [contradiction|auto].
Qed.
Lemma after_contains s r : after_first_underscore s = Some r -> contains r s.
Proof.
  induction s as [|c s IH]; [discriminate|]. cbn [after_first_underscore].
  destruct (Ascii.eqb c "_"%char).
  - intros H. injection H as <-. exists (String c ""), "". cbn. now rewrite append_nil_r.
  - intros H. destruct (IH H) as (a & b & ->). exists (String c a), b. reflexivity.
Qed.
Lemma profile_in s : contains (profile_of s) s.
Proof.
  unfold profile_of. destruct (after_first_underscore s) as [r|] eqn:E; [now apply after_contains|].
  exists "", "". cbn. now rewrite append_nil_r.
Qed.
Lemma request_id rd z n v : In (n, v) (requests rd z) -> In n (map thermal_id (z_thermals z)).
Proof.
  unfold requests. intros H. apply in_flat_map in H. destruct H as (t & I & H).
  destruct (_ && _); [|destruct H]. destruct H as [H|[]]. injection H as <- _. apply in_map. exact I.
Qed.
Lemma C86_contributors_lemma rd z n v profile l :
  In (n, v) (requests rd z) -> has_profile n profile ->
  picks (contains profile) (map thermal_id (z_thermals z)) l -> In n l.
Proof.
  intros I P K. apply profile_iff in P. subst profile.
  eapply picks_in; [exact K|eapply request_id; exact I|apply profile_in].
Qed.

Lemma dsame_eq a b : dsame a b = true -> a = b.
Proof.
  unfold dsame. intros H. apply B2SF_inj.
  destruct (B2SF a) as [s|s| |s m e], (B2SF b) as [s'|s'| |s' m' e']; try discriminate H; try reflexivity.
  - apply eqb_prop in H. now subst.
  - apply eqb_prop in H. now subst.
  - apply andb_true_iff in H. destruct H as (H & E). apply andb_true_iff in H. destruct H as (S & M).
    apply eqb_prop in S. apply Pos.eqb_eq in M. apply Z.eqb_eq in E. now subst.
Qed.
