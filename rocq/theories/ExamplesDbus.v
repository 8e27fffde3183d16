(** * A configuration on D-Bus, for the examples of PropertiesDbus.v. *)
From Coq Require Import ZArith Bool List String Lia.
From Verif Require Import Base BaseFacts Dbl DblFacts PidModel ZoneModel LoopModel ZoneProofs BuilderModel SpecBuilder
  SensorModel WriteModel SpecWrite PathProofs SystemModel SpecSystem SystemProofs PropertiesZone PropertiesBuilder PropertiesSensor PropertiesSystem
  JsonModel SpecJson ConfigModel DbusConfigModel SpecDbus SpecDbusSystem DbusProofs DbusProofs2 DbusProofs3.
Import ListNotations.
Local Open Scope string_scope.

Definition dx_inv : string := "/xyz/openbmc_project/inventory".
Definition dx_fan1 : string := "/xyz/openbmc_project/sensors/fan_tach/fan_1".
Definition dx_temp1 : string := "/xyz/openbmc_project/sensors/temperature/temp1".
Definition dx_pwm1 : string := "/xyz/openbmc_project/control/fanpwm/pwm_1".

Definition dx_zone (more : properties) : properties :=
  (more ++ [("Name", VStr "Main"); ("MinThermalOutput", VDbl (D 3000)); ("FailSafePercent", VU64 75);
            ("ZoneIndex", VDbl (D 3)); ("CycleIntervalTimeMS", VU64 200)])%list.
Definition dx_coeffs (zone : string) : properties :=
  [("Zones", VStrs [zone]); ("PCoefficient", VDbl (D 1)); ("ICoefficient", VI64 0); ("FFOffCoefficient", VI64 0);
   ("FFGainCoefficient", VDbl (D 1)); ("ILimitMin", VI64 0); ("ILimitMax", VI64 0); ("OutLimitMin", VU64 30);
   ("OutLimitMax", VU64 100); ("SlewNeg", VI64 0); ("SlewPos", VI64 0)].
Definition dx_fan_pid : properties :=
  (("Name", VStr "Fan 1") :: ("Class", VStr "fan") :: ("Inputs", VStrs ["fan 1"]) :: ("Outputs", VStrs ["pwm 1"]) ::
   dx_coeffs "Main")%list.
Definition dx_temp_pid (name class : string) (inputs : list string) (more : properties) : properties :=
  (more ++ [("Name", VStr name); ("Class", VStr class); ("Inputs", VStrs inputs); ("SetPoint", VDbl (D 60))] ++
   dx_coeffs "Main")%list.
Definition dx_step (inputs : list string) : properties :=
  [("Name", VStr "Step"); ("Class", VStr "Ceiling"); ("Zones", VStrs ["Main"]); ("Inputs", VStrs inputs);
   ("FailSafePercent", VU64 80); ("Reading", VDbls [D 40; D 50]); ("Output", VDbls [D 3000; D 6000])].

Definition dx_resp : subtree :=
  [(dx_inv, [("em", [manager_intf])]);
   ("/inv/zone", [("em", [zone_intf])]); ("/inv/fan", [("em", [pid_intf])]); ("/inv/cpu", [("em", [pid_intf; stepwise_intf])]);
   (dx_fan1, [("fans", [value_intf])]); (dx_pwm1, [("fans", [pwm_intf])]); (dx_temp1, [("adc", [value_intf])])].
Definition dx_objects (zone : properties) (cpu : object) : smap object :=
  [("/inv/zone", [(zone_intf, zone)]); ("/inv/fan", [(pid_intf, dx_fan_pid)]); ("/inv/cpu", cpu)].
Definition dx_bus (objs : smap object) : config_bus :=
  ConfigBus (Some dx_resp) (fun owner m => if String.eqb owner "em" && String.eqb m dx_inv then Some objs else None)
    (Some []) (ThresholdBus (fun _ _ => true) (fun _ _ _ => Some (D 5))).
(** Patterns are "/name$", without special characters. *)
Definition dx_regex : regex := fun p =>
  Ok (fun path => let s := path ++ "$" in String.eqb (substring (String.length s - String.length p) (String.length p) s) p).

Definition dx_cpu : object :=
  [(pid_intf, dx_temp_pid "CPU" "temp" ["temp1"] []); (stepwise_intf, dx_step ["temp1"])].
Definition dx_objs : smap object := dx_objects (dx_zone []) dx_cpu.

(** ** What is on this bus *)
Ltac dx_in H := cbn in H; repeat (destruct H as [H|H]); try contradiction H.
Lemma dx_on path i : on_bus dx_resp path i ->
  In (path, i) [(dx_inv, manager_intf); ("/inv/zone", zone_intf); ("/inv/fan", pid_intf); ("/inv/cpu", pid_intf);
    ("/inv/cpu", stepwise_intf); (dx_fan1, value_intf); (dx_pwm1, pwm_intf); (dx_temp1, value_intf)].
Proof.
  intros (services & owner & intfs & H1 & H2 & H3). dx_in H1; injection H1 as <- <-; dx_in H2; injection H2 as <- <-;
    dx_in H3; subst i; cbn [In]; tauto.
Qed.
Lemma dx_sensor path : bus_sensor dx_resp path <-> path = dx_fan1 \/ path = dx_temp1.
Proof.
  split.
  - intros [H _]. apply dx_on in H. dx_in H; injection H; clear H; intros; subst; try discriminate; auto.
  - intros [->| ->]; (split; [|apply not_in; [discriminate|vm_compute; reflexivity]]); eexists; eexists; eexists;
      (split; [cbn [dx_resp In]; repeat first [left; reflexivity|right]|split; [left; reflexivity|left; reflexivity]]).
Qed.
Lemma dx_pwm path : bus_pwm dx_resp path <-> path = dx_pwm1.
Proof.
  split.
  - intros H. apply dx_on in H. dx_in H; injection H; clear H; intros; subst; try discriminate; auto.
  - intros ->. eexists. eexists. eexists.
    split; [cbn [dx_resp In]; repeat first [left; reflexivity|right]|split; [left; reflexivity|left; reflexivity]].
Qed.
Lemma dx_mgr mgr : managers dx_resp mgr -> mgr "em" = dx_inv.
Proof.
  intros H. destruct (H "em") as [(services & intfs & H1 & H2 & H3)|[H1 _]].
  - dx_in H1; injection H1 as E <-; dx_in H2; try discriminate; injection H2 as <-; dx_in H3; discriminate || congruence.
  - exfalso. apply (H1 dx_inv). eexists. eexists. split; [left; reflexivity|]. split; [left; reflexivity|left; reflexivity].
Qed.
Lemma dx_owner owner : has_config dx_resp owner -> owner = "em".
Proof.
  intros (path & services & intfs & i & H1 & H2 & H3 & H4).
  dx_in H1; injection H1 as <- <-; dx_in H2; injection H2 as <- <-; try reflexivity; dx_in H3; subst i;
    destruct H4 as [H4|[H4|H4]]; discriminate.
Qed.
Lemma dx_offered objs mgr path o : managers dx_resp mgr -> offered (dx_bus objs) dx_resp mgr path o -> In (path, o) objs.
Proof.
  intros M (owner & l & H1 & H2 & H3 & _). apply dx_owner in H1. subst owner. rewrite (dx_mgr _ M) in H2.
  cbn in H2. injection H2 as <-. exact H3.
Qed.
Lemma all_selected o o' : only_selected [] o o' -> o' = o.
Proof. induction 1 as [|i props o o' H _ IH|i props o o' H _ IH]; [reflexivity|congruence|]. destruct H. left. reflexivity. Qed.
Lemma dx_read objs l : reads (dx_bus objs) dx_resp l -> NoDup (map fst l) /\ incl l objs.
Proof.
  intros (selected & mgr & S & M & N & _ & R & _). cbn in S. injection S as <-. split; [exact N|].
  intros [path o] I. destruct (R _ _ I) as (o' & O & E). apply all_selected in E. subst o'. eapply dx_offered; eassumption.
Qed.
Lemma parts_length k objs : (forall e, In e objs -> (List.length (parts_of (snd e)) <= k)%nat) ->
  (List.length (parts objs) <= k * List.length objs)%nat.
Proof.
  induction objs as [|e r IH]; intros H; cbn; [lia|]. rewrite app_length.
  pose proof (H e (or_introl eq_refl)). specialize (IH (fun e' I => H e' (or_intror I))). unfold parts in IH. lia.
Qed.
Lemma dx_few objs l k : reads (dx_bus objs) dx_resp l -> (forall e, In e objs -> (List.length (parts_of (snd e)) <= k)%nat) ->
  (List.length l + List.length (parts l) <= List.length objs + k * List.length objs)%nat.
Proof.
  intros R H. destruct (dx_read _ _ R) as [N I].
  assert (L : (List.length l <= List.length objs)%nat).
  { rewrite <- (map_length fst l), <- (map_length fst objs). apply NoDup_incl_length; [exact N|]. intros p J.
    apply in_map_iff in J. destruct J as (e & <- & J). apply in_map, I, J. }
  pose proof (parts_length k l (fun e J => H e (I e J))).
  assert (k * List.length l <= k * List.length objs)%nat by (apply Nat.mul_le_mono_l, L). lia.
Qed.

(** Every list the search may go through. *)
Lemma filter_one (p : string -> bool) l x : NoDup l -> In x l -> p x = true -> (forall y, In y l -> y <> x -> p y = false) ->
  filter p l = [x].
Proof.
  intros N I P O.
  assert (Z : forall r, ~ In x r -> incl r l -> filter p r = []).
  { induction r as [|y r IH]; intros Nx In'; [reflexivity|]. cbn. rewrite O.
    - apply IH; [intros J; apply Nx; right; exact J|]. intros z J. apply In'. right. exact J.
    - apply In'. left. reflexivity.
    - intros ->. apply Nx. left. reflexivity. }
  assert (G : forall r, NoDup r -> In x r -> incl r l -> filter p r = [x]).
  { induction r as [|y r IH]; intros Nr Ir In'; [destruct Ir|]. inversion Nr as [|? ? A B]; subst. destruct Ir as [->|Ir].
    - cbn. rewrite P, (Z r A); [reflexivity|]. intros z J. apply In'. right. exact J.
    - cbn. rewrite O.
      + apply IH; [exact B|exact Ir|]. intros z J. apply In'. right. exact J.
      + apply In'. left. reflexivity.
      + intros ->. contradiction. }
  apply G; [exact N|exact I|intros z J; exact J].
Qed.
Lemma dx_found sf tb bus name path : searched dx_resp bus -> In path [dx_fan1; dx_temp1; dx_pwm1] ->
  In (name, path) [("fan 1", dx_fan1); ("temp1", dx_temp1); ("pwm 1", dx_pwm1)] ->
  found (Setting sf dx_regex dx_resp bus tb) name [path].
Proof.
  intros [N S] Ip In'. eexists. split; [reflexivity|]. cbn [s_bus]. symmetry. apply filter_one; [exact N| | |].
  - apply S. rewrite dx_sensor, dx_pwm. cbn in Ip. intuition.
  - dx_in In'; injection In' as <- <-; vm_compute; reflexivity.
  - intros y J NE. apply S in J. rewrite dx_sensor, dx_pwm in J.
    dx_in In'; injection In' as <- <-; destruct J as [[->| ->]| ->]; try (destruct NE; reflexivity); vm_compute; reflexivity.
Qed.

(** ** The configuration is complete *)
Section Complete.
  Variables (sf : sflags) (tb : threshold_bus) (bus : list string).
  Hypothesis Se : searched dx_resp bus.
  Let w := Setting sf dx_regex dx_resp bus tb.

  Lemma dx_flags props : mget "InputUnavailableAsFailed" props = None -> mget "IgnoreFailIfHostOff" props = None ->
    flag_ok props "InputUnavailableAsFailed" /\ flag_ok props "IgnoreFailIfHostOff".
  Proof. intros A B. split; intros d; exists d; unfold flag_or; rewrite ?A, ?B; reflexivity. Qed.
  Lemma dx_number key props v d : mget key props = Some v -> number_value v d -> exists x, says_number props key x.
  Proof. intros A B. exists d, v. auto. Qed.

  Definition dx_pid_info (class : string) : ControllerInfo :=
    MkInfo class [] d0 (PidInfo false (D 1) (D 1) (D 0) d0 (D 0) (D 1) (Limits (D 0) (D 0)) (Limits (D 30) (D 100))
       (D 0) (D 0) d0 d0) stepwise_zero d0.
  Ltac dx_num := eexists; split; [reflexivity|constructor].

  Lemma dx_fan_sources : pid_sources w dx_fan_pid [] [(dx_fan1, dx_pwm1)].
  Proof.
    exists "fan", ["fan 1"], [], [[dx_fan1]]. split; [reflexivity|]. split; [reflexivity|]. split; [reflexivity|].
    split; [repeat constructor; apply dx_found; cbn; auto|]. split; [repeat constructor; apply dx_sensor; auto|].
    left. split; [reflexivity|]. split; [reflexivity|]. exists ["pwm 1"], [[dx_pwm1]]. split; [reflexivity|].
    split; [repeat constructor; apply dx_found; cbn; auto|]. split; [|repeat constructor; apply dx_pwm; reflexivity].
    left. exists dx_pwm1. split; reflexivity.
  Qed.
  Lemma dx_fan_complete ps : pid_complete w ps dx_fan_pid.
  Proof.
    split; [|split; [|split; [|split]]].
    - split; [eexists; reflexivity|]. split; [eexists; reflexivity|]. split; [eexists; reflexivity|].
      destruct (dx_flags dx_fan_pid) as [A B]; try reflexivity. split; [exact A|]. split; [exact B|]. exists []. reflexivity.
    - eexists. eexists. exact dx_fan_sources.
    - exists [], [], []. split; [reflexivity|]. repeat split; constructor.
    - exists (dx_pid_info "fan"). split; [|exists d0; reflexivity].
      unfold pid_settings. cbv zeta. repeat match goal with |- _ /\ _ => split end; try reflexivity; dx_num.
    - left. reflexivity.
  Qed.
  Definition dx_temp_props : properties := dx_temp_pid "CPU" "temp" ["temp1"] [].
  Lemma dx_temp_sources : pid_sources w dx_temp_props [] [(dx_temp1, "")].
  Proof.
    exists "temp", ["temp1"], [], [[dx_temp1]]. split; [reflexivity|]. split; [reflexivity|]. split; [reflexivity|].
    split; [repeat constructor; apply dx_found; cbn; auto|]. split; [repeat constructor; apply dx_sensor; auto|].
    right. split; [discriminate|].
    split; [unfold missing_names; destruct (HANDLE_MISSING_OBJECT_PATHS (s_flags w)); reflexivity|].
    left. split; [left; reflexivity|reflexivity].
  Qed.
  Lemma dx_temp_complete ps : pid_complete w ps dx_temp_props.
  Proof.
    split; [|split; [|split; [|split]]].
    - split; [eexists; reflexivity|]. split; [eexists; reflexivity|]. split; [eexists; reflexivity|].
      destruct (dx_flags dx_temp_props) as [A B]; try reflexivity. split; [exact A|]. split; [exact B|]. exists []. reflexivity.
    - eexists. eexists. exact dx_temp_sources.
    - exists [], [], []. split; [reflexivity|]. repeat split; constructor.
    - exists (dx_pid_info "temp"). split; [|exists (D 60); unfold own_setpoint; cbn [String.eqb]; dx_num].
      unfold pid_settings. cbv zeta. repeat match goal with |- _ /\ _ => split end; try reflexivity; dx_num.
    - left. reflexivity.
  Qed.
  Definition dx_table (a b : dbl) (k : nat) : dbl := match k with 0 => a | 1 => b | _ => dnan end.
  Lemma dx_step_sources : step_sources w (dx_step ["temp1"]) [] [("temp1", [dx_temp1])].
  Proof.
    exists ["temp1"], [], ["temp1"], [[dx_temp1]]. split; [reflexivity|]. split; [reflexivity|]. split.
    - split; [repeat constructor; apply dx_found; cbn; auto|].
      destruct (HANDLE_MISSING_OBJECT_PATHS (s_flags w)); [reflexivity|]. split; [repeat constructor; discriminate|left; reflexivity].
    - split; [reflexivity|]. unfold missing_names. destruct (HANDLE_MISSING_OBJECT_PATHS (s_flags w)); reflexivity.
  Qed.
  Lemma dx_step_complete : step_complete w (dx_step ["temp1"]).
  Proof.
    split; [|split; [|split]].
    - split; [eexists; reflexivity|]. split; [eexists; reflexivity|]. split; [eexists; reflexivity|].
      destruct (dx_flags (dx_step ["temp1"])) as [A B]; try reflexivity. split; [exact A|]. split; [exact B|]. exists []. reflexivity.
    - eexists. eexists. exact dx_step_sources.
    - exists [], [], [], []. split; [reflexivity|]. split; [|constructor]. split; [constructor|].
      destruct (HANDLE_MISSING_OBJECT_PATHS (s_flags w)); [reflexivity|]. split; [constructor|left; reflexivity].
    - exists (MkInfo "stepwise" [] d0 pidinfo_zero
        (Stepwise (D 1) (dx_table (D 40) (D 50)) (dx_table (D 3000) (D 6000)) d0 d0 true) d0).
      unfold step_settings. cbv zeta. cbn [ci_stepwiseInfo ci_type sw_isCeiling sw_positiveHysteresis sw_negativeHysteresis sw_ts
        sw_reading sw_output].
      split; [reflexivity|]. split; [exists "Ceiling"; split; [reflexivity|split; reflexivity]|].
      split; [reflexivity|]. split; [reflexivity|]. split; [reflexivity|].
      exists [D 40; D 50], [D 3000; D 6000]. split; [reflexivity|]. split; [reflexivity|]. split; [cbn [List.length]; lia|].
      split; [reflexivity|].
      split; (split; [intros [|[|[|k]]] v E; cbn -[D] in E; try discriminate E; injection E as <-; reflexivity|reflexivity]).
  Qed.
  Lemma dx_zone_complete : zone_complete (dx_zone []).
  Proof.
    split; [eexists; reflexivity|]. split.
    { intros d E. cbn -[D] in E. injection E as <-. exists 3%Z. split; [vm_compute; reflexivity|lia]. }
    split; [exists (D 3000); dx_num|]. split.
    { eexists. unfold percent_set. cbn [dx_zone app mget String.eqb]. change (mget "FailSafePercent" (dx_zone [])) with (Some (VU64 75)).
      exists (D 75), 75%Z. split; [constructor|]. split; [vm_compute; reflexivity|reflexivity]. }
    split. { intros d. exists 200%Z. unfold cycle_time. change (mget "CycleIntervalTimeMS" (dx_zone [])) with (Some (VU64 200)).
      exists (D 200). split; [constructor|].
      assert (G : dgeb (D 200) (D 1) = true) by (vm_compute; reflexivity). rewrite G. vm_compute. reflexivity. }
    split. { intros d. exists d. reflexivity. }
    intros d. exists d. reflexivity.
  Qed.
  Lemma dx_object_complete ps path o : In (path, o) dx_objs -> object_complete w ps o.
  Proof.
    intros I. cbn [dx_objs dx_objects In] in I. destruct I as [I|[I|[I|[]]]]; injection I as <- <-; split; [|split| |split| |split];
      intros props E; try discriminate E; injection E as <-.
    - exact dx_zone_complete.
    - apply dx_fan_complete.
    - apply dx_temp_complete.
    - exact dx_step_complete.
  Qed.
End Complete.
Lemma dx_complete sf : complete sf dx_regex (dx_bus dx_objs).
Proof.
  exists dx_resp, []. split; [reflexivity|]. split; [discriminate|]. split; [reflexivity|]. split.
  { intros path [A B]. apply dx_sensor in A. apply dx_pwm in B. subst path. destruct A; discriminate. }
  split. { intros mgr owner M H. apply dx_owner in H. subst owner. rewrite (dx_mgr _ M). discriminate. }
  split. { intros mgr path o i props v N. destruct N. reflexivity. }
  intros bus objs S R. split.
  - pose proof (dx_few _ _ 2 R) as L. cbn [dx_objs dx_objects List.length] in L.
    assert (H : forall e, In e dx_objs -> (List.length (parts_of (snd e)) <= 2)%nat).
    { intros e I. cbn [dx_objs dx_objects In] in I. destruct I as [<-|[<-|[<-|[]]]]; cbn; lia. }
    specialize (L H). lia.
  - intros path o I. apply dx_object_complete with (path := path); [exact S|]. apply (proj2 (dx_read _ _ R)), I.
Qed.

(** ** The daemon can run with it *)
Lemma dx_part objs p : reads (dx_bus dx_objs) dx_resp objs -> In p (parts objs) ->
  p = PZone (dx_zone []) \/ p = PPid dx_fan_pid "Main" \/ p = PPid dx_temp_props "Main" \/ p = PStep (dx_step ["temp1"]) "Main".
Proof.
  intros R I. unfold parts in I. apply in_flat_map in I. destruct I as (e & J & I). apply (proj2 (dx_read _ _ R)) in J.
  cbn [dx_objs dx_objects In] in J. destruct J as [<-|[<-|[<-|[]]]]; cbn [snd] in I.
  - change (In p [PZone (dx_zone [])]) in I. destruct I as [<-|[]]. auto.
  - change (In p [PPid dx_fan_pid "Main"]) in I. destruct I as [<-|[]]. auto.
  - change (In p [PPid dx_temp_props "Main"; PStep (dx_step ["temp1"]) "Main"]) in I. destruct I as [<-|[<-|[]]]; auto.
Qed.
Lemma dx_zone_there objs : reads (dx_bus dx_objs) dx_resp objs -> In (PZone (dx_zone [])) (parts objs).
Proof.
  intros (selected & mgr & S & M & _ & _ & _ & R). cbn in S. injection S as <-.
  assert (O : offered (dx_bus dx_objs) dx_resp mgr "/inv/zone" [(zone_intf, dx_zone [])]).
  { exists "em", dx_objs. split.
    { exists "/inv/zone". eexists. eexists. exists zone_intf. split; [cbn [dx_resp In]; right; left; reflexivity|].
      split; [left; reflexivity|]. split; [left; reflexivity|right; left; reflexivity]. }
    rewrite (dx_mgr _ M). split; [reflexivity|]. split; [left; reflexivity|].
    exists zone_intf, (dx_zone []). split; [left; reflexivity|right; left; reflexivity]. }
  destruct (R _ _ O) as (o1 & o2 & O1 & E & H). apply all_selected in E. subst o2.
  pose proof (dx_offered _ _ _ _ M O1) as I. cbn [dx_objs dx_objects In] in I.
  assert (E1 : o1 = [(zone_intf, dx_zone [])]).
  { destruct I as [I|[I|[I|[]]]]; [injection I as <-; reflexivity|discriminate I|discriminate I]. }
  subst o1. destruct H as [H|H]; [discriminate H|]. unfold parts. apply in_flat_map. eexists. split; [exact H|].
  cbn [snd]. left. reflexivity.
Qed.
Section Served.
  Variables (sf : sflags) (tb : threshold_bus) (bus : list string) (objs : smap object).
  Hypothesis Se : searched dx_resp bus.
  Hypothesis Re : reads (dx_bus dx_objs) dx_resp objs.
  Let w := Setting sf dx_regex dx_resp bus tb.
  Lemma dx_called path n : called path n -> n = getSensorNameFromPath path.
  Proof. intros C. eapply called_unique; [exact C|apply called_name]. Qed.
  Lemma dx_thermal n c : thermal_entry w (parts objs) n c -> n = "temp1" /\ sc_type c = "temp" /\ sc_readPath c = dx_temp1.
  Proof.
    intros (props & zone & missing & path & H & -> & _).
    destruct H as [(I & T & NF & sources & S & H)|(I & T & sources & S & H)]; apply (dx_part _ _ Re) in I.
    - destruct I as [I|[I|[I|I]]]; try discriminate I; injection I as -> ->.
      + exfalso. apply NF. injection T as <-. reflexivity.
      + assert (sc_type c = "temp") by (injection T as <-; reflexivity).
        destruct (pid_sources_unique _ _ _ _ _ _ S (dx_temp_sources sf tb bus Se)) as [-> ->].
        destruct H as [[[E|[]] C]|[[] _]]. injection E as <-. apply dx_called in C. cbn in C. auto.
    - destruct I as [I|[I|[I|I]]]; try discriminate I; injection I as -> ->.
      assert (U : missing = [] /\ sources = [("temp1", [dx_temp1])]).
      { destruct S as (i & a & t & ls & S1 & S2 & S3 & S4 & S5).
        destruct (dx_step_sources sf tb bus Se) as (i' & a' & t' & ls' & S1' & S2' & S3' & S4' & S5').
        pose proof (says_texts_unique _ _ _ _ S1 S1'). pose proof (texts_or_none_unique _ _ _ _ S2 S2'). subst i' a'.
        destruct (up_unique _ _ _ _ _ _ S3 S3') as [-> ->].
        split; [rewrite S5; symmetry; exact S5'|rewrite S4; symmetry; exact S4']. }
      destruct U as [-> ->]. destruct H as [[(name & l & [E|[]] & J) C]|[[] _]]. injection E as <- <-.
      destruct J as [<-|[]]. apply dx_called in C. cbn in C. auto.
  Qed.
  Lemma dx_fan n c : fan_entry w (parts objs) n c ->
    n = "fan_1pwm_1" /\ sc_type c = "fan" /\ sc_readPath c = dx_fan1 /\ sc_writePath c = dx_pwm1.
  Proof.
    intros (props & zone & missing & sources & I & C & T & S & J & N & _). apply (dx_part _ _ Re) in I.
    destruct I as [I|[I|[I|I]]]; try discriminate I; injection I as -> ->; [|unfold says_text in C; cbn in C; discriminate C].
    destruct (pid_sources_unique _ _ _ _ _ _ S (dx_fan_sources sf tb bus Se)) as [-> ->].
    destruct J as [J|[]]. injection J as E1 E2. rewrite <- E1, <- E2 in N. destruct N as (a & b & A & B & ->).
    apply dx_called in A, B. subst. cbn. auto.
  Qed.
End Served.
Lemma dx_buildable sf n c : sc_type c = "fan" \/ sc_type c = "temp" -> buildable_sensor sf ex_pow sys_bus (n, c).
Proof.
  intros T. assert (Rs : forall p, exists q, resolves (sb_dir sys_bus) p q).
  { intros p. destruct (FixupPath (sb_dir sys_bus) p) as [q|m|m] eqn:E.
    - exists q. now apply FixupPath_ok.
    - exfalso. unfold FixupPath in E. destruct (split_stars p) as [[b r]|]; discriminate E.
    - exfalso. unfold FixupPath in E. destruct (split_stars p) as [[b r]|]; discriminate E. }
  split; [|split; [intros _; apply Rs|split; [reflexivity|split; [intros _ _; apply Rs|reflexivity]]]]. intros _ X.
  assert (E : match createDbusPassive sf ex_pow (sb_now sys_bus n) (sc_type c) n (sb_replies sys_bus n) c with
              | Some _ => true | None => false end = false) by (rewrite X; reflexivity).
  clear X. unfold createDbusPassive in E.
  assert (V : validType (sc_type c) = true) by (destruct T as [-> | ->]; reflexivity). rewrite V in E.
  cbn [negb sys_bus sb_replies getService br_service] in E. unfold getProperties in E.
  cbn [br_value mget String.eqb Ascii.eqb Bool.eqb bind get_int to_double br_available thresholdsAsserted br_critical br_warning] in E.
  destruct (sc_ignoreDbusMinMax c), (UNC_FAILSAFE sf); discriminate E.
Qed.
Lemma dx_served sf : daemon_served sf dx_regex (dx_bus dx_objs) ex_pow sys_bus (fun _ => true).
Proof.
  split; [auto|]. intros resp bus objs Er Se Re. cbn in Er. injection Er as <-. cbv zeta. split; [|split; [|split]].
  - intros props zone H. exists (dx_zone []). split; [apply dx_zone_there, Re|].
    destruct H as [H|H]; apply (dx_part _ _ Re) in H; destruct H as [H|[H|[H|H]]]; try discriminate H; injection H as -> ->;
      reflexivity.
  - intros props zone class H C. apply (dx_part _ _ Re) in H. unfold says_text in C.
    destruct H as [H|[H|[H|H]]]; try discriminate H; injection H as -> ->; cbn in C; injection C as <-.
    + split; [left; reflexivity|]. split; [reflexivity|]. discriminate.
    + split; [right; left; reflexivity|]. split; [reflexivity|]. discriminate.
  - intros props zone missing sources e n c H C S I N Th. apply (dx_thermal _ _ _ _ Se Re) in Th. destruct Th as (-> & _ & _).
    apply (dx_part _ _ Re) in H.
    destruct H as [H|[H|[H|H]]]; try discriminate H; injection H as -> ->; [|unfold says_text in C; cbn in C; discriminate C].
    destruct (pid_sources_unique _ _ _ _ _ _ S (dx_fan_sources sf (cb_thresholds (dx_bus dx_objs)) bus Se)) as [-> ->].
    destruct I as [<-|[]]. destruct N as (a & b & A & B & E). apply dx_called in A, B. subst. cbn in E. discriminate E.
  - intros n c [H|H].
    + apply (dx_thermal _ _ _ _ Se Re) in H. destruct H as (-> & T & ->). split; [path_class|apply dx_buildable; auto].
    + apply (dx_fan _ _ _ _ Se Re) in H. destruct H as (-> & T & -> & _). split; [path_class|apply dx_buildable; auto].
Qed.
