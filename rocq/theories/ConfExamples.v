(** Concrete configurations. *)
From Coq Require Import ZArith QArith.
From Verif Require Import Base Dict ConfModel ConfSpec ConfProofs.
Local Open Scope string_scope.
Local Open Scope list_scope.

(** a disk without any pattern or MCS file, and one where every file can be read *)
Definition no_files (kind : string) (path : val) (more : list val) : result val := Err DataExn.
Definition all_files (kind : string) (path : val) (more : list val) : result val := Ok (if beq kind "mcs_map" then VList [VOpaque "row"] else VOpaque kind).
Definition obj (r : result val) : val := match r with Ok o => o | Err _ => VNone end.
Definition sector0 : val := Eval vm_compute in obj (sector_params no_files []).
Definition device0 : val := Eval vm_compute in obj (device_data [("device_sku", VStr "DN-1"); ("sector_params", sector0)]).
Definition device1 : val := Eval vm_compute in obj (device_data [("device_sku", VStr "CN-1"); ("sector_params", sector0); ("device_type", VEnum "DeviceType" "CN"); ("node_capex", VNum 100)]).
Definition optimizer0 : val := Eval vm_compute in obj (optimizer_params [("device_list", VList [device0; device1])]).
Definition los0 : val := Eval vm_compute in obj (los_params [("device_list", VList [device0; device1])]).
Lemma sector0_ok : sector_params no_files [] = Ok sector0. Proof. vm_compute. reflexivity. Qed.
Lemma device0_ok : device_data [("device_sku", VStr "DN-1"); ("sector_params", sector0)] = Ok device0. Proof. vm_compute. reflexivity. Qed.
Lemma device1_ok : device_data [("device_sku", VStr "CN-1"); ("sector_params", sector0); ("device_type", VEnum "DeviceType" "CN"); ("node_capex", VNum 100)] = Ok device1. Proof. vm_compute. reflexivity. Qed.
Lemma optimizer0_ok : optimizer_params [("device_list", VList [device0; device1])] = Ok optimizer0. Proof. vm_compute. reflexivity. Qed.
Lemma los0_ok : los_params [("device_list", VList [device0; device1])] = Ok los0. Proof. vm_compute. reflexivity. Qed.

(** ** what is accepted although it should not be *)
Lemma zero_scan_range : exists o, sector_params no_files [("horizontal_scan_range", VNum 0)] = Ok o /\ value_of o "horizontal_scan_range" = VNum 0.
Proof. eexists. split; vm_compute; reflexivity. Qed.
Lemma negative_time : exists o, optimizer_params [("device_list", VList [device0]); ("max_coverage_max_time", VNum (-5))] = Ok o /\ value_of o "max_coverage_max_time" = VNum (-5).
Proof. eexists. split; vm_compute; reflexivity. Qed.
Lemma project_unchecked : exists o d s, los_params [("device_list", VList [device0]); ("rain_rate", VNum (-1))] = Ok o /\ attribute o "device_list" (VList [d]) /\ attribute d "sector_params" s /\ value_of s "rain_rate" = VNum (-1).
Proof. eexists. eexists. eexists. split; [vm_compute; reflexivity|]. split; [eexists; eexists; split; [reflexivity|vm_compute; reflexivity]|]. split; [eexists; eexists; split; [reflexivity|vm_compute; reflexivity]|]. reflexivity. Qed.

(** ** equality *)
Lemma differ_in_demand : exists a b, optimizer_params [("device_list", VList [device0])] = Ok a /\ optimizer_params [("device_list", VList [device0]); ("demand", VNum 1)] = Ok b /\
  equals 5 a b = Ok true /\ equals 5 b a = Ok true /\ value_of a "demand" <> value_of b "demand".
Proof. eexists. eexists. split; [vm_compute; reflexivity|]. split; [vm_compute; reflexivity|]. split; [vm_compute; reflexivity|]. split; [vm_compute; reflexivity|]. discriminate. Qed.
Lemma differ_in_capex : exists a b, device_data [("device_sku", VStr "A"); ("sector_params", sector0)] = Ok a /\ device_data [("device_sku", VStr "A"); ("sector_params", sector0); ("node_capex", VNum 9)] = Ok b /\
  equals 5 a b = Ok true /\ equals 5 b a = Ok true /\ value_of a "node_capex" <> value_of b "node_capex".
Proof. eexists. eexists. split; [vm_compute; reflexivity|]. split; [vm_compute; reflexivity|]. split; [vm_compute; reflexivity|]. split; [vm_compute; reflexivity|]. discriminate. Qed.
Lemma longer_list : exists a b, los_params [("device_list", VList [device1])] = Ok a /\ los_params [("device_list", VList [device0; device1])] = Ok b /\ equals 5 a b = Ok true /\ equals 5 b a = Err PyIndexError.
Proof. eexists. eexists. split; [vm_compute; reflexivity|]. split; [vm_compute; reflexivity|]. split; vm_compute; reflexivity. Qed.

(** ** conversion *)
Lemma pattern_to_dict : exists o, sector_params all_files [("antenna_pattern_file_path", VStr "pattern.txt")] = Ok o /\ to_dict o = Err PlannerExn.
Proof. eexists. split; vm_compute; reflexivity. Qed.
Lemma null_distance : exists o d o', los_params [("device_list", VList [device0]); ("maximum_los_distance", VNone)] = Ok o /\ to_dict o = Ok (VDict d) /\ los_from no_files d = Ok o' /\
  value_of o "maximum_los_distance" = VNone /\ value_of o' "maximum_los_distance" = VNum 200.
Proof. eexists. eexists. eexists. split; [vm_compute; reflexivity|]. split; [vm_compute; reflexivity|]. split; [vm_compute; reflexivity|]. split; reflexivity. Qed.

(** ** files *)
Definition sku (s : string) : string * val := ("DEVICE_LIST", VList [VDict [("DEVICE_SKU", VStr s); ("SECTOR_PARAMS", VDict [("MAXIMUM_TX_POWER", VNum 10)])]]).
Definition file0 : val := VDict [("RADIO", VDict [sku "DN-1"; ("RAIN_RATE", VNum 50)]); ("NETWORK_DESIGN", VDict [("FINANCIAL", VDict [("BUDGET", VNum 7)])]); ("LINE_OF_SIGHT", VDict [("FRESNEL_RADIUS", VNum 2)])].
Lemma file0_read : exists o, struct_objects no_files "OPTIMIZATION" file0 = Ok o /\ value_of o "budget" = VNum 7 /\ value_of o "rain_rate" = VNum 50.
Proof. eexists. split; [vm_compute; reflexivity|]. split; reflexivity. Qed.
Lemma file0_los : exists o, struct_objects no_files "LINE_OF_SIGHT" file0 = Ok o /\ value_of o "fresnel_radius" = VNum 2 /\ value_of o "rain_rate" = VNum 50.
Proof. eexists. split; [vm_compute; reflexivity|]. split; reflexivity. Qed.
Lemma file0_typo : struct_objects no_files "OPTIMIZATION" (VDict [("RADIO", VDict [sku "DN-1"; ("RAIN_RAT", VNum 50)]); ("NETWORK_DESIGN", VDict [])]) = Err ConfigExn.
Proof. vm_compute. reflexivity. Qed.
Lemma stray_blank : exists o, struct_objects no_files "OPTIMIZATION" (VDict [("RADIO", VDict [sku "DN-1"; ("RAIN_RATE ", VNum 50)]); ("NETWORK_DESIGN", VDict [])]) = Ok o /\ value_of o "rain_rate" = VNum 30.
Proof. eexists. split; vm_compute; reflexivity. Qed.
Lemma lower_section : exists o, struct_objects no_files "SYSTEM" (VDict [("system", VDict [("output_dir", VStr "/tmp")])]) = Ok o /\ value_of o "output_dir" = VStr "./".
Proof. eexists. split; vm_compute; reflexivity. Qed.
Lemma hidden_rain : exists d o, optimizer_from no_files [("DEVICE_LIST", VList [VDict [("DEVICE_SKU", VStr "A"); ("SECTOR_PARAMS", VDict [("RAIN_RATE", VNum 10)])]]); ("RAIN_RATE", VNum (-1))] = Ok o /\
  attribute o "device_list" (VList [d]) /\ value_of (value_of d "sector_params") "rain_rate" = VNum (-1).
Proof. eexists. eexists. split; [vm_compute; reflexivity|]. split; [eexists; eexists; split; [reflexivity|vm_compute; reflexivity]|]. vm_compute. reflexivity. Qed.
Lemma distinct_b (l : list string) : (fix d (l : list string) : bool := match l with [] => true | x :: l => negb (mem x l) && d l end) l = true -> NoDup l.
Proof. induction l as [|x l IH]; intros H; [constructor|]. apply andb_prop in H. destruct H as [H1 H2]. constructor; [|now apply IH]. intros Hin. apply mem_In in Hin. rewrite Hin in H1. discriminate. Qed.
Lemma examples_nested : nested 4 optimizer0 /\ nested 4 los0.
Proof.
  assert (leaf : forall n v, match v with VObj _ _ | VDict _ | VList _ => False | _ => True end -> nested (S n) v) by (intros n v H; destruct v; try contradiction; exact Logic.I).
  assert (S0 : forall n, nested (S (S n)) sector0).
  { intros n. split; [apply mem_In; vm_compute; reflexivity|]. split; [apply distinct_b; vm_compute; reflexivity|]. intros k x Hin. vm_compute in Hin. repeat (destruct Hin as [[= <- <-]|Hin]; [first [exact Logic.I|intros y [<-|[]]; exact Logic.I]|]). contradiction. }
  assert (D : forall n d, d = device0 \/ d = device1 -> nested (S (S (S n))) d).
  { intros n d [-> | ->]; (split; [apply mem_In; vm_compute; reflexivity|]; split; [apply distinct_b; vm_compute; reflexivity|]; intros k x Hin; unfold device0, device1 in Hin;
     (destruct Hin as [[= <- <-]|Hin]; [exact Logic.I|]); (destruct Hin as [[= <- <-]|Hin]; [exact (S0 n)|]); repeat (destruct Hin as [[= <- <-]|Hin]; [exact Logic.I|]); contradiction). }
  split.
  - split; [apply mem_In; vm_compute; reflexivity|]. split; [apply distinct_b; vm_compute; reflexivity|]. intros k x Hin. unfold optimizer0 in Hin. do 3 (destruct Hin as [[= <- <-]|Hin]; [exact Logic.I|]).
    destruct Hin as [[= <- <-]|Hin]; [intros y [<-|[<-|[]]]; [apply (D 0%nat); now left|apply (D 0%nat); now right]|]. repeat (destruct Hin as [[= <- <-]|Hin]; [exact Logic.I|]). contradiction.
  - split; [apply mem_In; vm_compute; reflexivity|]. split; [apply distinct_b; vm_compute; reflexivity|]. intros k x Hin. unfold los0 in Hin.
    destruct Hin as [[= <- <-]|Hin]; [intros y [<-|[<-|[]]]; [apply (D 0%nat); now left|apply (D 0%nat); now right]|]. repeat (destruct Hin as [[= <- <-]|Hin]; [try exact Logic.I; (split; [apply mem_In; vm_compute; reflexivity|]; split; [apply distinct_b; vm_compute; reflexivity|]; intros k' x' Hin'; repeat (destruct Hin' as [[= <- <-]|Hin']; [exact Logic.I|]); contradiction)|]). contradiction.
Qed.
Lemma examples_plain : reads_tables no_files /\ devices_plain no_files (setting optimizer_defaults [("device_list", VList [device0; device1])]) [device0; device1] /\
  optimizer_plain (setting optimizer_defaults [("device_list", VList [device0; device1])]) /\ los_plain (setting los_defaults [("device_list", VList [device0; device1])]).
Proof.
  assert (SP : sector_plain (setting sector_defaults [])).
  { split; [|repeat split; discriminate]. intros k Hk. vm_compute in Hk. repeat (destruct Hk as [<-|Hk]; [exact Logic.I|]). contradiction. }
  split; [intros path more t H; discriminate|]. split.
  { intros d [<-|[<-|[]]]; exists []; (split; [|intros k Hk; vm_compute in Hk; repeat (destruct Hk as [<-|Hk]; [reflexivity|]); contradiction]).
    - eexists. eexists. split; [exact device0_ok|]. split; [reflexivity|]. split; [now left|]. split; [exact sector0_ok|exact SP].
    - eexists. eexists. split; [exact device1_ok|]. split; [reflexivity|]. split; [now right|]. split; [exact sector0_ok|exact SP]. }
  assert (nn : forall (doc : defaults) k, (forall q, In q doc -> snd q <> VNone) -> dget doc k <> None -> setting doc [("device_list", VList [device0; device1])] k <> VNone).
  { intros doc k H Hk. unfold setting. cbn [dget]. destruct (beq k "device_list"); [discriminate|]. destruct (dget doc k) as [v|] eqn:E; [|congruence]. apply dget_In in E. exact (H _ E). }
  split; [split; [|split; [|split]]|split; [|split]].
  - intros k Hk Hn. vm_compute in Hk. repeat (destruct Hk as [<-|Hk]; [first [exact Logic.I|exfalso; apply Hn; apply mem_In; vm_compute; reflexivity]|]). contradiction.
  - intros k. apply nn. intros q Hq. unfold optimizer_defaults, radio_defaults in Hq. cbn [app] in Hq. repeat (destruct Hq as [<-|Hq]; [discriminate|]). contradiction.
  - exists "MEDIUM". split; [apply mem_In; vm_compute; reflexivity|reflexivity].
  - now left.
  - intros k Hk Hn. vm_compute in Hk. repeat (destruct Hk as [<-|Hk]; [first [exact Logic.I|exfalso; apply Hn; apply mem_In; vm_compute; reflexivity]|]). contradiction.
  - intros k. apply nn. intros q Hq. unfold los_defaults, radio_defaults in Hq. cbn [app] in Hq. repeat (destruct Hq as [<-|Hq]; [discriminate|]). contradiction.
  - exists []. split; [vm_compute; reflexivity|]. intros k Hk. vm_compute in Hk. repeat (destruct Hk as [<-|Hk]; [split; [exact Logic.I|first [discriminate|intros Hc; exfalso; apply Hc; reflexivity]]|]). contradiction.
Qed.

Example routing_in_lower_case : In "DPA_PATH" (enum_names "TopologyRouting") /\ from_string "TopologyRouting" (VStr "dpa_Path") = Ok (VEnum "TopologyRouting" "DPA_PATH")
  /\ from_string "TopologyRouting" (VStr "dpa path") = Err PyKeyError.
Proof. split; [right; right; left; reflexivity|]. split; reflexivity. Qed.
