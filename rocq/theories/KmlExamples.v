(** Concrete topologies written to and read from KML files. *)
From Coq Require Import ZArith QArith Ascii Lia Permutation Sorting.Sorted.
From Verif Require Import Base TopologyModel KmlModel KmlSpec KmlTextProofs KmlReadProofs KmlLayoutProofs.
Local Open Scope string_scope.
Local Open Scope list_scope.

Definition num0 (q : Q) : string := "0.5".
Definition attr0 (l : klink) (n : string) : option string := if String.eqb n "Distance" then Some "12.5" else None.
Definition pop0 (l : list string) : string := hd "" l.
Definition pop_site : ksite := mkKSite "s1" "Town <Hall> & Tower" POP EXISTING "u4pru" 1 2 (Some 30%Q) ODD ROOFTOP (Some 7%Z) "SKU_DN" None.
Definition dn_site : ksite := mkKSite "s2" "" DN PROPOSED "u4prv" 3 4 (Some 31%Q) EVEN STREET_LEVEL None "SKU_DN" None.
Definition cn_site : ksite := mkKSite "s3" "Home" CN CANDIDATE "u4prw" 5 6 (Some 12%Q) UNASSIGNED UNKNOWN None "SKU_CN" (Some 2%N).
Definition link12 : klink := mkKLink pop_site dn_site true PROPOSED (Some (9 # 10)%Q) 90 (Some (2%Z, 2%Z)).
Definition link21 : klink := mkKLink dn_site pop_site true PROPOSED None 10 (Some (2%Z, 2%Z)).
Definition link23 : klink := mkKLink dn_site cn_site true CANDIDATE None 0 None.
Definition home_demand : kdemand := mkKDemand "d1" "u4prw" 5 6 (Some 2%Q) [cn_site].
Definition town_demand : kdemand := mkKDemand "d2" "u4prv" 3 4 (Some 3%Q) [dn_site].
Definition topo0 : ktopo := mkKTopo "" [pop_site; dn_site; cn_site] [link23; link21; link12] [home_demand; town_demand].

Ltac chars := cbn; unfold ordinary, word_char, code; cbn; repeat split; lia.
Example num0_float : float_text num0.
Proof. intros q. split; [chars|]. cbn. unfold code. cbn. lia. Qed.
Example attr0_text : attribute_text attr0.
Proof. intros l n v. unfold attr0. destruct (String.eqb n "Distance"); [|discriminate]. intros E. injection E as <-. chars. Qed.
Example pop0_picks : picks pop0.
Proof. intros [|x l] H; [congruence|now left]. Qed.
Example pop_text : site_texts pop_site.
Proof. split; [chars|]. split; [chars|]. split; chars. Qed.
Example dn_text : site_texts dn_site.
Proof. split; [chars|]. split; [chars|]. split; chars. Qed.
Example cn_text : site_texts cn_site.
Proof. split; [chars|]. split; [chars|]. split; chars. Qed.
Example topo0_texts : texts topo0.
Proof.
  pose proof pop_text. pose proof dn_text. pose proof cn_text.
  split; [exact Logic.I|]. split; [|split].
  - repeat (apply Forall_cons; [assumption|]). apply Forall_nil.
  - repeat (apply Forall_cons; [split; assumption|]). apply Forall_nil.
  - repeat (apply Forall_cons; [split; [chars|split; [chars|apply Forall_cons; [assumption|apply Forall_nil]]]|]). apply Forall_nil.
Qed.
Example topo0_name : no_markup (kt_name topo0).
Proof. exact Logic.I. Qed.
Example topo0_written : exists d, write_kml num0 attr0 topo0 = Ok d.
Proof. eexists. vm_compute. reflexivity. Qed.
Example topo0_read : exists d rs rl rd, write_kml num0 attr0 topo0 = Ok d /\ read_kml pop0 d = Ok (rs, rl, rd)
  /\ map r_name rs = [Some "s2"; Some "Town <Hall> & Tower"; Some "Home"] /\ map w_status rl = [PROPOSED; PROPOSED; CANDIDATE] /\ rd = [(5%Q, 6%Q); (3%Q, 4%Q)].
Proof. do 4 eexists. split; [vm_compute; reflexivity|]. split; [vm_compute; reflexivity|]. repeat split. Qed.
Example topo0_writable : (forall l, In l (kt_links topo0) -> link_writable l) /\ demands_writable (kt_demands topo0).
Proof. apply (write_ok num0 attr0). apply topo0_written. Qed.
Example topo0_styles :
  (forall s, In s (kt_sites topo0) -> k_type s = POP -> k_status s <> UNREACHABLE)
  /\ (forall l, In l (kt_links topo0) -> e_wireless l = true -> used_over topo0 l 80 -> deployed (e_status l))
  /\ (forall b, In b (kt_demands topo0) -> (0 <= value b)%Q).
Proof.
  repeat apply conj.
  - intros s [<-|[<-|[<-|[]]]]; discriminate.
  - intros l [<-|[<-|[<-|[]]]] _ H; [|left; reflexivity|left; reflexivity]. exfalso. destruct H as [H|(r & [<-|[<-|[<-|[]]]] & H1 & H2 & H3)]; try discriminate.
  - intros b [<-|[<-|[]]]; discriminate.
Qed.

(** A topology whose name is not plain text *)
Definition named_topo : ktopo := mkKTopo "R&D site" [pop_site] [] [].
Example named_lost : exists t d, texts t /\ (forall l, In l (kt_links t) -> link_writable l) /\ write_kml num0 attr0 t = Ok d /\ read_kml pop0 d = Err DataExn.
Proof.
  exists named_topo. eexists. split; [|split; [intros l []|split; [vm_compute; reflexivity|vm_compute; reflexivity]]].
  pose proof pop_text. split; [chars|]. split; [|split]; repeat (apply Forall_cons; [assumption|]); apply Forall_nil.
Qed.
(** A carriage return becomes a line feed, and other control characters make the file unreadable *)
Example control_lost : (exists s r, xml_text (escape s) = Some r /\ r <> s) /\ exists s, xml_text (escape s) = None.
Proof.
  split; [exists (String "013" ""), (String "010" ""); split; [reflexivity|discriminate]|exists (String "001" ""); reflexivity].
Qed.
Example confidence_lost : exists t l d rs r rd, In l (kt_links t) /\ e_confidence l = Some (9 # 10)%Q /\ texts t /\ write_kml num0 attr0 t = Ok d
  /\ read_kml pop0 d = Ok (rs, [r], rd) /\ w_confidence r = None.
Proof.
  exists (mkKTopo "" [pop_site; dn_site] [link12] []), link12. do 4 eexists. split; [now left|]. split; [reflexivity|]. split.
  { pose proof pop_text. pose proof dn_text. split; [exact Logic.I|]. split; [|split]; repeat (apply Forall_cons; [first [assumption|split; assumption]|]); apply Forall_nil. }
  split; [vm_compute; reflexivity|]. split; [vm_compute; reflexivity|reflexivity].
Qed.
Example building_lost : exists t s d r rl rd, In s (kt_sites t) /\ k_location s = ROOFTOP /\ k_building s = Some 7%Z /\ texts t /\ write_kml num0 attr0 t = Ok d
  /\ read_kml pop0 d = Ok ([r], rl, rd) /\ r_location r = ROOFTOP /\ r_building r = None.
Proof.
  exists (mkKTopo "" [pop_site] [] []), pop_site. do 4 eexists. split; [now left|]. split; [reflexivity|]. split; [reflexivity|]. split.
  { pose proof pop_text. split; [exact Logic.I|]. split; [|split]; repeat (apply Forall_cons; [assumption|]); apply Forall_nil. }
  split; [vm_compute; reflexivity|]. split; [vm_compute; reflexivity|]. split; reflexivity.
Qed.
Definition cut_off_pop : ksite := mkKSite "s1" "" POP UNREACHABLE "u4pru" 1 2 None ODD ROOFTOP None "SKU_DN" None.
Example style_missing : exists t d p, write_kml num0 attr0 t = Ok d /\ in_document p d /\ ~ In (p_style p) (d_styles d).
Proof.
  exists (mkKTopo "" [cut_off_pop] [] []). eexists. exists (site_mark num0 cut_off_pop). split; [vm_compute; reflexivity|]. split.
  - eexists. split; [left; reflexivity|]. cbn [in_folder]. right. left. left. left. reflexivity.
  - intros H. apply mem_In in H. vm_compute in H. discriminate.
Qed.
(** Were blanks kept in the names of the fields, the ends of a link would not be recognised *)
Example blanks_matter : get_field pop0 [("Tx Site Name", "a")] tx_names = "" /\ get_field pop0 [(launder "Tx Site Name", "a")] tx_names = "a".
Proof. split; reflexivity. Qed.
