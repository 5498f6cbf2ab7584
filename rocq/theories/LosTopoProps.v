(** Property theorems C26; vocabulary in LosTopoSpec.v. *)
From Coq Require Import QArith Qabs.
From Verif Require Import Base Dict TopologyModel TopologySpec LosBatchModel LosPickModel LosPickSpec LosTopoModel LosTopoSpec LosTopoProofs LosTopoExamples.
Local Open Scope string_scope.
Local Open Scope list_scope.

(** The topology built has the sites of the base topology and those picked, every line of sight within the
    limits between two new sites, nothing but such links besides the links of the base, and all of those.
    Missing: links with an end that is already in the base topology, and sites the user marked unavailable
    (both below). *)
Theorem C26_los_links_in_topology_partial : forall dn_devices cn_devices distance elevation ranges conf min_los_dist max_el_scan_angle base sites rx picked,
  reachable base -> usable dn_devices cn_devices ranges conf sites rx picked -> exists t',
  construct_topology_from_los_result dn_devices cn_devices distance elevation ranges conf min_los_dist max_el_scan_angle base sites rx picked = Ok t' /\ reachable t' /\
  (forall x, site_stored t' x <-> site_stored base x \/ exists i d, stands_for dn_devices cn_devices sites picked i d /\ s_id (ds_site d) = x) /\
  (forall a b, seen_pair dn_devices cn_devices distance elevation ranges min_los_dist max_el_scan_angle sites rx picked a b ->
     new_site dn_devices cn_devices base sites picked a -> new_site dn_devices cn_devices base sites picked b ->
     link_stored t' (link_id_of (s_id (ds_site a)) (s_id (ds_site b))) (candidate_link a b)) /\
  (forall k l, link_stored t' k l -> link_stored base k l \/
     exists a b, seen_pair dn_devices cn_devices distance elevation ranges min_los_dist max_el_scan_angle sites rx picked a b /\
       k = link_id_of (s_id (ds_site a)) (s_id (ds_site b)) /\ l = candidate_link a b) /\
  (forall k l, link_stored base k l -> link_stored t' k l).
Proof. intros. eapply construct_ok; eauto. Qed.
Print Assumptions C26_los_links_in_topology_partial.
(** a POP, a detected DN with two devices and a CN: the second device has too short a range *)
Example C26_links_built : usable ["A"; "B"] ["A"] lt_ranges lt_conf lt_sites lt_rx lt_picked /\
  (exists t', lt_build empty_topo lt_sites lt_rx lt_picked = Ok t' /\ dkeys (t_sites t') = ["p"; "dA"; "dB"; "c"] /\ dkeys (t_links t') = ["p-dA"; "dA-p"; "dA-c"]).
Proof.
  split; [|eexists; split; [vm_compute; reflexivity|split; reflexivity]].
  assert (S : forall i d, stands_for ["A"; "B"] ["A"] lt_sites lt_picked i d ->
    (i = 0 /\ d = mkDSite (ex_site "p" POP CANDIDATE) "A" \/ i = 1 /\ d = mkDSite (ex_site "dA" DN CANDIDATE) "A" \/ i = 1 /\ d = mkDSite (ex_site "dB" DN CANDIDATE) "B" \/ i = 2 /\ d = mkDSite (ex_site "c" CN CANDIDATE) "A")%nat).
  { intros i d (_ & c & E & H). destruct i as [|[|[|i]]]; cbn in E; [| | |destruct i; discriminate]; injection E as <-; inversion H as [|? ? K|? ? ? K L]; subst.
    - tauto.
    - destruct L as [<-|[<-|[]]]; tauto.
    - tauto. }
  constructor.
  - intros i d H. apply S in H. destruct H as [[_ ->]|[[_ ->]|[[_ ->]|[_ ->]]]]; (split; [unfold no_dash; simpl; intuition discriminate|reflexivity]).
  - intros i d H. apply S in H. destruct H as [[_ ->]|[[_ ->]|[[_ ->]|[_ ->]]]]; split; discriminate.
  - intros i j d H. apply S in H. destruct H as [[_ ->]|[[_ ->]|[[_ ->]|[-> ->]]]]; try (intros _; discriminate). intros [].
  - intros i j H. destruct i as [|[|[|i]]]; cbn in H; [destruct H as [<-|[]]|destruct H as [<-|[<-|[]]]|destruct H|destruct i; destruct H]; eexists; reflexivity.
  - intros i j a b Ha Hb _. apply S in Ha. apply S in Hb. destruct Ha as [[_ ->]|[[_ ->]|[[_ ->]|[_ ->]]]], Hb as [[_ ->]|[[_ ->]|[[_ ->]|[_ ->]]]]; eexists; reflexivity.
Qed.
(** a line of sight to a site that is already in the base topology gets no link *)
Theorem C26_base_site_refuted : exists base t' a b, reachable base /\ all_returned [AddSite (ex_site "p" POP CANDIDATE)] empty_topo /\
  usable ["A"] ["A"] lt_ranges lt_conf [ex_given "p" POP CANDIDATE; ex_given "d" DN CANDIDATE] [[1]; [0]]%nat [0; 1]%nat /\
  seen_pair ["A"] ["A"] lt_distance lt_elevation lt_ranges 10 25 [ex_given "p" POP CANDIDATE; ex_given "d" DN CANDIDATE] [[1]; [0]]%nat [0; 1]%nat a b /\
  construct_topology_from_los_result ["A"] ["A"] lt_distance lt_elevation lt_ranges lt_conf 10 25 base [ex_given "p" POP CANDIDATE; ex_given "d" DN CANDIDATE] [[1]; [0]]%nat [0; 1]%nat = Ok t' /\
  site_stored t' (s_id (ds_site a)) /\ site_stored t' (s_id (ds_site b)) /\ t_links t' = [].
Proof.
  exists (run [AddSite (ex_site "p" POP CANDIDATE)] empty_topo). eexists. exists (mkDSite (ex_site "p" POP CANDIDATE) "A"), (mkDSite (ex_site "d" DN CANDIDATE) "A").
  split; [exists [AddSite (ex_site "p" POP CANDIDATE)]; split; [|reflexivity]; constructor; [unfold op_ok, no_dash; simpl; intuition discriminate|constructor]|].
  split; [cbn; auto|]. split; [|split; [|split; [vm_compute; reflexivity|]]].
  - assert (S : forall i d, stands_for ["A"] ["A"] [ex_given "p" POP CANDIDATE; ex_given "d" DN CANDIDATE] [0; 1]%nat i d ->
      d = mkDSite (ex_site "p" POP CANDIDATE) "A" \/ d = mkDSite (ex_site "d" DN CANDIDATE) "A").
    { intros i d (_ & c & E & H). destruct i as [|[|i]]; cbn in E; [| |destruct i; discriminate]; injection E as <-; inversion H; subst; tauto. }
    constructor.
    + intros i d H. apply S in H. destruct H as [->| ->]; (split; [unfold no_dash; simpl; intuition discriminate|reflexivity]).
    + intros i d H. apply S in H. destruct H as [->| ->]; split; discriminate.
    + intros i j d H _. apply S in H. destruct H as [->| ->]; discriminate.
    + intros i j H. destruct i as [|[|i]]; cbn in H; [destruct H as [<-|[]]|destruct H as [<-|[]]|destruct i; destruct H]; eexists; reflexivity.
    + intros i j a b Ha Hb _. apply S in Ha. apply S in Hb. destruct Ha as [->| ->], Hb as [->| ->]; eexists; reflexivity.
  - exists 0%nat, 1%nat. split; [split; [now left|]; eexists; split; [reflexivity|constructor]|]. split; [split; [right; now left|]; eexists; split; [reflexivity|constructor]|]. split; [now left|].
    split; [vm_compute; discriminate|]. split; [eexists; split; [reflexivity|vm_compute; discriminate]|vm_compute; discriminate].
  - split; [eexists; reflexivity|]. split; [eexists; reflexivity|reflexivity].
Qed.
Print Assumptions C26_base_site_refuted.
(** one line of sight to a site the user listed as unavailable and no topology is built at all *)
Theorem C26_unavailable_site_refuted : exists sites rx a b c, In c sites /\
  seen_pair ["A"] ["A"] lt_distance lt_elevation lt_ranges 10 25 sites rx [0; 1; 2]%nat a b /\
  s_status (ds_site a) = CANDIDATE /\ s_status (ds_site b) = CANDIDATE /\ c = ex_given "u" DN UNAVAILABLE /\
  construct_topology_from_los_result ["A"] ["A"] lt_distance lt_elevation lt_ranges [((0, 1)%nat, 1%Q); ((1, 0)%nat, 1%Q); ((0, 2)%nat, 1%Q); ((2, 0)%nat, 1%Q)] 10 25 empty_topo sites rx [0; 1; 2]%nat = Err TopologyExn.
Proof.
  exists [ex_given "p" POP CANDIDATE; ex_given "d" DN CANDIDATE; ex_given "u" DN UNAVAILABLE], [[1; 2]; [0]; [0]]%nat, (mkDSite (ex_site "p" POP CANDIDATE) "A"), (mkDSite (ex_site "d" DN CANDIDATE) "A"), (ex_given "u" DN UNAVAILABLE).
  split; [cbn; auto|]. split; [|split; [reflexivity|split; [reflexivity|split; [reflexivity|vm_compute; reflexivity]]]].
  exists 0%nat, 1%nat. split; [split; [now left|]; eexists; split; [reflexivity|constructor]|]. split; [split; [right; now left|]; eexists; split; [reflexivity|constructor]|]. split; [now left|].
  split; [vm_compute; discriminate|]. split; [eexists; split; [reflexivity|vm_compute; discriminate]|vm_compute; discriminate].
Qed.
Print Assumptions C26_unavailable_site_refuted.
