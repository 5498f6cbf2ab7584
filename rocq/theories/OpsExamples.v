(** Concrete cases for C34, C61, C62 and C63. *)
From Coq Require Import QArith Qminmax Lqa.
From Verif Require Import Base Dict SumLib TopologyModel TopologySpec GraphModel GraphSpec GraphProofs OpsModel OpsSpec OpsProofs OpsPopProofs OpsColocProofs.
Local Open Scope string_scope.
Local Open Scope list_scope.

Definition os i ty st (z : Z) := mkSite i ty st (z, 0, 0)%Z UNASSIGNED false.
Definition ok_ i n p := mkSecKey i n p false.
Ltac ops_ok := repeat (constructor; [first [exact I | unfold op_ok, no_dash, link_args_ok; simpl; intuition (discriminate || reflexivity)]|]); constructor.
(** POP a with two nodes of two sectors each, DN b with one *)
Definition o_ops := [AddSite (os "a" POP EXISTING 1); AddSite (os "b" DN PROPOSED 2); AddSite (os "c" DN CANDIDATE 3);
  AddSector (mkSector (ok_ "a" 0 0) CANDIDATE); AddSector (mkSector (ok_ "a" 0 1) PROPOSED); AddSector (mkSector (ok_ "a" 1 0) EXISTING); AddSector (mkSector (ok_ "a" 1 1) EXISTING); AddSector (mkSector (ok_ "b" 0 0) PROPOSED);
  AddLink (mkLink "a" "b" true false (Some (ok_ "a" 0 1, ok_ "b" 0 0)) PROPOSED); AddLink (mkLink "a" "c" true false (Some (ok_ "a" 0 1, ok_ "c" 0 0)) CANDIDATE); AddLink (mkLink "b" "a" false false None PROPOSED)].
Definition ot := run o_ops empty_topo.
Example ot_reachable : reachable ot.
Proof. exists o_ops. split; [|reflexivity]. unfold o_ops. ops_ok. Qed.
Example ot_wf : well_formed ot. Proof. apply wf_reachable, ot_reachable. Qed.
Definition nc (i : string) : Q := 10.
Definition sc (ty : site_type) : Q := match ty with POP => 3 | DN => 2 | CN => 1 end.
(** the proposed sector of node 0 comes second, its node is not counted *)
Example ot_capex : (fst (compute_capex nc sc ot) == 25)%Q. Proof. vm_compute. reflexivity. Qed.
Example ot_settable : node_settable ot.
Proof. apply (same_node_returns ot ot_wf). vm_compute. reflexivity. Qed.
Example ot_existing_agree : nodes_agree (fun st => st = EXISTING) ot.
Proof.
  intros k x k' x' n Ex Ex' O O' P. unfold sector_stored in *. apply dget_In in Ex. apply dget_In in Ex'. vm_compute in Ex, Ex'.
  repeat (destruct Ex as [Ex|Ex]; [inversion Ex; subst; try discriminate P; destruct O as [O1 O2]; cbn in O1, O2; repeat (destruct Ex' as [Ex'|Ex']; [inversion Ex'; subst; destruct O' as [O1' O2']; cbn in O1', O2'; first [reflexivity|congruence]|]); destruct Ex'|]). destruct Ex.
Qed.
Example ot_completed : exists t', set_sector_status_in_same_node ot = (Ok tt, t') /\ (fst (compute_capex nc sc t') == 35)%Q /\ (snd (compute_capex nc sc t') == 22)%Q.
Proof. eexists. split; [reflexivity|]. vm_compute. auto. Qed.
(** the expenditure of [ot]: nodes a-0, a-1 and b-0, sites a and b *)
Lemma ot_expenditure : expenditure active_status nc sc ot 35.
Proof.
  exists [("a", 0%nat); ("a", 1%nat); ("b", 0%nat)], ["a"; "b"].
  split; [repeat constructor; cbn; intuition congruence|]. split; [repeat constructor; cbn; intuition congruence|]. split; [|split; [|vm_compute; reflexivity]].
  - intros n. split.
    + intros H. cbn in H. destruct H as [<-|[<-|[<-|[]]]]; [exists "a-0-1-DN"|exists "a-1-0-DN"|exists "b-0-0-DN"]; eexists; (split; [vm_compute; reflexivity|]); (split; [split; reflexivity|]); cbn; unfold active_status; auto.
    + intros (k & x & E & O & A). apply on_node_of in O. apply dget_In in E. vm_compute in E. repeat (destruct E as [E|E]; [inversion E; subst; cbn in *; first [tauto | destruct A; discriminate]|]). destruct E.
  - intros i. split.
    + intros H. cbn in H. destruct H as [<-|[<-|[]]]; eexists; (split; [vm_compute; reflexivity|]); cbn; unfold active_status; auto.
    + intros (s & E & A). apply dget_In in E. vm_compute in E. repeat (destruct E as [E|E]; [inversion E; subst; cbn in *; first [tauto | destruct A; discriminate]|]). destruct E.
Qed.
Lemma mixed_node : exists nc sc t, reachable t /\ (forall i, 0 <= nc i)%Q /\ ~ expenditure active_status nc sc t (fst (compute_capex nc sc t)).
Proof.
  exists nc, sc, ot. split; [apply ot_reachable|]. split; [intros; discriminate|]. intros H. pose proof (expenditure_unique nc sc active_status ot _ _ H ot_expenditure) as E. vm_compute in E. discriminate.
Qed.
(** a POP with two links through one sector and a wired link *)
Definition p_ops := [AddSite (os "a" POP EXISTING 1); AddSite (os "b" DN PROPOSED 2); AddSite (os "c" DN PROPOSED 3); AddSite (os "d" POP PROPOSED 4);
  AddSector (mkSector (ok_ "a" 0 0) PROPOSED); AddSector (mkSector (ok_ "b" 0 0) PROPOSED); AddSector (mkSector (ok_ "c" 0 0) PROPOSED);
  AddLink (mkLink "a" "b" true false (Some (ok_ "a" 0 0, ok_ "b" 0 0)) PROPOSED); AddLink (mkLink "a" "c" true false (Some (ok_ "a" 0 0, ok_ "c" 0 0)) PROPOSED); AddLink (mkLink "a" "d" false false None PROPOSED)].
Definition pt := run p_ops empty_topo.
Example pt_wf : well_formed pt. Proof. apply wf_reachable. exists p_ops. split; [|reflexivity]. unfold p_ops. ops_ok. Qed.
Definition pcap (k : string) : Q := if beq k "a-b" then 3 else if beq k "a-c" then 5 else 2.
Example pt_cap : forall k, (0 <= pcap k)%Q. Proof. intros k. unfold pcap. destruct (beq k "a-b"); [discriminate|]. destruct (beq k "a-c"); discriminate. Qed.
Example pt_pops : all_pops pt ["a"; "d"].
Proof.
  split; [repeat constructor; cbn; intuition congruence|]. intros i. split.
  - intros [<-|[<-|[]]]; eexists; split; vm_compute; reflexivity.
  - intros (s & E & T). apply dget_In in E. vm_compute in E. repeat (destruct E as [E|E]; [inversion E; subst; cbn in *; first [tauto | discriminate]|]). destruct E.
Qed.
Example pt_max : exists m, max_pop_capacity pcap [PROPOSED; EXISTING] 10 pt = Ok m /\ (m == 7)%Q. Proof. eexists. split; [vm_compute; reflexivity|]. reflexivity. Qed.
Example pt_max6 : exists m, max_pop_capacity pcap [PROPOSED; EXISTING] 6 pt = Ok m /\ (m == 6)%Q. Proof. eexists. split; [vm_compute; reflexivity|]. reflexivity. Qed.
(** three locations: an active CN, an active DN, an active POP *)
Definition l_ops := [AddSite (os "a" CN EXISTING 1); AddSite (os "b" CN CANDIDATE 1); AddSite (os "c" DN CANDIDATE 1);
  AddSite (os "d" DN EXISTING 2); AddSite (os "e" DN CANDIDATE 2); AddSite (os "f" POP CANDIDATE 2); AddSite (os "g" CN PROPOSED 2);
  AddSite (os "h" POP PROPOSED 3); AddSite (os "i" DN CANDIDATE 3); AddSite (os "j" CN CANDIDATE 4); AddSite (os "k" CN CANDIDATE 4)].
Definition lt_ := run l_ops empty_topo.
Example lt_wf : well_formed lt_. Proof. apply wf_reachable. exists l_ops. split; [|reflexivity]. unfold l_ops. ops_ok. Qed.
Example lt_removed : exists r, colocated_sites_to_remove lt_ = Ok r /\ forall i, mem i r = mem i ["b"; "e"; "f"; "g"; "i"].
Proof. eexists. split; [vm_compute; reflexivity|]. reflexivity. Qed.
