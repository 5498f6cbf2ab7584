(** Concrete cases for C64. *)
From Coq Require Import ZArith.
From Verif Require Import Base Dict TopologyModel TopologySpec GraphModel GraphSpec GraphProofs DeploySpec CountModel CountSpec CountProofs CountMainProofs.
Local Open Scope string_scope.
Local Open Scope list_scope.

Definition cs i ty st (z : Z) := mkSite i ty st (z, 0, 0)%Z UNASSIGNED false.
Definition ck i n p cn := mkSecKey i n p cn.
Ltac ops_ok := repeat (constructor; [first [exact I | unfold op_ok, no_dash, link_args_ok; simpl; intuition (discriminate || reflexivity)]|]); constructor.
(** a POP, two DNs at one position, one more DN and a CN that both DNs reach *)
Definition c_ops := [AddSite (cs "a" POP PROPOSED 1); AddSite (cs "b" DN PROPOSED 2); AddSite (cs "e" DN CANDIDATE 2); AddSite (cs "c" DN PROPOSED 3); AddSite (cs "d" CN PROPOSED 4);
  AddSector (mkSector (ck "a" 0 0 false) PROPOSED); AddSector (mkSector (ck "b" 0 0 false) PROPOSED); AddSector (mkSector (ck "b" 0 1 false) PROPOSED); AddSector (mkSector (ck "c" 0 0 false) PROPOSED); AddSector (mkSector (ck "d" 0 0 true) PROPOSED);
  AddLink (mkLink "a" "b" true false (Some (ck "a" 0 0 false, ck "b" 0 0 false)) PROPOSED); AddLink (mkLink "b" "a" true false (Some (ck "b" 0 0 false, ck "a" 0 0 false)) PROPOSED);
  AddLink (mkLink "a" "e" true false None CANDIDATE); AddLink (mkLink "a" "c" false false None PROPOSED);
  AddLink (mkLink "b" "d" true true (Some (ck "b" 0 1 false, ck "d" 0 0 true)) PROPOSED); AddLink (mkLink "c" "d" true true (Some (ck "c" 0 0 false, ck "d" 0 0 true)) CANDIDATE);
  AddDemand (mkDemand "x" ["d"]); AddDemand (mkDemand "y" ["d"; "b"])].
Definition ct := run c_ops empty_topo.
Example ct_reachable : reachable ct. Proof. exists c_ops. split; [|reflexivity]. unfold c_ops. ops_ok. Qed.
Example ct_wf : well_formed ct. Proof. apply wf_reachable, ct_reachable. Qed.
Definition chash (c : Z * Z * Z) : string := match c with (1, _, _)%Z => "h1" | (2, _, _)%Z => "h2" | (3, _, _)%Z => "h3" | _ => "h4" end.
Example chash_no_dash : forall c, no_dash (chash c).
Proof.
  intros [[a b] c]. unfold chash, no_dash. repeat match goal with |- context [match ?x with _ => _ end] => destruct x end; cbn; intuition discriminate.
Qed.
Example ct_sectors : sectors_stored ct.
Proof.
  intros k l a b E S. apply dget_In in E. vm_compute in E.
  repeat (destruct E as [E|E]; [inversion E; subst; cbn in S; try discriminate; inversion S; subst; (split; [reflexivity|]); (split; [reflexivity|]); split; eexists; (split; [vm_compute; reflexivity|reflexivity])|]). destruct E.
Qed.
Definition cchan (k : string) : Z := if beq k "a-0-0-DN" || beq k "b-0-0-DN" then 1 else 2.
Example ct_match : channels_match cchan ct /\ both_ways_match cchan ct.
Proof.
  split.
  - intros k l a b (E & _ & _) S. apply dget_In in E. vm_compute in E. repeat (destruct E as [E|E]; [inversion E; subst; cbn in S; try discriminate; inversion S; subst; reflexivity|]). destruct E.
  - intros k l k' l' c (E & W1 & _) (E' & W2 & _) H1 H2. apply dget_In in E. apply dget_In in E'. vm_compute in E, E'.
    repeat (destruct E as [E|E]; [inversion E; subst; try discriminate W1; repeat (destruct E' as [E'|E']; [inversion E'; subst; try discriminate H1; try discriminate H2; try discriminate W2; vm_compute; auto|]); destruct E'|]). destruct E.
Qed.
(** four sites at total positions a, b=e, c, d; the active link a-b is counted once, as is the candidate a-e at the same positions *)
Example ct_report : exists c sk ch, count_topology_components chash (fun i => i) cchan ct = Ok (c, sk, ch) /\ total_sites c = 4%Z /\ total_dn_sites c = 2%Z /\ active_dn_sites c = 2 /\ connectable_dn_sites c = 2%Z /\
  active_backhaul_links c = 1 /\ total_backhaul_links c = 1 /\ active_cns_with_backup_dns c = 1 /\ active_dn_sectors_on_dns c = 3%Z /\ active_demand_connected_cn_sites c = 1 /\ ch = [(1%Z, 1); (2%Z, 1)].
Proof. eexists _, _, _. split; [vm_compute; reflexivity|]. vm_compute. auto 20. Qed.
