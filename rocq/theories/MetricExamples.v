(** Concrete cases for C73. *)
From Coq Require Import ZArith QArith.
From Verif Require Import Base Dict SetupModel TopologyModel TopologySpec GraphModel GraphSpec GraphProofs DeploySpec CountModel CountSpec CountExamples ReportModel ReportSpec MetricSpec.
Local Open Scope string_scope.
Local Open Scope list_scope.

(** a POP, a DN and a CN, joined by radio links *)
Definition m_ops := [AddSite (cs "a" POP PROPOSED 1); AddSite (cs "b" DN PROPOSED 2); AddSite (cs "d" CN PROPOSED 4);
  AddSector (mkSector (ck "a" 0 0 false) PROPOSED); AddSector (mkSector (ck "b" 0 0 false) PROPOSED); AddSector (mkSector (ck "b" 0 1 false) PROPOSED); AddSector (mkSector (ck "d" 0 0 true) PROPOSED);
  AddLink (mkLink "a" "b" true false (Some (ck "a" 0 0 false, ck "b" 0 0 false)) PROPOSED); AddLink (mkLink "b" "a" true false (Some (ck "b" 0 0 false, ck "a" 0 0 false)) PROPOSED);
  AddLink (mkLink "b" "d" true true (Some (ck "b" 0 1 false, ck "d" 0 0 true)) PROPOSED);
  AddDemand (mkDemand "x" ["d"]); AddDemand (mkDemand "y" ["d"; "b"])].
Definition mt := run m_ops empty_topo.
Example mt_reachable : reachable mt. Proof. exists m_ops. split; [|reflexivity]. unfold m_ops. ops_ok. Qed.
Definition m_class (l : link) : nat := if l_rx_cn l then 4%nat else 9%nat.
Definition m_report := get_topology_metrics chash (fun i => i) cchan mt (fun l => if l_rx_cn l then 50 else 200)%Q m_class (Ok tt) [(Some (1 # 2)%Q, 1%nat); (None, 2%nat)] 0 0 1 2%Q
  (Some ((1 # 4)%Q, 2%nat, [(("a", "b"), 50%Q); (("b", "d"), 25%Q)])) [(("a", "b"), ["b"; "d"])] [("a", ["b"; "d"])] [].
Example mt_counted : forall l, plan_link mt l -> countable mt l.
Proof.
  assert (S1 : dn_sector mt "a-0-0-DN") by (eexists; split; [vm_compute; reflexivity|split; [reflexivity|now left]]).
  assert (S2 : dn_sector mt "b-0-0-DN") by (eexists; split; [vm_compute; reflexivity|split; [reflexivity|now left]]).
  assert (S3 : dn_sector mt "b-0-1-DN") by (eexists; split; [vm_compute; reflexivity|split; [reflexivity|now left]]).
  intros l (k & E & _). apply dget_In in E. vm_compute in E. decompose [or] E; try contradiction; match goal with H : (_, _) = (_, _) |- _ => injection H as <- <- end; do 2 eexists; (split; [reflexivity|]); split; intros H; try assumption; discriminate H.
Qed.
Example mt_match : channels_match cchan mt /\ one_class mt m_class /\ (exists i, a_site mt true (fun ty => ty = POP) i).
Proof.
  split; [|split].
  - intros k l a b (E & _ & _) S. apply dget_In in E. vm_compute in E. repeat (destruct E as [E|E]; [inversion E; subst; cbn in S; try discriminate; inversion S; subst; reflexivity|]). destruct E.
  - intros l l' (k & E & _) (k' & E' & _) [O1 O2] _. apply dget_In in E. apply dget_In in E'. vm_compute in E, E'.
    decompose [or] E; try contradiction; match goal with H : (_, _) = (k, _) |- _ => injection H as <- <- end; decompose [or] E'; try contradiction; match goal with H : (_, _) = (k', _) |- _ => injection H as <- <- end; try reflexivity; discriminate.
  - exists "a", (cs "a" POP PROPOSED 1). split; [vm_compute; reflexivity|]. split; [reflexivity|]. intros _. now left.
Qed.
(** one backhaul link on two of three DN sectors, one access link on the third *)
Example mt_metrics : exists m, m_report = Ok m /\ Qeq (m_avg (me_backhaul_per_sector m)) (2 # 3)%Q /\ Qeq (m_max (me_backhaul_per_sector m)) 1%Q /\ Qeq (m_min (me_backhaul_per_sector m)) 0%Q /\
  Qeq (m_avg (me_access_per_sector m)) (1 # 3)%Q /\ me_backhaul_mcs m = [(9, 1)]%nat /\ me_access_mcs m = [(4, 1)]%nat /\ Qeq (m_avg (me_pop_effect m)) 2%Q /\ Qeq (m_max (me_dn_effect m)) 0%Q /\
  Qeq (dm_total (me_demand m)) (1 # 2)%Q /\ Qeq (dm_percentage (me_demand m)) 50%Q.
Proof. eexists. split; [vm_compute; reflexivity|]. repeat match goal with |- _ /\ _ => split end; vm_compute; reflexivity. Qed.

(** a wired link of the plan *)
Lemma wired_breaks : exists hash sku channel t dist mcs, reachable t /\ (forall p, no_dash (hash p)) /\ channels_match channel t /\
  (exists i, a_site t true (fun ty => ty = POP) i) /\ (forall l, plan_link t l -> l_type l <> ETHERNET -> countable t l) /\ (exists l, plan_link t l /\ l_type l = ETHERNET) /\
  get_topology_metrics hash sku channel t dist mcs (Ok tt) [] 0 0 0 1 None [] [] [] = Err PyAssertion.
Proof.
  exists chash, (fun i => i), cchan, ct, (fun _ => 0%Q), (fun _ => 0%nat). split; [exact ct_reachable|]. split; [exact chash_no_dash|]. split; [apply ct_match|].
  split; [exists "a", (cs "a" POP PROPOSED 1); split; [vm_compute; reflexivity|]; split; [reflexivity|]; intros _; now left|]. split; [|split].
  - assert (S1 : dn_sector ct "a-0-0-DN") by (eexists; split; [vm_compute; reflexivity|split; [reflexivity|now left]]).
    assert (S2 : dn_sector ct "b-0-0-DN") by (eexists; split; [vm_compute; reflexivity|split; [reflexivity|now left]]).
    assert (S3 : dn_sector ct "b-0-1-DN") by (eexists; split; [vm_compute; reflexivity|split; [reflexivity|now left]]).
    intros l (k & E & P) T. apply dget_In in E. vm_compute in E. decompose [or] E; try contradiction; match goal with H : (_, _) = (_, _) |- _ => injection H as <- <- end; try (exfalso; apply T; reflexivity); try (exfalso; destruct P; discriminate);
      do 2 eexists; (split; [reflexivity|]); split; intros H; try assumption; discriminate H.
  - exists (mkLink "a" "c" false false None PROPOSED). split; [exists "a-c"; split; [vm_compute; reflexivity|now left]|reflexivity].
  - vm_compute. reflexivity.
Qed.
