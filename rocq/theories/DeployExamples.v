(** Concrete cases for C35. *)
From Coq Require Import QArith.
From Verif Require Import Base Dict TopologyModel TopologySpec TopologyLemmas GraphSpec GraphProofs DeployModel DeploySpec DeployProofs DeployLimitProofs.
Local Open Scope string_scope.
Local Open Scope list_scope.

Definition ds i ty (z : Z) := mkSite i ty PROPOSED (z, 0, 0)%Z UNASSIGNED false.
Definition dk i n p := mkSecKey i n p false.
Ltac ops_ok := repeat (constructor; [first [exact I | unfold op_ok, no_dash, link_args_ok; simpl; intuition (discriminate || reflexivity)]|]); constructor.
(** site a with two sectors: links to b and c through the first, to d through the second; the link to c is not active *)
Definition d_ops := [AddSite (ds "a" POP 1); AddSite (ds "b" DN 2); AddSite (ds "c" DN 3); AddSite (ds "d" DN 4);
  AddSector (mkSector (dk "a" 0 0) PROPOSED); AddSector (mkSector (dk "a" 0 1) PROPOSED); AddSector (mkSector (dk "b" 0 0) PROPOSED);
  AddSector (mkSector (dk "c" 0 0) PROPOSED); AddSector (mkSector (dk "d" 0 0) PROPOSED);
  AddLink (mkLink "a" "b" true false (Some (dk "a" 0 0, dk "b" 0 0)) PROPOSED); AddLink (mkLink "a" "c" true false (Some (dk "a" 0 0, dk "c" 0 0)) CANDIDATE);
  AddLink (mkLink "a" "d" true false (Some (dk "a" 0 1, dk "d" 0 0)) PROPOSED)].
Definition dt := run d_ops empty_topo.
Example dt_reachable : reachable dt. Proof. exists d_ops. split; [|reflexivity]. unfold d_ops. ops_ok. Qed.
Example dt_wf : well_formed dt. Proof. apply wf_reachable, dt_reachable. Qed.
Definition dgeom (i a b : string) : result (Q * Q) := Ok (if beq a "b" || beq b "b" then 20 else 40, 3)%Q.
Definition dchan (k : string) : Z := 0.
Example dgeom_sym : same_in_both_orders dgeom. Proof. intros i a b. unfold dgeom. now rewrite orb_comm. Qed.
Example dt_angles : find_angle_violating_link_pairs dgeom dchan 25 45 2 false dt = Ok ([("a", "b", "d")], [("a", "c", "d")]). Proof. vm_compute. reflexivity. Qed.
Example dt_active_angles : find_angle_violating_link_pairs dgeom dchan 25 45 2 true dt = Ok ([("a", "b", "d")], []). Proof. vm_compute. reflexivity. Qed.
Example dt_measurable : measurable dgeom true dt.
Proof. apply (angles_return dgeom dchan 25 45 2 true dt dt_wf dgeom_sym). eexists. exact dt_active_angles. Qed.
Example dt_link_ids : get_violating_link_ids dt [("a", "b", "d")] = Ok ["a-b"; "a-d"]. Proof. vm_compute. reflexivity. Qed.
Example dt_sectors : sectors_stored dt.
Proof.
  intros k l a b E S. apply dget_In in E. vm_compute in E.
  repeat (destruct E as [E|E]; [inversion E; subst; cbn in S; try discriminate; inversion S; subst; (split; [reflexivity|]); (split; [reflexivity|]); split; eexists; (split; [vm_compute; reflexivity|reflexivity])|]). destruct E.
Qed.
Example dt_limits : find_sector_limit_violations dt 0 5 = Ok [("a-0-0-DN", ["b-0-0-DN"; "c-0-0-DN"]); ("a-0-1-DN", ["d-0-0-DN"])]. Proof. vm_compute. reflexivity. Qed.
Example dt_limits_total : find_sector_limit_violations dt 1 0 = Ok [("a-0-0-DN", ["b-0-0-DN"; "c-0-0-DN"]); ("a-0-1-DN", ["d-0-0-DN"])]. Proof. vm_compute. reflexivity. Qed.
Example dt_limits_none : find_sector_limit_violations dt 1 1 = Ok []. Proof. vm_compute. reflexivity. Qed.
(** c-0-0-DN is listed although its link is not active *)
Lemma listed_without_link : exists t r s l x, reachable t /\ sectors_stored t /\ find_sector_limit_violations t 0 5 = Ok r /\ dget r s = Some l /\ In x l /\
  ~ exists k li a b, link_stored t k li /\ is_active (l_status li) /\ l_sectors li = Some (a, b) /\ key_id a = s /\ key_id b = x.
Proof.
  exists dt, [("a-0-0-DN", ["b-0-0-DN"; "c-0-0-DN"]); ("a-0-1-DN", ["d-0-0-DN"])], "a-0-0-DN", ["b-0-0-DN"; "c-0-0-DN"], "c-0-0-DN".
  split; [exact dt_reachable|]. split; [exact dt_sectors|]. split; [exact dt_limits|]. split; [reflexivity|]. split; [cbn; auto|].
  intros (k & li & a & b & E & A & S & E1 & E2). apply dget_In in E. vm_compute in E.
  repeat (destruct E as [E|E]; [inversion E; subst; cbn in *; inversion S; subst; first [destruct A; discriminate | discriminate E2 | discriminate E1]|]). destruct E.
Qed.
(** an active wireless link that has no sectors yet *)
Definition e_ops := [AddSite (ds "a" POP 1); AddSite (ds "b" DN 2); AddSite (ds "c" DN 3); AddSector (mkSector (dk "a" 0 0) PROPOSED); AddSector (mkSector (dk "b" 0 0) PROPOSED);
  AddLink (mkLink "a" "b" true false (Some (dk "a" 0 0, dk "b" 0 0)) PROPOSED); AddLink (mkLink "a" "c" true false None PROPOSED)].
Lemma no_sector_raises : exists geom channel t, reachable t /\ same_in_both_orders geom /\ (forall i a b, exists g, geom i a b = Ok g) /\ find_angle_violating_link_pairs geom channel 25 45 2 true t = Err PyTypeError.
Proof.
  exists dgeom, dchan, (run e_ops empty_topo). split; [exists e_ops; split; [unfold e_ops; ops_ok|reflexivity]|]. split; [exact dgeom_sym|]. split; [intros; unfold dgeom; eauto|]. vm_compute. reflexivity.
Qed.
