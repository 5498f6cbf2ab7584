(** Concrete plans for C39. *)
From Verif Require Import Base Dict TopologyModel TopologySpec StatusModel GraphModel GraphSpec GraphProofs ApplyModel ApplySpec ApplyProofs ApplyMainProofs.
Local Open Scope string_scope.
Local Open Scope list_scope.

Definition as_ i ty st := mkSite i ty st (0, 0, 0)%Z UNASSIGNED false.
Definition ak i := mkSecKey i 0 0 false.
Definition al a b st := mkLink a b true false (Some (ak a, ak b)) st.
(** POP a, DN b and c, CN e; c and e are chosen but only b is connected *)
Definition a_ops := [AddSite (as_ "a" POP EXISTING); AddSite (as_ "b" DN CANDIDATE); AddSite (as_ "c" DN CANDIDATE); AddSite (as_ "u" DN UNAVAILABLE); AddSite (as_ "e" CN PROPOSED);
  AddSector (mkSector (ak "a") EXISTING); AddSector (mkSector (ak "b") CANDIDATE); AddSector (mkSector (ak "c") CANDIDATE); AddSector (mkSector (ak "e") PROPOSED);
  AddLink (al "a" "b" CANDIDATE); AddLink (al "b" "a" CANDIDATE); AddLink (al "b" "c" CANDIDATE); AddLink (al "c" "b" CANDIDATE); AddLink (al "c" "e" CANDIDATE)].
Definition at_ := run a_ops empty_topo.
Definition sk i := (i, key_id (ak i)).
Definition ap : plan := mkPlan [("a", 1); ("b", 1); ("c", 1)]%Z [(sk "a", 1); (sk "b", 1); (sk "c", 1)]%Z [(("a", "b"), 1); (("b", "a"), 1); (("c", "b"), 1)]%Z [("a", 1)]%Z [("b", 1); ("c", 0)]%Z [(sk "b", 2)]%Z.
Ltac ops_ok := repeat (constructor; [first [exact I | unfold op_ok, no_dash, link_args_ok; simpl; intuition (discriminate || reflexivity)]|]); constructor.
Example at_reachable : reachable at_.
Proof. exists a_ops. split; [|reflexivity]. unfold a_ops. ops_ok. Qed.
Example at_wf : well_formed at_. Proof. apply wf_reachable, at_reachable. Qed.
Example at_returned : all_returned a_ops empty_topo. Proof. vm_compute. repeat split. Qed.
Example at_applied : exists t', update_topology_with_solution ap at_ = (Ok tt, t') /\
  map (site_status_of t') ["a"; "b"; "c"; "u"; "e"] = [Some EXISTING; Some PROPOSED; Some CANDIDATE; Some UNAVAILABLE; Some CANDIDATE] /\
  map (link_status_of t') ["a-b"; "b-a"; "c-b"; "b-c"] = [Some PROPOSED; Some PROPOSED; Some CANDIDATE; Some CANDIDATE] /\
  map (fun i => option_map s_polarity (dget (t_sites t') i)) ["a"; "b"; "c"] = [Some ODD; Some EVEN; Some UNASSIGNED].
Proof. exists (snd (update_topology_with_solution ap at_)). vm_compute. auto. Qed.
Example at_fits : fits ap at_.
Proof. apply (returns_iff ap at_ at_wf). vm_compute. reflexivity. Qed.
Example at_supported : existing_supported at_.
Proof.
  split.
  - intros k l E. unfold link_stored in E. apply dget_In in E. vm_compute in E. repeat (destruct E as [E|E]; [inversion E; subst; simpl; discriminate|]). destruct E.
  - intros k x E. unfold sector_stored in E. apply dget_In in E. vm_compute in E. repeat (destruct E as [E|E]; [inversion E; subst; simpl; first [discriminate|intros; reflexivity]|]). destruct E.
Qed.

(** a chosen link whose sector is not chosen with an inactive site does not fit *)
Example misfit : fst (update_topology_with_solution (mkPlan [] [(sk "b", 1)]%Z [] [] [] []) at_) = Err TopologyExn. Proof. vm_compute. reflexivity. Qed.
Example misfit2 : fst (update_topology_with_solution (mkPlan [] [] [] [("a", 1)]%Z [("a", 1)]%Z []) at_) = Err OptExn. Proof. vm_compute. reflexivity. Qed.

(** a disconnected site without sectors *)
Definition b_ops := [AddSite (as_ "a" POP EXISTING); AddSite (as_ "b" DN CANDIDATE)].
Lemma stays_disconnected : exists p t t' i s, reachable t /\ update_topology_with_solution p t = (Ok tt, t') /\
  dget (t_sites t') i = Some s /\ s_status s = PROPOSED /\ disconnected t' i.
Proof.
  exists (mkPlan [("b", 1)]%Z [] [] [] [] []), (run b_ops empty_topo), (snd (update_topology_with_solution (mkPlan [("b", 1)]%Z [] [] [] [] []) (run b_ops empty_topo))), "b". eexists.
  split; [exists b_ops; split; [unfold b_ops; ops_ok|reflexivity]|]. split; [vm_compute; reflexivity|]. split; [vm_compute; reflexivity|]. split; [reflexivity|].
  intros n R. destruct n; [apply route_zero in R; destruct R as (s & E & T & _); vm_compute in E; injection E as <-; discriminate|]. apply route_succ in R. destruct R as (a & k & l & s & _ & E & _). vm_compute in E. discriminate.
Qed.
(** a chosen link between disconnected existing sites *)
Definition c_ops := [AddSite (as_ "a" POP EXISTING); AddSite (as_ "b" DN EXISTING); AddSite (as_ "c" DN EXISTING); AddSector (mkSector (ak "b") CANDIDATE); AddSector (mkSector (ak "c") CANDIDATE); AddLink (al "b" "c" CANDIDATE)].
Definition cp : plan := mkPlan [] [(sk "b", 1); (sk "c", 1)]%Z [(("b", "c"), 1)]%Z [] [] [].
Lemma sectorless_link : exists p t t' k l a b, reachable t /\ existing_supported t /\ update_topology_with_solution p t = (Ok tt, t') /\
  dget (t_links t') k = Some l /\ l_status l = PROPOSED /\ l_sectors l = Some (a, b) /\ sector_status_of t' (key_id a) = Some CANDIDATE /\ sector_status_of t' (key_id b) = Some CANDIDATE.
Proof.
  exists cp, (run c_ops empty_topo), (snd (update_topology_with_solution cp (run c_ops empty_topo))), "b-c". eexists. exists (ak "b"), (ak "c").
  split; [exists c_ops; split; [unfold c_ops; ops_ok|reflexivity]|]. split.
  - split; [intros k l E|intros k x E]; unfold link_stored, sector_stored in E; apply dget_In in E; vm_compute in E; repeat (destruct E as [E|E]; [inversion E; subst; simpl; discriminate|]); destruct E.
  - split; [vm_compute; reflexivity|]. split; [vm_compute; reflexivity|]. split; [reflexivity|]. split; [reflexivity|]. vm_compute. auto.
Qed.
