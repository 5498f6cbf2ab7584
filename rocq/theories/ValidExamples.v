(** Concrete topologies. Statuses are those of the objects when the check runs: a site may change its status after its links were made. *)
From Verif Require Import Base Dict SetupModel LosRangeModel TopologyModel TopologySpec ValidModel ValidSpec.
Local Open Scope string_scope.
Local Open Scope list_scope.

Definition kp := mkSecKey "p" 0 0 false.
Definition kd := mkSecKey "d" 0 0 false.
Definition kc := mkSecKey "c" 0 0 true.
Definition vs (i : string) (ty : site_type) (st : status) := mkSite i ty st (0, 0, 0)%Z UNASSIGNED false.
Definition vl (a b : string) (w cn : bool) (s : option (seckey * seckey)) (st : status) := mkLink a b w cn s st.
Definition all_proposed (k : seckey) := PROPOSED.
(** a POP, a DN and a client; two-way wireless link, one-way link to the client *)
Definition network (sd sc : status) :=
  [AddSite (vs "p" POP EXISTING); AddSite (vs "d" DN sd); AddSite (vs "c" CN sc);
   AddLink (vl "p" "d" true false (Some (kp, kd)) PROPOSED); AddLink (vl "d" "p" true false (Some (kd, kp)) PROPOSED);
   AddLink (vl "d" "c" true true (Some (kd, kc)) PROPOSED)].
Definition wired_network :=
  [AddSite (vs "p" POP EXISTING); AddSite (vs "d" DN EXISTING);
   AddLink (vl "p" "d" false false None EXISTING); AddLink (vl "d" "p" false false None EXISTING)].
Definition tn sd sc := run (network sd sc) empty_topo.
Definition tw := run wired_network empty_topo.


Lemma ops_ok l : (forall o, In o l -> op_ok o) -> reachable (run l empty_topo).
Proof. intros H. exists l. split; [now apply Forall_forall|reflexivity]. Qed.
Example network_stored sd sc : dkeys (t_links (tn sd sc)) = ["p-d"; "d-p"; "d-c"].
Proof. vm_compute. reflexivity. Qed.
Lemma network_reachable sd sc : reachable (tn sd sc).
Proof. apply ops_ok. intros o H. cbn in H. decompose [or] H; try contradiction; subst o; unfold op_ok, no_dash, link_args_ok; cbn; intuition discriminate. Qed.
Lemma wired_reachable : reachable tw.
Proof. apply ops_ok. intros o H. cbn in H. decompose [or] H; try contradiction; subst o; unfold op_ok, no_dash, link_args_ok; cbn; intuition discriminate. Qed.
Lemma network_typed sd sc : typed (tn sd sc).
Proof.
  intros k l H. apply dget_In in H. vm_compute in H. decompose [or] H; try contradiction; match goal with E : (_, _) = (_, _) |- _ => injection E as <- <- end;
    split; intros s E; vm_compute in E; injection E as <-; cbn; try discriminate; split; congruence.
Qed.
Lemma wired_typed : typed tw.
Proof.
  intros k l H. apply dget_In in H. vm_compute in H. decompose [or] H; try contradiction; match goal with E : (_, _) = (_, _) |- _ => injection E as <- <- end;
    split; intros s E; vm_compute in E; injection E as <-; cbn; try discriminate; split; congruence.
Qed.
(** A consistent network is accepted, and one whose DN was withdrawn after the link was proposed is refused *)
Example accepted : validate_status all_proposed (tn PROPOSED PROPOSED) = Ok tt.
Proof. vm_compute. reflexivity. Qed.
Example refused : validate_status all_proposed (tn CANDIDATE PROPOSED) = Err TopologyExn.
Proof. vm_compute. reflexivity. Qed.
(** A proposed link to a client that is only a candidate is accepted *)
Lemma client_accepted : exists sec t k l, reachable t /\ typed t /\ validate_status sec t = Ok tt /\ link_stored t k l
  /\ l_status l = PROPOSED /\ ~ suits sec t l.
Proof.
  exists all_proposed, (tn PROPOSED CANDIDATE), "d-c". eexists. split; [apply network_reachable|]. split; [apply network_typed|].
  split; [vm_compute; reflexivity|]. split; [vm_compute; reflexivity|]. split; [reflexivity|].
  intros (_ & H & _). destruct (H eq_refl) as [H1 _]. destruct (H1 "c" (vs "c" CN CANDIDATE)) as [E|E]; [now right|vm_compute; reflexivity|discriminate|discriminate].
Qed.
(** A wired network of existing sites is refused *)
Lemma wired_network_refused : exists sec t, reachable t /\ typed t /\ validate_status sec t = Err TopologyExn
  /\ (forall k l, link_stored t k l -> l_wireless l = false /\ l_status l = EXISTING /\ (exists r, reverse_of t l r /\ l_status r = EXISTING) /\ end_sites t l (eq EXISTING))
  /\ exists k l, link_stored t k l.
Proof.
  exists all_proposed, tw. split; [apply wired_reachable|]. split; [apply wired_typed|]. split; [vm_compute; reflexivity|]. split.
  - intros k l H. apply dget_In in H. vm_compute in H. decompose [or] H; try contradiction; match goal with E : (_, _) = (_, _) |- _ => injection E as <- <- end;
      (split; [reflexivity|]; split; [reflexivity|]; split).
    + eexists. split; [exists "d-p"; split; [vm_compute; reflexivity|split; reflexivity]|reflexivity].
    + intros i s [->| ->] E; vm_compute in E; injection E as <-; reflexivity.
    + eexists. split; [exists "p-d"; split; [vm_compute; reflexivity|split; reflexivity]|reflexivity].
    + intros i s [->| ->] E; vm_compute in E; injection E as <-; reflexivity.
  - exists "p-d". eexists. vm_compute. reflexivity.
Qed.
