(** Two POPs that serve a DN each, and the first DN hears the second POP: a witness for C81. *)
From Coq Require Import QArith Lia Lqa.
From Verif Require Import Base Dict TopologyModel TopologySpec TopologyLemmas GraphSpec GraphProofs SetupModel IlpModel IlpSpec QLib MonadLib SetupProofs IlpExamples
  DeploySpec ChanModel ChanSpec ChanProofs ChanExamples SinrModel SinrSpec SinrProofs.
Local Open Scope Q_scope.

Definition dfeasibleb (C : dproblem) (w : answer) : bool :=
  forallb (fun k => let '(tx, e, c) := k in Qle_bool 0 (w_pol w tx e c) && Qle_bool (w_pol w tx e c) 1) (d_pols C) &&
  forallb (fun k => let '(e, c, n) := k in Qeq_bool (w_class w e c n) 0 || Qeq_bool (w_class w e c n) 1) (d_classes C) &&
  forallb (fun c => match c with DLe x y => Qle_bool (deval w x) (deval w y) end) (d_constraints C).
Lemma dfeasibleb_sound C w : dfeasibleb C w = true -> dfeasible C w.
Proof.
  unfold dfeasibleb. rewrite !andb_true_iff, !forallb_forall. intros ((H1 & H2) & H3). split; [|split].
  - intros tx e c Hin. specialize (H1 _ Hin). cbn in H1. apply andb_true_iff in H1. destruct H1 as (A & B). apply Qle_bool_iff in A, B. auto.
  - intros e c n Hin. specialize (H2 _ Hin). cbn in H2. apply orb_true_iff in H2. destruct H2 as [A|A]; apply Qeq_bool_eq in A; auto.
  - intros [x y] Hin. specialize (H3 _ Hin). cbn in H3. apply Qle_bool_iff in H3. exact H3.
Qed.

(** POP [p] has two sectors in one node; [q-d] is a candidate that is not used *)
Definition q0 := dx_key "q" 0 0 false.
Definition sx_ops : list op :=
  [AddSite (x_site_ "p" POP EXISTING 0); AddSite (x_site_ "q" POP EXISTING 1); AddSite (x_site_ "d" DN PROPOSED 2); AddSite (x_site_ "e" DN PROPOSED 3);
   AddSector (mkSector p0 CANDIDATE); AddSector (mkSector p1 CANDIDATE); AddSector (mkSector q0 CANDIDATE); AddSector (mkSector d0 CANDIDATE); AddSector (mkSector e0 CANDIDATE);
   AddLink (dx_link p0 d0 CANDIDATE); AddLink (dx_link d0 p0 CANDIDATE); AddLink (dx_link q0 e0 CANDIDATE); AddLink (dx_link e0 q0 CANDIDATE);
   AddLink (dx_link q0 d0 CANDIDATE); AddLink (dx_link d0 q0 CANDIDATE);
   AddDemand (mkDemand "y" ["d"]%string); AddDemand (mkDemand "z" ["e"]%string)].
Definition sx_topo : topo := run sx_ops empty_topo.
Definition sx_params : params := mkParams 2 1 1 false true 1000 (1 # 2) false (fun _ => 10).
Definition sx_inst : inst := match network sx_params ex_attrs sx_topo with Ok x => x | Err _ => no_inst end.
(** signal 8, noise 1, and 2 from [q] at [d]; 1 Gbps needs a ratio of 4, 2 Gbps one of 8 *)
Definition sx_radio : radio :=
  mkRadio (fun _ => 8) (fun e => if beq e ("q", "d")%string then 2 else 0) (fun _ => [(4, 1); (8, 2)]) (fun _ => 1) (fun _ _ => true).
Definition sx_full : problem * dproblem :=
  match full_problem sx_radio 2 15 [] sx_inst with Ok x => x | Err _ => (mkProblem [] [], mkDproblem [] [] []) end.
Definition sx_v (x : var) : Q :=
  match x with
  | VFlow i j => if mem (i, j) [("SUPERSOURCE", "p"); ("SUPERSOURCE", "q"); ("p", "d"); ("q", "e"); ("d", "y"); ("e", "z")]%string then 1 else 0
  | VActive i j => if mem (i, j) [("p", "d"); ("d", "p"); ("q", "e"); ("e", "q")]%string then 1 else 0
  | VSector i s c => if beq s (key_id p1) then 0 else 1
  | VTdm i j c => if mem (i, j) [("p", "d"); ("q", "e")]%string then 1 # 2 else 0
  | VOdd i => if mem i ["d"; "e"]%string then 1 else 0
  | _ => 0
  end.
Definition sx_w : answer :=
  mkAnswer sx_v (fun i e c => if beq i "p"%string && beq e ("q", "e")%string then 1 # 2 else 0)
    (fun e c n => if beq e ("p", "d")%string then (if Nat.eqb n 0 then 1 else 0)
                  else if beq e ("q", "e")%string then (if Nat.eqb n 1 then 1 else 0)
                  else if Nat.eqb n 2 then 1 else 0).
Lemma sx_reachable : reachable sx_topo.
Proof. exists sx_ops. split; [|reflexivity]. unfold sx_ops. repeat (constructor; [first [exact I | split; reflexivity | unfold op_ok, no_dash; simpl; intuition discriminate]|]). constructor. Qed.
Lemma sx_wf : well_formed sx_topo. Proof. apply wf_reachable, sx_reachable. Qed.
Lemma sx_names : names_ok ex_attrs sx_topo. Proof. apply names_okb_sound. vm_compute. reflexivity. Qed.
Lemma sx_stored : sectors_stored sx_topo. Proof. apply sectors_storedb_sound. vm_compute. reflexivity. Qed.
Lemma sx_kinds : sector_kinds sx_topo. Proof. apply sector_kindsb_sound. vm_compute. reflexivity. Qed.
Lemma sx_network : network sx_params ex_attrs sx_topo = Ok sx_inst. Proof. vm_compute. reflexivity. Qed.
Lemma sx_posed : full_problem sx_radio 2 15 [] sx_inst = Ok sx_full. Proof. vm_compute. reflexivity. Qed.
Lemma sx_answers : answers sx_full sx_w.
Proof. split; [apply feasibleb_sound; vm_compute; reflexivity|apply dfeasibleb_sound; vm_compute; reflexivity]. Qed.
Lemma sx_radio_ok : radio_ok sx_radio.
Proof.
  split; [intros e; cbn [sx_radio r_irsl]; destruct (beq e _); lra|]. intros i row [<-|[<-|[]]]; reflexivity.
Qed.
Definition sx_link : link := dx_link p0 d0 CANDIDATE.
Lemma sx_deployed i : mem i ["p"; "q"; "d"; "e"]%string = true -> deployed sx_topo i.
Proof.
  intros H. assert (Ch : (1 <= p_channels sx_params)%nat) by (repeat constructor).
  destruct (active_sites (deploy_inst sx_inst)) as [act|] eqn:E; [|vm_compute in E; discriminate E].
  apply (active_deployed sx_params ex_attrs sx_topo sx_inst sx_wf sx_names Ch sx_network act E). apply mem_In.
  apply mem_In in H. vm_compute in E. injection E as <-. destruct H as [<-|[<-|[<-|[<-|[]]]]]; reflexivity.
Qed.
(** what [q] sends to [e] is all that disturbs [p-d] *)
Lemma sx_disturbs : lists [("q", "e")%string] (disturbs sx_radio ex_attrs sx_topo sx_link).
Proof.
  split; [repeat constructor; auto|]. intros e. split.
  - intros [<-|[]]. exists "q-d"%string, (dx_link q0 d0 CANDIDATE), q0, d0, "q-e"%string, (dx_link q0 e0 CANDIDATE), q0, e0.
    split; [vm_compute; reflexivity|]. split; [split; [reflexivity|split; [eexists; eexists; reflexivity|reflexivity]]|]. split; [reflexivity|]. split; [reflexivity|]. split; [discriminate|].
    split; [apply sx_deployed; reflexivity|]. split; [reflexivity|]. split; [intros _; exists p0, d0; split; reflexivity|].
    split; [vm_compute; reflexivity|]. split; [split; [reflexivity|split; [eexists; eexists; reflexivity|reflexivity]]|]. split; [reflexivity|]. split; [reflexivity|]. split; [reflexivity|].
    split; [discriminate|]. split; [apply sx_deployed; reflexivity|reflexivity].
  - intros H. assert (Ch : (1 <= p_channels sx_params)%nat) by (repeat constructor).
    destruct (deploy_tables (deploy_inst sx_inst) []) as [(V & Dp)|] eqn:EV; [|vm_compute in EV; discriminate EV].
    destruct (active_sites (deploy_inst sx_inst)) as [act|] eqn:Ea; [|vm_compute in Ea; discriminate Ea].
    destruct (active_link_keys (deploy_inst sx_inst)) as [ak|] eqn:Ek; [|vm_compute in Ek; discriminate Ek].
    destruct (interfering_links sx_radio (deploy_inst sx_inst) V "p" "d" (key_id d0)) as [ls|] eqn:El.
    2: { exfalso. vm_compute in EV. injection EV as <- <-. vm_compute in El. discriminate El. }
    assert (VS : site_constants (deploy_inst sx_inst) act = Ok (v_site V)) by (vm_compute in EV, Ea; injection EV as <- <-; injection Ea as <-; vm_compute; reflexivity).
    assert (VA : v_active V = dict_of (fresh active_var ak)) by (vm_compute in EV, Ek; injection EV as <- <-; injection Ek as <-; vm_compute; reflexivity).
    assert (F := disturbing_found sx_radio sx_params ex_attrs sx_topo sx_inst sx_wf sx_names Ch sx_network V act ak "p-d" sx_link p0 d0 ls Ea VS Ek VA).
    assert (St : link_stored sx_topo "p-d" sx_link) by (vm_compute; reflexivity). specialize (F St eq_refl El e H).
    vm_compute in EV. injection EV as <- <-. vm_compute in El. injection El as <-. exact F.
Qed.
(** the traffic of [p-d] takes twice the airtime it has *)
Lemma sx_airtime : exists R ps at_ t I0 PC w k l, radio_ok R /\ reachable t /\ names_ok at_ t /\ sectors_stored t /\ sector_kinds t /\ network ps at_ t = Ok I0 /\
  full_problem R 2 15 [] I0 = Ok PC /\ answers PC w /\ link_stored t k l /\ used (w_net w) (l_tx l, l_rx l) /\
  forall c snr rate, (c < p_channels ps)%nat -> In (snr, rate) (r_mcs R (l_rx l)) -> received R ps at_ t (w_net w) l c snr ->
    total (fun c => share (w_net w) c (l_tx l, l_rx l)) (seq 0 (p_channels ps)) * rate < flow (w_net w) (l_tx l, l_rx l).
Proof.
  exists sx_radio, sx_params, ex_attrs, sx_topo, sx_inst, sx_full, sx_w, "p-d"%string, sx_link.
  split; [exact sx_radio_ok|]. split; [exact sx_reachable|]. split; [exact sx_names|]. split; [exact sx_stored|]. split; [exact sx_kinds|]. split; [exact sx_network|].
  split; [exact sx_posed|]. split; [exact sx_answers|]. split; [vm_compute; reflexivity|]. split; [reflexivity|].
  intros c snr rate Hc [E|[E|[]]] Hrec; injection E as <- <-; [reflexivity|exfalso].
  assert (c = 0)%nat by (cbn in Hc; lia). subst c.
  specialize (Hrec (fun e => if Qeq_bool (sx_v (VOdd "p")) (sx_v (VOdd (fst e))) then share sx_v 0 e else 0) [("q", "e")%string]).
  apply Qle_bool_iff in Hrec; [vm_compute in Hrec; discriminate Hrec| |exact sx_disturbs].
  intros e. unfold in_step. change (w_net sx_w) with sx_v. change (l_tx sx_link) with "p"%string. change (p_ignore_polarities sx_params) with false.
  destruct (Qeq_bool (sx_v (VOdd "p")) (sx_v (VOdd (fst e)))) eqn:B.
  - apply Qeq_bool_eq in B. split; [reflexivity|]. intros N. exfalso. apply N. now right.
  - apply Qeq_bool_neq in B. split; [intros [?|?]; [discriminate|contradiction]|reflexivity].
Qed.
(** one sector of the node of [p] is on, the other is off *)
Lemma sx_node : exists R ps at_ t I0 PC w k x k' x', radio_ok R /\ reachable t /\ names_ok at_ t /\ sectors_stored t /\ sector_kinds t /\ network ps at_ t = Ok I0 /\
  full_problem R 2 15 [] I0 = Ok PC /\ answers PC w /\ sector_stored t k x /\ sector_stored t k' x' /\ x_site x = x_site x' /\ k_node (x_key x) = k_node (x_key x') /\
  tuned (w_net w) (x_site x) k 0 /\ forall c, ~ tuned (w_net w) (x_site x') k' c.
Proof.
  exists sx_radio, sx_params, ex_attrs, sx_topo, sx_inst, sx_full, sx_w, (key_id p0), (mkSector p0 CANDIDATE), (key_id p1), (mkSector p1 CANDIDATE).
  split; [exact sx_radio_ok|]. split; [exact sx_reachable|]. split; [exact sx_names|]. split; [exact sx_stored|]. split; [exact sx_kinds|]. split; [exact sx_network|].
  split; [exact sx_posed|]. split; [exact sx_answers|]. split; [vm_compute; reflexivity|]. split; [vm_compute; reflexivity|]. split; [reflexivity|]. split; [reflexivity|]. split; [reflexivity|].
  intros c H. discriminate H.
Qed.
