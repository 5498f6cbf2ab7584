(** C79: a good plan, and an active link whose end is left out. *)
From Coq Require Import QArith Lqa.
From Verif Require Import Base Dict TopologyModel TopologySpec TopologyLemmas GraphSpec GraphProofs SetupModel IlpModel IlpSpec QLib MonadLib SetupProofs IlpExamples SolveSpec SolveExamples ValidModel ValidSpec FitSpec FitAnswerProofs.
Local Open Scope Q_scope.

(** Existing POP [p] with a proposed link to the candidate CN [c], alone at its place. *)
Definition end_link : link := x_link "p" "c" true PROPOSED.
Definition end_ops : list op :=
  [AddSite (x_site_ "p" POP EXISTING 0); AddSite (x_site_ "c" CN CANDIDATE 1); AddSector (mkSector (x_key_ "p" false) EXISTING); AddSector (mkSector (x_key_ "c" true) CANDIDATE);
   AddLink end_link; AddDemand (mkDemand "z" ["c"]%string)].
Definition end_topo : topo := run end_ops empty_topo.
Definition end_inst : inst := match network ex_params ex_attrs end_topo with Ok x => x | Err _ => ex_inst end.
Definition end_problem : problem := match site_problem CoverageUnderCost [] end_inst with Ok P => P | Err _ => mkProblem [] [] end.
Definition end_v (x : var) : Q :=
  match x with
  | VSite i => if beq i "p"%string then 1 else 0
  | VShort _ => 1
  | _ => 0
  end.
Lemma end_reachable : reachable end_topo.
Proof. exists end_ops. split; [|reflexivity]. unfold end_ops. repeat (constructor; [first [exact I | split; reflexivity | unfold op_ok, no_dash; simpl; intuition discriminate]|]). constructor. Qed.
Lemma end_names : names_ok ex_attrs end_topo. Proof. apply names_okb_sound. vm_compute. reflexivity. Qed.
Lemma end_network : network ex_params ex_attrs end_topo = Ok end_inst. Proof. vm_compute. reflexivity. Qed.
Lemma end_posed : site_problem CoverageUnderCost [] end_inst = Ok end_problem. Proof. vm_compute. reflexivity. Qed.
Lemma end_feasible : feasible end_problem end_v. Proof. apply feasibleb_sound. vm_compute. reflexivity. Qed.
Lemma end_typed : typed end_topo.
Proof.
  intros k l H. apply dget_In in H. vm_compute in H. decompose [or] H; try contradiction; match goal with E : (_, _) = (_, _) |- _ => injection E as <- <- end;
    split; intros s E; vm_compute in E; injection E as <-; cbn; try discriminate; split; congruence.
Qed.
Lemma end_valid : validate_status (fun _ => EXISTING) end_topo = Ok tt. Proof. vm_compute. reflexivity. Qed.
Definition left_outb (t : topo) (v : var -> Q) (s : site) : bool :=
  forallb (fun q => negb (beq (s_loc (snd q)) (s_loc s)) || negb (Qeq_bool (v (VSite (fst q))) 1)) (t_sites t).
Lemma left_out t v s : left_outb t v s = true -> forall j sj, dget (t_sites t) j = Some sj -> s_loc sj = s_loc s -> ~ selected v j.
Proof.
  intros H j sj Ej L X. unfold left_outb in H. rewrite forallb_forall in H. specialize (H _ (dget_In _ _ _ Ej)). cbn [fst snd] in H. unfold selected in X. apply Qeq_bool_iff in X. rewrite X in H.
  assert (B : beq (s_loc sj) (s_loc s) = true) by now apply beq_eq. rewrite B in H. discriminate.
Qed.
Lemma end_left_out : exists ps at_ sec t I P v k l i s, reachable t /\ typed t /\ validate_status sec t = Ok tt /\ names_ok at_ t /\ network ps at_ t = Ok I /\ sane ps at_ t /\
  site_problem CoverageUnderCost [] I = Ok P /\ feasible P v /\
  link_stored t k l /\ active_link l /\ touches l i /\ dget (t_sites t) i = Some s /\ (forall j sj, dget (t_sites t) j = Some sj -> s_loc sj = s_loc s -> ~ selected v j).
Proof.
  exists ex_params, ex_attrs, (fun _ => EXISTING), end_topo, end_inst, end_problem, end_v, (link_id_of "p" "c"), end_link, "c"%string, (x_site_ "c" CN CANDIDATE 1).
  split; [exact end_reachable|]. split; [exact end_typed|]. split; [exact end_valid|]. split; [exact end_names|]. split; [exact end_network|]. split; [apply ex_sane|]. split; [exact end_posed|]. split; [exact end_feasible|].
  split; [vm_compute; reflexivity|]. split; [left; reflexivity|]. split; [right; reflexivity|]. split; [vm_compute; reflexivity|]. apply left_out. vm_compute. reflexivity.
Qed.

(** the same with the client proposed *)
Definition kept_topo : topo :=
  run [AddSite (x_site_ "p" POP EXISTING 0); AddSite (x_site_ "c" CN PROPOSED 1); AddSector (mkSector (x_key_ "p" false) EXISTING); AddSector (mkSector (x_key_ "c" true) PROPOSED);
       AddLink end_link; AddDemand (mkDemand "z" ["c"]%string)] empty_topo.
Definition kept_inst : inst := match network ex_params ex_attrs kept_topo with Ok x => x | Err _ => ex_inst end.
Definition kept_problem : problem := match site_problem CostUnderCoverage [] kept_inst with Ok P => P | Err _ => mkProblem [] [] end.
Definition kept_v (x : var) : Q :=
  match x with
  | VSite _ => 1
  | VFlow i j => if mem (i, j) [("SUPERSOURCE", "p"); ("p", "c"); ("c", "z")]%string then 1 else 0
  | VTdm _ _ _ => 1
  | _ => 0
  end.
Lemma kept_reachable : reachable kept_topo.
Proof. eexists. split; [|reflexivity]. repeat (constructor; [first [exact I | split; reflexivity | unfold op_ok, no_dash; simpl; intuition discriminate]|]). constructor. Qed.
Lemma kept_typed : typed kept_topo.
Proof.
  intros k l H. apply dget_In in H. vm_compute in H. decompose [or] H; try contradiction; match goal with E : (_, _) = (_, _) |- _ => injection E as <- <- end;
    split; intros s E; vm_compute in E; injection E as <-; cbn; try discriminate; split; congruence.
Qed.
Lemma kept_valid : validate_status (fun _ => EXISTING) kept_topo = Ok tt. Proof. vm_compute. reflexivity. Qed.
Lemma kept_clients k l i s : link_stored kept_topo k l -> active_link l -> l_type l = WIRELESS_ACCESS -> touches l i -> dget (t_sites kept_topo) i = Some s -> deployed (s_status s).
Proof. assert (H : active_links_sound kept_topo) by (apply soundb_sound; vm_compute; reflexivity). intros H1 H2 _ H3 H4. exact (H k l i s H1 H2 H3 H4). Qed.
Lemma kept_names : names_ok ex_attrs kept_topo. Proof. apply names_okb_sound. vm_compute. reflexivity. Qed.
Lemma kept_network : network ex_params ex_attrs kept_topo = Ok kept_inst. Proof. vm_compute. reflexivity. Qed.
Lemma kept_posed : site_problem CostUnderCoverage [] kept_inst = Ok kept_problem. Proof. vm_compute. reflexivity. Qed.
Lemma kept_feasible : feasible kept_problem kept_v. Proof. apply feasibleb_sound. vm_compute. reflexivity. Qed.
