(** A planned network whose flow meets the hypotheses of C53: POP [p], DN [d] and CN [c] in a chain, the
    DN [e] not part of the plan; demands [y] at [d] and [z] at [c]. *)
From Coq Require Import QArith.
From Verif Require Import Base Dict TopologyModel TopologySpec GraphSpec GraphProofs SetupModel IlpModel IlpSpec FlowOptModel FlowOptSpec IlpExamples.
Local Open Scope Q_scope.

Definition fx_ops : list op :=
  [AddSite (x_site_ "p" POP EXISTING 0); AddSite (x_site_ "d" DN PROPOSED 1); AddSite (x_site_ "c" CN PROPOSED 2); AddSite (x_site_ "e" DN CANDIDATE 2);
   AddSector (mkSector (x_key_ "p" false) PROPOSED); AddSector (mkSector (x_key_ "d" false) PROPOSED);
   AddSector (mkSector (x_key_ "c" true) PROPOSED); AddSector (mkSector (x_key_ "e" false) CANDIDATE);
   AddLink (x_link "p" "d" false PROPOSED); AddLink (x_link "d" "p" false PROPOSED);
   AddLink (x_link "d" "c" true PROPOSED); AddLink (x_link "d" "e" false CANDIDATE); AddLink (x_link "e" "d" false CANDIDATE);
   AddDemand (mkDemand "y" ["d"]%string); AddDemand (mkDemand "z" ["c"]%string)].
Definition fx_topo : topo := run fx_ops empty_topo.
Definition fx_inst : inst := match network ex_params ex_attrs fx_topo with Ok x => x | Err _ => ex_inst end.
Definition fx_red (e : edge) : bool := false.
Definition fx_problem : problem := match flow_problem fx_red ["y"; "z"]%string fx_topo fx_inst with Ok P => P | Err _ => mkProblem [] [] end.
(** half a unit for each demand, and a loop of a tenth between [p] and [d] *)
Definition fx_v (x : var) : Q :=
  match x with
  | VBuffer => 1 # 2
  | VFlow i j =>
    match dget [(("SUPERSOURCE", "p"), 1); (("p", "d"), 11 # 10); (("d", "p"), 1 # 10); (("d", "c"), 1 # 2); (("d", "y"), 1 # 2); (("c", "z"), 1 # 2)]%string (i, j) with
    | Some q => q | None => 0 end
  | VTdm i j _ => if mem (i, j) [("p", "d")]%string then 3 # 4 else if mem (i, j) [("d", "p"); ("d", "c")]%string then 1 # 4 else 0
  | _ => 0
  end.
Definition fx_flow : flow_solution := match extract_flow_solution fx_red ["y"; "z"]%string fx_topo fx_inst fx_v with Ok o => o | Err _ => mkFlowSolution [] [] 0 [] end.
Lemma fx_reachable : reachable fx_topo.
Proof. exists fx_ops. split; [|reflexivity]. unfold fx_ops. repeat (constructor; [first [exact I | split; reflexivity | unfold op_ok, no_dash; simpl; intuition discriminate]|]). constructor. Qed.
Lemma fx_wf : well_formed fx_topo. Proof. apply wf_reachable, fx_reachable. Qed.
Lemma fx_names : names_ok ex_attrs fx_topo. Proof. apply names_okb_sound. vm_compute. reflexivity. Qed.
Lemma fx_network : network ex_params ex_attrs fx_topo = Ok fx_inst. Proof. vm_compute. reflexivity. Qed.
Lemma fx_problem_ok : flow_problem fx_red ["y"; "z"]%string fx_topo fx_inst = Ok fx_problem. Proof. vm_compute. reflexivity. Qed.
Lemma fx_feasible : feasible fx_problem fx_v. Proof. apply feasibleb_sound. vm_compute. reflexivity. Qed.
Lemma fx_extract : extract_flow_solution fx_red ["y"; "z"]%string fx_topo fx_inst fx_v = Ok fx_flow. Proof. vm_compute. reflexivity. Qed.
