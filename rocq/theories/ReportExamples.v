(** Examples for the flow statistics of the report. *)
From Coq Require Import QArith.
From Verif Require Import Base Dict SetupModel TopologyModel TopologySpec GraphSpec GraphProofs IlpModel IlpSpec PruneModel PruneSpec FlowOptModel FlowOptSpec IlpExamples FlowOptExamples CountModel ReportModel ReportSpec.
Local Open Scope string_scope.
Local Open Scope Q_scope.
Local Open Scope list_scope.

Definition capof (l : link) : Q := a_cap ex_attrs (l_tx l, l_rx l).
Lemma stored_cases k l : link_stored fx_topo k l -> In (k, l) (t_links fx_topo).
Proof. apply dget_In. Qed.
Lemma fx_no_self : no_self_links fx_topo.
Proof. intros k l H. apply stored_cases in H. vm_compute in H. decompose [or] H; try contradiction; match goal with E : (_, _) = (_, _) |- _ => injection E as <- <- end; discriminate. Qed.
Lemma fx_plan l : plan_link fx_topo l -> l = x_link "p" "d" false PROPOSED \/ l = x_link "d" "p" false PROPOSED \/ l = x_link "d" "c" true PROPOSED.
Proof.
  intros (k & H & P). apply stored_cases in H. vm_compute in H. decompose [or] H; try contradiction; match goal with E : (_, _) = (_, _) |- _ => injection E as <- <- end; auto; destruct P; discriminate.
Qed.
(** the example flow: 1 from p to d, 1/2 from d to c; utilization 50 and 25 percent, one value for each pair of sites *)
Example fx_utilization : map (fun x => (fst x, Qred (snd x))) (active_link_utilization (fs_flow fx_flow) capof (dvals (t_links fx_topo))) = [(("p", "d"), 50); (("d", "c"), 25)].
Proof. vm_compute. reflexivity. Qed.
Example fx_nonneg : forall l, plan_link fx_topo l -> 0 <= assigned (fs_flow fx_flow) l <= capof l.
Proof. intros l H. destruct (fx_plan l H) as [->|[->| ->]]; vm_compute; split; discriminate. Qed.
Example fx_demand_ids : forall d, In d (dkeys (t_demands fx_topo)) -> ~ site_stored fx_topo d.
Proof. intros d H [s E]. vm_compute in H. decompose [or] H; try contradiction; subst d; vm_compute in E; discriminate. Qed.
Example fx_serves : lists [("d", "y")] (serves ex_attrs fx_topo "d") /\ site_stored fx_topo "d" /\ ~ is_pop fx_topo "d".
Proof.
  split; [split|split].
  - repeat constructor. intros [].
  - intros [a b]. unfold serves. cbn [fst snd]. split.
    + intros [[= <- <-]|[]]. split; [reflexivity|]. exists "y", (mkDemand "y" ["d"]). split; [vm_compute; reflexivity|]. split; [now left|]. exists 0%nat. split; [cbn; auto|reflexivity].
    + intros [-> (k & dm & E & Hi & n & Hn & ->)]. apply dget_In in E. vm_compute in E. destruct E as [E|[E|[]]]; injection E as <- <-; cbn in Hi; destruct Hi as [Hi|[]]; try discriminate.
      cbn in Hn. assert (n = 0)%nat as -> by (inversion Hn as [|? X]; [reflexivity|inversion X]). now left.
  - eexists. vm_compute. reflexivity.
  - intros (s & E & T). vm_compute in E. injection E as <-. discriminate.
Qed.

(** A loop below the threshold of the flow solution remains and gives both directions an entry *)
Definition wx_v (x : var) : Q :=
  match x with
  | VBuffer => 1 # 2
  | VFlow i j =>
    match dget [(("SUPERSOURCE", "p"), 1); (("p", "d"), 200001 # 200000); (("d", "p"), 1 # 200000); (("d", "c"), 1 # 2); (("d", "y"), 1 # 2); (("c", "z"), 1 # 2)] (i, j) with
    | Some q => q | None => 0 end
  | VTdm i j _ => if mem (i, j) [("p", "d")] then 3 # 4 else if mem (i, j) [("d", "p"); ("d", "c")] then 1 # 4 else 0
  | _ => 0
  end.
Definition wx_flow : flow_solution := match extract_flow_solution fx_red ["y"; "z"] fx_topo fx_inst wx_v with Ok o => o | Err _ => mkFlowSolution [] [] 0 [] end.
Lemma both_directions : exists ps at_ t I0 red con P v o l l' q q',
  reachable t /\ no_self_links t /\ names_ok at_ t /\ network ps at_ t = Ok I0 /\ flow_problem red con t I0 = Ok P /\ feasible P v /\ extract_flow_solution red con t I0 v = Ok o /\
  plan_link t l /\ plan_link t l' /\ opposite_ways l l' /\
  entry (active_link_utilization (fs_flow o) (fun l => a_cap at_ (l_tx l, l_rx l)) (dvals (t_links t))) l q /\
  entry (active_link_utilization (fs_flow o) (fun l => a_cap at_ (l_tx l, l_rx l)) (dvals (t_links t))) l' q'.
Proof.
  exists ex_params, ex_attrs, fx_topo, fx_inst, fx_red, ["y"; "z"], fx_problem, wx_v, wx_flow, (x_link "p" "d" false PROPOSED), (x_link "d" "p" false PROPOSED). do 2 eexists.
  split; [exact fx_reachable|]. split; [exact fx_no_self|]. split; [exact fx_names|]. split; [exact fx_network|]. split; [exact fx_problem_ok|].
  split; [apply feasibleb_sound; vm_compute; reflexivity|]. split; [vm_compute; reflexivity|].
  split; [exists "p-d"; split; [reflexivity|now left]|]. split; [exists "d-p"; split; [reflexivity|now left]|]. split; [split; reflexivity|].
  split; unfold entry; vm_compute; reflexivity.
Qed.

(** Flags set for one set of routes are kept when other routes are chosen *)
Lemma flags_stay : exists t routes routes' red red' k, reachable t /\ get_routing_topology t routes (fun _ => false) = Ok red /\ get_routing_topology t routes' red = Ok red' /\
  In k routes' /\ (exists l, link_stored t k l) /\ red' k = true.
Proof.
  exists fx_topo, ["p-d"], ["p-d"; "d-c"].
  destruct (get_routing_topology fx_topo ["p-d"] (fun _ => false)) as [red|] eqn:E; [|vm_compute in E; discriminate].
  destruct (get_routing_topology fx_topo ["p-d"; "d-c"] red) as [red'|] eqn:E'; [|vm_compute in E, E'; injection E as <-; discriminate].
  exists red, red', "d-c". split; [exact fx_reachable|]. split; [first [exact E|reflexivity]|]. split; [exact E'|]. split; [cbn; auto|]. split; [eexists; vm_compute; reflexivity|].
  vm_compute in E. injection E as <-. vm_compute in E'. injection E' as <-. reflexivity.
Qed.
