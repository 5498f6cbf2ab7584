(** Model of optimization/ilp_models/flow_optimization.py: the flow found after planning.
    The linear program itself is [maxflow_problem] of IlpModel.v. *)
From Coq Require Import QArith.
From Verif Require Import Base Dict TopologyModel SetupModel IlpModel PruneModel ExtractModel.
Local Open Scope Q_scope.

(** structs.py FlowSolution *)
Record flow_solution := mkFlowSolution {
  fs_flow : dict edge Q; fs_tdm : dict edge Q; fs_buffer : Q; fs_connected : list string }.

(** flow_optimization.py 72-147: the candidate links are those of the topology.  [redundant] is
    [link.is_redundant] by the ends of the link, [connected] the result of
    [_get_reachable_demand_sites_without_constraints]. *)
Definition flow_problem (redundant : edge -> bool) (connected : list string) (t : topo) (I0 : inst) : result problem :=
  maxflow_problem (get_link_site_id_pairs t (Some [CANDIDATE]) None) redundant connected I0.

(** 223-268; the solver found the assignment [v] *)
Definition extract_flow_solution (redundant : edge -> bool) (connected : list string) (t : topo) (I0 : inst) (v : var -> Q)
  : result flow_solution :=
  let I := maxflow_inst (get_link_site_id_pairs t (Some [CANDIDATE]) None) redundant I0 in
  do V <- maxflow_tables I ;
  do fl <- prune_loops (i_links I) (i_locations I) (values v (v_flow V)) ;
  do tdm <- tdm_decisions V v ;
  Ok (mkFlowSolution fl tdm (v VBuffer) connected).
