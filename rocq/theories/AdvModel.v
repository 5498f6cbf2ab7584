(** Adversarial links (terragraph_planner/optimization/topology_operations.py 272-320). *)
From Coq Require Import ZArith QArith Qround.
From Verif Require Import Base Dict QLib TopologyModel SetupModel LosRangeModel OpsModel NxModel.
Local Open Scope list_scope.

(** networkx [DiGraph.remove_node] *)
Definition remove_node (g : graph) (i : string) : graph :=
  mkG (ddel (g_nodes g) i) (map (fun q => (fst q, ddel (snd q) i)) (ddel (g_adj g) i)).
(** 279-286 *)
Definition active_backhaul (t : topo) : nat :=
  List.length (filter (fun q => active (l_status (snd q)) && beq (l_type (snd q)) WIRELESS_BACKHAUL) (t_links t)).
(** 296-303; [cap] is [link.capacity] *)
Definition drop_dead (cap : string -> Q) (t : topo) (g : graph) : result graph :=
  foldM (fun g q => let l := snd q in
                    if Qle_bool (cap (fst q)) 0 && has_edge g (l_tx l) (l_rx l) then remove_edge g (l_tx l) (l_rx l) else Ok g) g (t_links t).
(** 305-309 *)
Definition drop_sites (l : list string) (g : graph) : graph :=
  fold_left (fun g i => if dmem (g_nodes g) i then remove_node g i else g) l g.
(** 272-320; the product of the count and the ratio is not rounded *)
Definition get_adversarial_links (mcs : string -> Z) (cap : string -> Q) (ratio : Q) (t : topo) : result (list (string * string)) :=
  let n := active_backhaul t in
  if (n =? 0)%nat || Qeq_bool ratio 0 then Ok []
  else
    let proposed := build_digraph mcs t [PROPOSED; EXISTING] in
    do cand <- drop_dead cap t (build_digraph mcs t [PROPOSED; EXISTING; CANDIDATE]) ;
    do sites <- colocated_sites_to_remove t ;
    find_most_disruptive_links proposed (drop_sites sites cand) (Qceiling (inject_Z (Z.of_nat n) * ratio)).
