(** The statistics of the report (terragraph_planner/optimization/topology_report.py 212-310 and 313-590).  Floats are exact rationals. *)
From Coq Require Import QArith Qround.
From Verif Require Import Base Dict SetupModel TopologyModel GraphModel RfModel TpcModel CountModel.
Local Open Scope Q_scope.
Local Open Scope list_scope.

Definition ends (l : link) : edge := (l_tx l, l_rx l).
Definition back (l : link) : edge := (l_rx l, l_tx l).
Definition flow_of (flow : dict edge Q) (e : edge) : Q := match dget flow e with Some f => f | None => 0 end.

Section Flow.
(** [flow_solution.flow_decisions] and [link.capacity] *)
Variable flow : dict edge Q.
Variable cap : link -> Q.
(** 236-237 *)
Definition percent (l : link) : Q := 100 * (if Qle_bool (cap l) 0 then 0 else flow_of flow (ends l) / cap l).
(** math.isclose(x, 0, abs_tol=EPSILON) *)
Definition near0 (x : Q) : bool := close_q x 0.
(** 226-253, one link.  The warning of 249-253 is not modelled. *)
Definition util_step (u : dict edge Q) (l : link) : dict edge Q :=
  if active (l_status l) then
    let u := dset u (ends l) (percent l) in
    match dget u (back l) with
    | Some r =>
      if near0 (percent l) || near0 r then
        if negb (Qle_bool (percent l) r) then ddel u (back l) else ddel u (ends l)
      else u
    | None => u
    end
  else u.
(** 212-258, the second component of the result; the flow is found by FlowOptModel.v after the power control of TpcModel.v *)
Definition active_link_utilization (links : list link) : dict edge Q := fold_left util_step links [].
End Flow.

(** 261-272: the [is_redundant] flags by link id.  The two sites of a stored link are stored, otherwise the query raises. *)
Definition redundant_step (t : topo) (routes : list string) (red : string -> bool) (q : string * link) : result (string -> bool) :=
  do r <- get_link_by_site_ids t (l_rx (snd q)) (l_tx (snd q)) ;
  Ok (if negb (mem (fst q) routes) && match r with None => true | Some l => negb (mem (l_id l) routes) end
      then fun k => if beq k (fst q) then true else red k else red).
Definition get_routing_topology (t : topo) (routes : list string) (red : string -> bool) : result (string -> bool) :=
  LosRangeModel.foldM (redundant_step t routes) red (t_links t).

(** 275-310: proposed_flow, utilization and breakdowns of links by id, and breakdowns of sites *)
Record lstat := mkLstat { st_flow : Q; st_util : Q; st_breakdowns : nat }.
Definition add_link_stat (routing : option (dict edge Q * dict edge Q)) (edge_failures : dict edge (list string)) (s : string -> lstat) (q : string * link) : string -> lstat :=
  if active (l_status (snd q)) then
    let e := ends (snd q) in
    fun k => if beq k (fst q) then
      mkLstat (match routing with Some r => flow_of (fst r) e | None => 0 end)
              (match routing with Some r => flow_of (snd r) e | None => 0 end)
              (List.length (match dget edge_failures e with Some l => l | None => [] end))
    else s k
  else s.
Definition add_link_stats (t : topo) routing edge_failures (s : string -> lstat) : string -> lstat :=
  fold_left (add_link_stat routing edge_failures) (t_links t) s.
Definition site_breakdowns (pop_failures dn_failures : dict string (list string)) (i : string) (s : site) : nat :=
  let len d := List.length (match dget d i with Some l => l | None => [] end) in
  match s_type s with POP => len pop_failures | DN => len dn_failures | CN => 0%nat end.

(** structs.py 22-25 *)
Record stats := mkStats { m_avg : Q; m_max : Q; m_min : Q }.
Definition qn (n : nat) : Q := inject_Z (Z.of_nat n).
Definition qsum (l : list Q) : Q := fold_left Qplus l 0.
(** Python's [max] and [min] of a non-empty list *)
Definition maxl (l : list Q) : Q := match l with [] => 0 | x :: r => fold_left qmax2 r x end.
Definition minl (l : list Q) : Q := match l with [] => 0 | x :: r => fold_left qmin2 r x end.
(** 485-507 and 521-528: statistics of a list, 0 when it is empty *)
Definition stats_of (l : list Q) : stats :=
  match l with [] => mkStats 0 0 0 | _ => mkStats (qsum l / qn (List.length l)) (maxl l) (minl l) end.
(** 381-385: no test for an empty list *)
Definition stats_nonempty (l : list Q) : result stats :=
  match l with [] => Err PyZeroDivision | _ => Ok (stats_of l) end.
Definition divide (a b : Q) : result Q := if Qeq_bool b 0 then Err PyZeroDivision else Ok (a / b).

Section Metrics.
Variable hash : Z * Z * Z -> string.
Variable sku : string -> string.
Variable channel : string -> Z.
Variable t : topo.
(** [link.distance] and [link.mcs_level] *)
Variable dist : link -> Q.
Variable mcs : link -> nat.

(** 391-402 *)
Definition link_dists (ty : link_type) : list Q := map dist (filter (fun l => beq (l_type l) ty && active (l_status l)) (dvals (t_links t))).
(** 404-415: a set of link hashes for each active DN sector *)
Definition dn_sector_table : dict string (list string) :=
  fold_left (fun d q => if negb (k_cn (x_key (snd q))) && active (x_status (snd q)) then dset d (x_id (snd q)) [] else d) (t_sectors t) [].
Definition add_hash (d : dict string (list string)) (k h : string) : result (dict string (list string)) :=
  match dget d k with Some hs => Ok (dset d k (sadd h hs)) | None => Err PyKeyError end.
(** 416-433, one link: the tables of backhaul and access links *)
Definition sector_links_step (d : dict string (list string) * dict string (list string)) (l : link) : result (dict string (list string) * dict string (list string)) :=
  if active (l_status l) then
    match l_sectors l with
    | None => Err PyAssertion
    | Some (a, b) =>
      match l_type l with
      | WIRELESS_BACKHAUL =>
        do x <- add_hash (fst d) (key_id a) (link_hash hash t l) ;
        do x <- add_hash x (key_id b) (link_hash hash t l) ;
        Ok (x, snd d)
      | WIRELESS_ACCESS => do x <- add_hash (snd d) (key_id a) (link_hash hash t l) ; Ok (fst d, x)
      | ETHERNET => Ok d
      end
    end
  else Ok d.
Definition sector_links : result (dict string (list string) * dict string (list string)) :=
  LosRangeModel.foldM sector_links_step (dn_sector_table, dn_sector_table) (dvals (t_links t)).
Definition sizes (d : dict string (list string)) : list Q := map (fun hs => qn (List.length hs)) (dvals d).
(** 434-475: the average is over the number of active DN sectors of the component counts *)
Definition per_sector (n : Z) (l : list Q) : stats :=
  mkStats (if (0 <? n)%Z then qsum l / inject_Z n else 0) (match l with [] => 0 | _ => maxl l end) (match l with [] => 0 | _ => minl l end).
(** 508-518: one class for each pair of sites, that of the link stored last *)
Definition mcs_table (ty : link_type) : dict (string * string) nat :=
  fold_left (fun d l => if active (l_status l) && beq (l_type l) ty then dset d (sorted_site_ids l) (mcs l) else d) (dvals (t_links t)) [].
Definition mcs_counts (ty : link_type) : dict nat nat := counter (dvals (mcs_table ty)).
(** 521-528 and 530-549 *)
Definition fail_effect_edges {K} (d : dict K (list string)) : stats := stats_of (map (fun s => qn (List.length s)) (dvals d)).
Definition fail_effect_sites (d : dict string (list string)) (n : nat) : stats :=
  let f := map (fun s => qn (List.length s)) (dvals d) in
  mkStats (qsum f / qn n) (match f with [] => 0 | _ => maxl f end) (match f with [] => 0 | _ => if (List.length f =? n)%nat then minl f else 0 end).
(** 336-371 *)
Record demand_metrics := mkDemandMetrics { dm_number : nat; dm_disconnected : nat; dm_at_pops : nat; dm_disjoint : nat; dm_percentage : Q; dm_total : Q; dm_oversubscribed : Q }.
Definition percentage_disjoint (number at_pops disjoint : nat) : Q :=
  if (number =? 0)%nat || (number <=? at_pops)%nat then 0 else 100 * (qn disjoint / (qn number - qn at_pops)).
(** 372-389 *)
Record flow_metrics := mkFlowMetrics { fm_total : Q; fm_minimum : Q; fm_utilization : stats }.

Record metrics := mkMetrics {
  me_counts : counts; me_demand : demand_metrics; me_flow : option flow_metrics;
  me_backhaul_per_sector : stats; me_backhaul_dist : stats; me_access_per_sector : stats; me_access_dist : stats;
  me_backhaul_mcs : dict nat nat; me_access_mcs : dict nat nat; me_edge_effect : stats; me_pop_effect : stats; me_dn_effect : stats }.
(** 313-590.  [capex] is the result of compute_capex (ExtractModel.v); the demands are given by their rate, [None] when it is not set, and
    the number of their sites; the numbers of demands come from [disjoint_paths] (DeployModel.v), [routing] is the buffer, the number of
    connected demands and the utilizations.  Availability and violations are separate functions of their inputs (below, and OpsModel.v). *)
Definition get_topology_metrics {C} (capex : result C) (demands : list (option Q * nat)) (disconnected at_pops disjoint : nat) (oversubscription : Q)
    (routing : option (Q * nat * dict edge Q)) (edge_failures : dict edge (list string)) (pop_failures dn_failures : dict string (list string))
  : result metrics :=
  do _ <- capex ;
  do cs <- count_topology_components hash sku channel t ;
  let c := fst (fst cs) in
  let total := qsum (flat_map (fun d => match fst d with Some q => [q * qn (snd d)] | None => [] end) demands) in
  do over <- divide total oversubscription ;
  do fl <- match routing with
           | None => Ok None
           | Some (b, n, u) => do s <- stats_nonempty (dvals u) ; Ok (Some (mkFlowMetrics (b * qn n) b s))
           end ;
  do sl <- sector_links ;
  let n := (Z.of_nat (active_dn_sectors_on_pops c) + active_dn_sectors_on_dns c)%Z in
  do _ <- (if (active_pop_sites c =? 0)%nat then Err PyZeroDivision else Ok tt) ;
  Ok (mkMetrics c
        (mkDemandMetrics (List.length demands) disconnected at_pops disjoint (percentage_disjoint (List.length demands) at_pops disjoint) total over)
        fl (per_sector n (sizes (fst sl))) (stats_of (link_dists WIRELESS_BACKHAUL)) (per_sector n (sizes (snd sl))) (stats_of (link_dists WIRELESS_ACCESS))
        (mcs_counts WIRELESS_BACKHAUL) (mcs_counts WIRELESS_ACCESS) (fail_effect_edges edge_failures)
        (fail_effect_sites pop_failures (active_pop_sites c))
        (if (active_dn_sites c =? 0)%nat
         then mkStats 0 (m_max (fail_effect_sites dn_failures 0)) (m_min (fail_effect_sites dn_failures 0))
         else fail_effect_sites dn_failures (active_dn_sites c))).
End Metrics.

(** 557-573: the average in percent, and numpy's percentile with linear interpolation *)
Definition percentile (l : list Q) (p : Q) : Q :=
  let v := TopologyModel.sort_by (fun a b => negb (Qle_bool b a)) l in
  let x := p / 100 * qn (List.length v - 1) in
  let i := Z.to_nat (Qfloor x) in
  let lo := nth i v 0 in
  let hi := nth (Nat.min (i + 1) (List.length v - 1)) v 0 in
  lo + (hi - lo) * (x - inject_Z (Qfloor x)).
Definition availability_metrics (availability : list Q) : Q * dict Q Q :=
  match availability with
  | [] => (0, map (fun p => (p, 0)) [0; 25; 50; 75; 100])
  | _ => (100 * (qsum availability / qn (List.length availability)), map (fun p => (p, 100 * percentile availability p)) [0; 25; 50; 75; 100])
  end.

(** 726-742: flow out of and into a site over active links.  A link of the topology never ends at a demand site, whose ids are tested in 739. *)
Definition flow_step (demands : list string) (s : string -> lstat) (q : string * link) (f : dict string (Q * Q)) : dict string (Q * Q) :=
  let l := snd q in
  if active (l_status l) then
    if mem (l_rx l) demands then f
    else
      let at_ k d := match dget d k with Some v => v | None => (0, 0) end in
      let x := st_flow (s (fst q)) in
      let f := dset f (l_tx l) (fst (at_ (l_tx l) f) + x, snd (at_ (l_tx l) f)) in
      dset f (l_rx l) (fst (at_ (l_rx l) f), snd (at_ (l_rx l) f) + x)
  else f.
Definition site_flow (t : topo) (s : string -> lstat) : dict string (Q * Q) :=
  fold_left (fun f q => flow_step (dkeys (t_demands t)) s q f) (t_links t) [].
(** 796-803: outgoing and incoming flow of the report *)
Definition outgoing (f : dict string (Q * Q)) (i : string) : Q := match dget f i with Some v => fst v | None => 0 end.
Definition incoming (f : dict string (Q * Q)) (i : string) : Q := match dget f i with Some v => snd v | None => 0 end.
