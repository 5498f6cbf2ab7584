(** Applying a solution to the topology (terragraph_planner/optimization/topology_optimization.py 531-669). *)
From Verif Require Import Base Dict TopologyModel StatusModel GraphModel.

(** optimization/structs.py 94-105: the decisions read here *)
Record plan := mkPlan {
  p_sites : dict string Z; p_sectors : dict (string * string) Z; p_links : dict (string * string) Z;
  p_odd : dict string Z; p_even : dict string Z; p_channels : dict (string * string) Z }.
(** [d.get(k, 0)] *)
Definition decision {K} `{EqB K} (d : dict K Z) (k : K) : Z := match dget d k with Some v => v | None => 0%Z end.
(** [StatusType.immutable_status() | {StatusType.UNREACHABLE}] *)
Definition frozen (st : status) : bool := immutable st || beq st UNREACHABLE.
Definition chosen (d : Z) : status := if Z.eqb d 1 then PROPOSED else CANDIDATE.
Definition with_polarity (s : site) (p : polarity) : site := mkSite (s_id s) (s_type s) (s_status s) (s_loc s) p (s_detected s).

(** 566-588: one site *)
Definition update_site (p : plan) (i : string) (t : topo) : outcome :=
  match dget (t_sites t) i with
  | None => fail PyKeyError t
  | Some s =>
    andthen (if frozen (s_status s) then ok t else set_site_status i (chosen (decision (p_sites p) i)) t) (fun t =>
      let odd := decision (p_odd p) i in
      let even := decision (p_even p) i in
      if Z.eqb odd 1 && Z.eqb even 1 then fail OptExn t
      else
        match dget (t_sites t) i with
        | None => fail PyKeyError t
        | Some s => ok (set_sites t (dset (t_sites t) i (with_polarity s (if Z.eqb odd 1 then ODD else if Z.eqb even 1 then EVEN else UNASSIGNED))))
        end)
  end.
(** 599-611: one sector.  The channels, which nothing else here reads, are given by [channels] below. *)
Definition update_sector (p : plan) (k : string) (t : topo) : outcome :=
  match dget (t_sectors t) k with
  | None => fail PyKeyError t
  | Some x =>
    if frozen (x_status x) then ok t
    else set_sector_status k (chosen (decision (p_sectors p) (x_site x, k))) t
  end.
(** 609-611; UNASSIGNED_CHANNEL = -1 (optimization/constants.py 13) *)
Definition channels (p : plan) (t : topo) : dict string Z :=
  map (fun q => (fst q, match dget (p_channels p) (x_site (snd q), fst q) with Some c => c | None => (-1)%Z end)) (t_sectors t).
(** 621-630: one link *)
Definition update_link (p : plan) (k : string) (t : topo) : outcome :=
  match dget (t_links t) k with
  | None => fail PyKeyError t
  | Some l =>
    if frozen (l_status l) then ok t
    else set_link_status k (chosen (decision (p_links p) (l_tx l, l_rx l))) t
  end.
(** 640-653: one sector *)
Definition drop_sector (h : dict string nat) (k : string) (t : topo) : outcome :=
  match dget (t_sectors t) k with
  | None => fail PyKeyError t
  | Some x =>
    if dmem h (x_site x) then ok t
    else
      match dget (t_sites t) (x_site x) with
      | None => fail PyKeyError t
      | Some s =>
        andthen (if frozen (s_status s) then ok t else set_site_status (x_site x) CANDIDATE t) (fun t =>
          if frozen (x_status x) then ok t else set_sector_status k CANDIDATE t)
      end
  end.
(** 657-669: one link *)
Definition drop_link (k : string) (t : topo) : outcome :=
  match dget (t_links t) k with
  | None => fail PyKeyError t
  | Some l =>
    if active (l_status l) then
      match dget (t_sites t) (l_tx l), dget (t_sites t) (l_rx l) with
      | Some a, Some b =>
        if beq (s_status a) CANDIDATE || beq (s_status b) CANDIDATE then
          if frozen (l_status l) then ok t else set_link_status k CANDIDATE t
        else ok t
      | _, _ => fail PyKeyError t
      end
    else ok t
  end.
(** 633-669 *)
Definition remove_disconnected (t : topo) : outcome :=
  match hops_from_pops t (Some [PROPOSED; EXISTING]) with
  | Err e => fail e t
  | Ok h =>
    andthen (for_each (drop_sector h) (dkeys (t_sectors t)) t) (fun t =>
    for_each drop_link (dkeys (t_links t)) t)
  end.
(** 531-554 *)
Definition update_topology_with_solution (p : plan) (t : topo) : outcome :=
  andthen (for_each (update_site p) (dkeys (t_sites t)) t) (fun t =>
  andthen (for_each (update_sector p) (dkeys (t_sectors t)) t) (fun t =>
  andthen (for_each (update_link p) (dkeys (t_links t)) t) remove_disconnected)).
