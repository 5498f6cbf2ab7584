(** Validation of statuses before optimization (terragraph_planner/optimization/topology_preparation.py 998-1081). *)
From Verif Require Import Base Dict TopologyModel SetupModel LosRangeModel.
Local Open Scope list_scope.

Section Valid.
(** The status of a sector *)
Variable sector_status : seckey -> status.

Definition status_in (l : list status) (s : status) : bool := mem s l.
(** common/configuration/enums.py 126-132 *)
Definition active_status := [PROPOSED; EXISTING].
Definition inactive_status := [UNAVAILABLE; UNREACHABLE].
(** [link.tx_sector is not None and tx_sector.status_type in ...] for both ends *)
Definition sectors_in (sts : list status) (l : link) : bool :=
  match l_sectors l with
  | None => false
  | Some (a, b) => status_in sts (sector_status a) && status_in sts (sector_status b)
  end.
(** [link.tx_sector is None or tx_sector.status_type not in ...] for both ends *)
Definition sectors_not_in (sts : list status) (l : link) : bool :=
  match l_sectors l with
  | None => true
  | Some (a, b) => negb (status_in sts (sector_status a)) && negb (status_in sts (sector_status b))
  end.
(** 1004-1081, for one link *)
Definition validate_link (t : topo) (l : link) : result unit :=
  do rev <- get_reverse_link t l ;
  do _ <- (if beq (l_type l) WIRELESS_ACCESS then Ok tt else guard (match rev with Some _ => true | None => false end) TopologyExn) ;
  match rev with
  | None => Ok tt
  | Some r =>
    do _ <- guard (beq (l_status l) (l_status r)) TopologyExn ;
    do a <- lookup_site t (l_tx l) ;
    do b <- lookup_site t (l_rx l) ;
    match l_status l with
    | EXISTING =>
      do _ <- guard (beq (s_status a) EXISTING && beq (s_status b) EXISTING) TopologyExn ;
      guard (sectors_in [EXISTING] l) TopologyExn
    | PROPOSED =>
      do _ <- guard (status_in active_status (s_status a) && status_in active_status (s_status b)) TopologyExn ;
      guard (sectors_in active_status l) TopologyExn
    | CANDIDATE =>
      do _ <- guard (negb (status_in inactive_status (s_status a)) && negb (status_in inactive_status (s_status b))) TopologyExn ;
      guard (sectors_not_in inactive_status l) TopologyExn
    | _ => Ok tt
    end
  end.
Definition validate_status (t : topo) : result unit := foldM (fun _ l => validate_link t l) tt (dvals (t_links t)).
End Valid.
