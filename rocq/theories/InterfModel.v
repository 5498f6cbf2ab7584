(** Interference between links (terragraph_planner/optimization/topology_interference.py).
    Powers and gains are exact rationals; minus infinity is [None]. *)
From Coq Require Import QArith ZArith.
From Verif Require Import Base Dict TopologyModel SetupModel LosRangeModel.
Local Open Scope list_scope.

(** the polarity of a CN served by a site of this polarity, 371-378 *)
Definition opposite (p : polarity) : polarity := match p with EVEN => ODD | ODD => EVEN | UNASSIGNED => UNASSIGNED end.
(** 360-392.  A link refers to its sites, so reading their attributes cannot fail; here they are looked up by id. *)
Definition cn_step (t : topo) (d : dict string polarity) (l : link) : result (dict string polarity) :=
  do rx <- get (t_sites t) (l_rx l) ;
  if negb (active (l_status l)) || negb (beq (s_type rx) CN) then Ok d
  else
    do tx <- get (t_sites t) (l_tx l) ;
    let p := opposite (s_polarity tx) in
    match dget d (l_rx l) with
    | Some q => if negb (beq q p) then Ok (dset d (l_rx l) UNASSIGNED) else Ok d
    | None => Ok (dset d (l_rx l) p)
    end.
Definition cn_polarities (t : topo) : result (dict string polarity) := foldM (cn_step t) [] (dvals (t_links t)).

(** 395-439 *)
Definition compatible_polarity (t : topo) (cnp : dict string polarity) (l : link) : result bool :=
  do tx <- get (t_sites t) (l_tx l) ;
  do rx <- get (t_sites t) (l_rx l) ;
  if negb (active (s_status tx)) || negb (active (s_status rx)) then Ok false
  else
    let p := s_polarity tx in
    do q <- (if beq (s_type rx) CN then get cnp (l_rx l) else Ok (s_polarity rx)) ;
    Ok ((negb (beq p q) && mem p [EVEN; ODD] && mem q [EVEN; ODD]) || mem UNASSIGNED [p; q]).

Section Interference.
(** [sector.channel], by sector id *)
Variable channel : string -> Z.
(** [link.is_redundant], by link id *)
Variable redundant : string -> bool.
(** [_compute_link_interference_net_gain]: interfering path, interfered link, interfering link *)
Variable gain : string -> string -> string -> Q.
Variable t : topo.

(** 442-476; UNASSIGNED_CHANNEL is -1 (optimization/constants.py 13) *)
Definition compatible_channel (l : link) : result bool :=
  match l_sectors l with
  | None => Ok false
  | Some (a, b) =>
    do x <- get (t_sectors t) (key_id a) ;
    do y <- get (t_sectors t) (key_id b) ;
    if negb (active (x_status x)) || negb (active (x_status y)) then Ok false
    else Ok ((channel (key_id a) =? channel (key_id b))%Z || mem (-1)%Z [channel (key_id a); channel (key_id b)])
  end.

Notation gains := (dict string (dict string (dict string Q))).
Definition set3 (m : gains) (a b c : string) (v : Q) : gains :=
  dset m a (dset (row m a) b (dset (row (row m a) b) c v)).
(** [link_type == ETHERNET or status_type not in active_status()] *)
Definition silent (l : link) : bool := beq (l_type l) ETHERNET || negb (active (l_status l)).
(** 308-357: the inner loop, over the links out of the transmitting sector *)
Definition tx_step (path : string) (path_rx rx_from v : string) (m : gains) (q : string * string) : result gains :=
  if beq (fst q) path_rx then Ok m
  else if beq (fst q) rx_from then Ok m
  else
    do i <- get (t_links t) (snd q) ;
    if silent i then Ok m else Ok (set3 m path v (snd q) (gain path v (snd q))).
(** 272-357 *)
Definition rx_step (path : string) (path_tx path_rx : string) (tx_links : list (string * string)) (m : gains) (q : string * string) : result gains :=
  if beq (fst q) path_tx then Ok m
  else
    do v <- get (t_links t) (snd q) ;
    if silent v then Ok m else foldM (tx_step path path_rx (fst q) (snd q)) m tx_links.
(** [for tx_to_sector, link_id in tx_sector_links.items()], 238-247: the redundant links *)
Fixpoint live_links (l : list (string * string)) : result (list (string * string)) :=
  match l with
  | [] => Ok []
  | q :: r => do i <- get (t_links t) (snd q) ; do r <- live_links r ; Ok (if redundant (snd q) then r else q :: r)
  end.
(** 209-267: one link; the cached sector connectivity is modified in place *)
Definition path_step (cnp : dict string polarity) (rev : dict string (dict string string))
    (s : dict string (dict string string) * gains) (q : string * link) : result (dict string (dict string string) * gains) :=
  let (conn, m) := s in
  let l := snd q in
  if beq (l_type l) ETHERNET then Ok s
  else match l_sectors l with
  | None => Ok s
  | Some (a, b) =>
    do x <- get (t_sectors t) (key_id a) ;
    do y <- get (t_sectors t) (key_id b) ;
    do ok <- (if negb (active (x_status x)) then Ok false
              else if negb (active (x_status y)) then Ok false
              else do p <- compatible_polarity t cnp l ; if p then compatible_channel l else Ok false) ;
    if negb ok then Ok s
    else
      do txl <- live_links (row conn (key_id a)) ;
      let conn := if dmem conn (key_id a) then dset conn (key_id a) txl else conn in
      if Nat.eqb (List.length txl) 0 then Ok (conn, m)
      else
        let rxl := row rev (key_id b) in
        if Nat.leb (List.length rxl) 1 then Ok (conn, m)
        else do m <- foldM (rx_step (l_id l) (key_id a) (key_id b) txl) m rxl ; Ok (conn, m)
  end.
(** 192-269 *)
Definition net_gain_map : result gains :=
  do cnp <- cn_polarities t ;
  do s <- foldM (path_step cnp (sector_connectivity_reverse t)) (sector_connectivity t, []) (t_links t) ;
  Ok (snd s).

(** [log_to_linear(get_fspl_based_rsl(tx_power, net_gain))] of an interfering link *)
Variable power : string -> Q -> Q.
Fixpoint interference (l : list (string * Q)) (acc : Q) : result Q :=
  match l with
  | [] => Ok acc
  | (i, g) :: r => do _ <- get (t_links t) i ; interference r (acc + power i g)%Q
  end.
(** 166-187 *)
Definition victim_step (d : dict string Q) (q : string * dict string Q) : result (dict string Q) :=
  match snd q with
  | [] => Ok d
  | _ =>
    do s <- interference (snd q) 0 ;
    Ok (dset d (fst q) ((match dget d (fst q) with Some v => v | None => 0 end) + s / inject_Z (Z.of_nat (List.length (snd q))))%Q)
  end.
Definition link_rsl_map (m : gains) : result (dict string Q) :=
  foldM (fun d k => foldM victim_step d (row m k)) [] (dkeys (t_links t)).

(** 114-141: the new values of [sinr_dbm].  [rsl] is [rsl_dbm], [noise] the linear noise power of the receiver,
    [lg] is [linear_to_log]. *)
Variables (rsl : string -> option Q) (noise : string -> Q) (lg : Q -> Q).
Definition sinr (d : dict string Q) (k : string) : option Q :=
  match rsl k with
  | None => None
  | Some r => Some (r - lg ((match dget d k with Some v => v | None => 0 end) + noise k))%Q
  end.
Definition analyze_interference : result (dict string (option Q)) :=
  do m <- net_gain_map ;
  do d <- link_rsl_map m ;
  Ok (map (fun q => (fst q, sinr d (fst q))) (filter (fun q => negb (silent (snd q))) (t_links t))).
End Interference.
