(** Assigning sectors to links (terragraph_planner/optimization/topology_preparation.py 256-367, 491-518;
    link.py 161-179, 244-255, 351-360; sector.py 85-120).  Floats are exact rationals.  Links are keyed by
    their end sites, the id of a link being injective in them (theorem C02); sectors by their id.  Site
    objects are compared by id.  What a call changes before it raises is not modelled. *)
From Coq Require Import QArith Qround Qabs.
From Verif Require Import Base Dict QLib TopologyModel StatusModel SetupModel GeoModel LosRangeModel.
Local Open Scope Q_scope.
Local Open Scope string_scope.
Local Open Scope list_scope.

(** sector.py 24-70: the parts of a sector used here *)
Record ssec := mkSSec { ss_site : string; ss_az : Q; ss_status : status; ss_chan : Z }.
(** link.py 36-135: the parts of a link used here; the end sites are the key *)
Record slink := mkSLink { sl_wireless : bool; sl_status : status; sl_tx : option string; sl_rx : option string }.
Record sworld := mkSWorld { w_secs : dict string ssec; w_links : dict (string * string) slink }.

(** common/constants.py 15, 23 *)
Definition FULL_ROTATION_ANGLE : Q := 360.
Definition SECTOR_LINK_ANGLE_TOLERANCE : Q := 1 # 100.

Section SecLink.
(** type, status and horizontal scan range (of the device) of a site; bearing_in_degrees from one site to
    another (geos.py 359-373) *)
Variables (stype : string -> site_type) (sstatus : string -> status) (scan : string -> Q) (bearing : string -> string -> Q).

(** link.py 351-357: tx_beam_azimuth *)
Definition tx_azimuth (e : string * string) : Q := bearing (fst e) (snd e).
(** link.py 358-360: rx_beam_azimuth, the opposite of the transmit direction (not the bearing back) *)
Definition rx_azimuth (e : string * string) : Q :=
  let x := tx_azimuth e + 180 in x - FULL_ROTATION_ANGLE * inject_Z (Qfloor (x / FULL_ROTATION_ANGLE)).

(** 290-296, 299-301: half the scan range at the transmitting site, with tolerance *)
Definition tx_limit (e : string * string) : Q := scan (fst e) / 2 + SECTOR_LINK_ANGLE_TOLERANCE.
(** 293-304: at the receiving site *)
Definition rx_limit (force_full_cn_scan_range : bool) (e : string * string) : Q :=
  (if negb (beq (stype (snd e)) CN) || negb force_full_cn_scan_range then scan (snd e) else FULL_ROTATION_ANGLE) / 2
  + SECTOR_LINK_ANGLE_TOLERANCE.

(** 307-314, 317-323: the loop over the sectors of a site *)
Fixpoint nearest (secs : list (string * ssec)) (dir min_delta : Q) (best : option string) : option string :=
  match secs with
  | [] => best
  | (i, x) :: r =>
    let delta := Qabs (angle_delta (ss_az x) dir) in
    if negb (Qle_bool min_delta delta) then nearest r dir delta (Some i) else nearest r dir min_delta best
  end.
(** 278-280 and the lookups in 307 and 317: the sectors of a site in the order of the topology.  The code
    computes the lists once; sites and azimuths of sectors do not change here. *)
Definition sectors_of (secs : dict string ssec) (site : string) : list (string * ssec) :=
  filter (fun p => beq (ss_site (snd p)) site) secs.

(** link.py 161-175, the two setters *)
Definition assign_sectors (secs : dict string ssec) (e : string * string) (tx rx : string) (l : slink) : result slink :=
  do x <- get secs tx ;
  do _ <- guard (beq (ss_site x) (fst e)) TopologyExn ;
  do y <- get secs rx ;
  do _ <- guard (beq (ss_site y) (snd e)) TopologyExn ;
  Ok (mkSLink (sl_wireless l) (sl_status l) (Some tx) (Some rx)).

(** link.py 244-255: tx_dev and rx_dev *)
Definition tx_dev (secs : dict string ssec) (e : string * string) (l : slink) : result Q :=
  match sl_tx l with
  | Some i => if sl_wireless l then do x <- get secs i ; Ok (angle_delta (tx_azimuth e) (ss_az x)) else Err PyAssertion
  | None => Err PyAssertion
  end.
Definition rx_dev (secs : dict string ssec) (e : string * string) (l : slink) : result Q :=
  match sl_rx l with
  | Some i => if sl_wireless l then do x <- get secs i ; Ok (angle_delta (rx_azimuth e) (ss_az x)) else Err PyAssertion
  | None => Err PyAssertion
  end.
(** 491-518; the site of a link's receive sector is its receiving site *)
Definition validate_link_sectors (force_full_cn_scan_range : bool) (secs : dict string ssec) (e : string * string) (l : slink) : result unit :=
  match sl_tx l, sl_rx l with
  | None, None => Ok tt
  | _, _ =>
    do d <- tx_dev secs e l ;
    do _ <- guard (negb (Qle_bool (scan (fst e) / 2 + SECTOR_LINK_ANGLE_TOLERANCE) (Qabs d))) OptExn ;
    match sl_rx l with
    | None => Err PyAssertion
    | Some _ =>
      if force_full_cn_scan_range && beq (stype (snd e)) CN then Ok tt
      else
        do d <- rx_dev secs e l ;
        guard (negb (Qle_bool (scan (snd e) / 2 + SECTOR_LINK_ANGLE_TOLERANCE) (Qabs d))) OptExn
    end
  end.

(** sector.py 94-120: setting the status of a sector *)
Definition propose_sector (i : string) (secs : dict string ssec) : result (dict string ssec) :=
  do x <- get secs i ;
  do _ <- guard (assign_ok (ss_status x) PROPOSED) TopologyExn ;
  do _ <- guard (sector_compat (sstatus (ss_site x)) PROPOSED) TopologyExn ;
  Ok (dset secs i (mkSSec (ss_site x) (ss_az x) PROPOSED (ss_chan x))).
Definition set_channel (i : string) (c : Z) (secs : dict string ssec) : result (dict string ssec) :=
  do x <- get secs i ; Ok (dset secs i (mkSSec (ss_site x) (ss_az x) (ss_status x) c)).

(** 282-367: one round of the loop over the links *)
Definition link_step (force_full_cn_scan_range : bool) (link_channel_map : option (dict (string * string) Z))
  (w : sworld) (e : string * string) : result sworld :=
  do l <- get (w_links w) e ;
  if negb (sl_wireless l) then Ok w
  else
    match sl_tx l, sl_rx l with
    | None, None =>
      let from_ := nearest (sectors_of (w_secs w) (fst e)) (tx_azimuth e) (tx_limit e) None in
      let to_ := nearest (sectors_of (w_secs w) (snd e)) (rx_azimuth e) (rx_limit force_full_cn_scan_range e) None in
      match from_, to_ with
      | Some tx, Some rx =>
        do l' <- assign_sectors (w_secs w) e tx rx l ;
        let links := dset (w_links w) e l' in
        let back := (snd e, fst e) in
        do links <- (match dget links back with
                     | None => Ok links
                     | Some r => do r' <- assign_sectors (w_secs w) back rx tx r ; Ok (dset links back r')
                     end) ;
        do secs <- (match link_channel_map with
                    | Some m =>
                      if active (sl_status l) then
                        do c <- get m e ;
                        do secs <- set_channel tx c (w_secs w) ;
                        do secs <- set_channel rx c secs ;
                        do secs <- propose_sector tx secs ;
                        propose_sector rx secs
                      else Ok (w_secs w)
                    | None => Ok (w_secs w)
                    end) ;
        Ok (mkSWorld secs links)
      | _, _ =>
        do _ <- guard (negb (active (sl_status l))) OptExn ;
        Ok (mkSWorld (w_secs w) (dset (w_links w) e (mkSLink (sl_wireless l) (sl_status l) None None)))
      end
    | _, _ => do _ <- validate_link_sectors force_full_cn_scan_range (w_secs w) e l ; Ok w
    end.

(** 256-367 *)
Definition add_sectors_to_links (force_full_cn_scan_range : bool) (link_channel_map : option (dict (string * string) Z))
  (w : sworld) : result sworld :=
  foldM (link_step force_full_cn_scan_range link_channel_map) w (dkeys (w_links w)).
End SecLink.
