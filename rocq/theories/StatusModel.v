(** Statuses of sites, sectors and links and their assignment
    (common/topology_models/site.py, sector.py, link.py). *)
From Verif Require Import Base Dict.

(** site.py 163-173, sector.py 98-107, link.py 181-191: the setter raises when the old or
    the new status is immutable. *)
Definition assign_ok (old new : status) : bool := negb (immutable old) && negb (immutable new).

(** link.py 362-392, the four tests in order; [true] means no exception *)
Definition link_compat (tx rx st : status) : bool :=
  if beq st EXISTING && (negb (beq tx EXISTING) || negb (beq rx EXISTING)) then false
  else if (beq tx UNAVAILABLE || beq rx UNAVAILABLE) && negb (beq st UNAVAILABLE) then false
  else if (beq tx UNREACHABLE || beq rx UNREACHABLE) && negb (beq st UNREACHABLE) then false
  else if (beq tx CANDIDATE || beq rx CANDIDATE) && active st then false
  else true.
(** sector.py 111-126 *)
Definition sector_compat (site st : status) : bool :=
  if active site then beq st CANDIDATE || beq st PROPOSED || beq st EXISTING
  else beq st site.

(** Objects are referred to by a name; a sector refers to its site, a link to its end
    sites and, optionally, to its two sectors. *)
Record hsector := mkHSector { hx_site : string; hx_status : status }.
Record hlink := mkHLink { hl_tx : string; hl_rx : string; hl_secs : option (string * string); hl_status : status }.
Record heap := mkHeap {
  h_sites : dict string status; h_sectors : dict string hsector; h_links : dict string hlink }.
Definition empty_heap := mkHeap [] [] [].

(** One API call that creates an object or assigns a status; a call that refers to an
    object that does not exist cannot be written in Python, it is rejected here. *)
Inductive hop :=
| NewSite (i : string) (s : status)
| NewSector (i site : string) (s : status)
| NewLink (i tx rx : string) (secs : option (string * string)) (s : status)
| SetSite (i : string) (s : status)
| SetSector (i : string) (s : status)
| SetLink (i : string) (s : status)
| SetLinkSectors (i : string) (secs : option (string * string)).

Definition sector_on (h : heap) (x site : string) : bool :=
  match dget (h_sectors h) x with Some o => beq (hx_site o) site | None => false end.
(** link.py 104-112 and 161-175: sectors, when given, belong to the end sites *)
Definition secs_ok (h : heap) (tx rx : string) (secs : option (string * string)) : bool :=
  match secs with None => true | Some (a, b) => sector_on h a tx && sector_on h b rx end.

Definition hstep (o : hop) (h : heap) : result unit * heap :=
  match o with
  | NewSite i s =>
    if dmem (h_sites h) i then (Err PyNameError, h)
    else (Ok tt, mkHeap (dset (h_sites h) i s) (h_sectors h) (h_links h))
  | NewSector i site s =>            (* sector.py 24-68 *)
    match dget (h_sites h) site with
    | None => (Err PyNameError, h)
    | Some ss =>
      if dmem (h_sectors h) i then (Err PyNameError, h)
      else if sector_compat ss s then
        (Ok tt, mkHeap (h_sites h) (dset (h_sectors h) i (mkHSector site s)) (h_links h))
      else (Err TopologyExn, h)
    end
  | NewLink i tx rx secs s =>        (* link.py 36-135 *)
    match dget (h_sites h) tx, dget (h_sites h) rx with
    | Some st, Some sr =>
      if dmem (h_links h) i then (Err PyNameError, h)
      else if negb (secs_ok h tx rx secs) then (Err TopologyExn, h)
      else if link_compat st sr s then
        (Ok tt, mkHeap (h_sites h) (h_sectors h) (dset (h_links h) i (mkHLink tx rx secs s)))
      else (Err TopologyExn, h)
    | _, _ => (Err PyNameError, h)
    end
  | SetSite i s =>                   (* site.py 163-173 *)
    match dget (h_sites h) i with
    | None => (Err PyNameError, h)
    | Some old =>
      if assign_ok old s then (Ok tt, mkHeap (dset (h_sites h) i s) (h_sectors h) (h_links h))
      else (Err TopologyExn, h)
    end
  | SetSector i s =>                 (* sector.py 98-109 *)
    match dget (h_sectors h) i with
    | None => (Err PyNameError, h)
    | Some x =>
      match dget (h_sites h) (hx_site x) with
      | None => (Err PyNameError, h)
      | Some ss =>
        if negb (assign_ok (hx_status x) s) then (Err TopologyExn, h)
        else if sector_compat ss s then
          (Ok tt, mkHeap (h_sites h) (dset (h_sectors h) i (mkHSector (hx_site x) s)) (h_links h))
        else (Err TopologyExn, h)
      end
    end
  | SetLink i s =>                   (* link.py 181-192 *)
    match dget (h_links h) i with
    | None => (Err PyNameError, h)
    | Some l =>
      match dget (h_sites h) (hl_tx l), dget (h_sites h) (hl_rx l) with
      | Some st, Some sr =>
        if negb (assign_ok (hl_status l) s) then (Err TopologyExn, h)
        else if link_compat st sr s then
          (Ok tt, mkHeap (h_sites h) (h_sectors h)
             (dset (h_links h) i (mkHLink (hl_tx l) (hl_rx l) (hl_secs l) s)))
        else (Err TopologyExn, h)
      | _, _ => (Err PyNameError, h)
      end
    end
  | SetLinkSectors i secs =>         (* link.py 161-179 *)
    match dget (h_links h) i with
    | None => (Err PyNameError, h)
    | Some l =>
      if secs_ok h (hl_tx l) (hl_rx l) secs then
        (Ok tt, mkHeap (h_sites h) (h_sectors h)
           (dset (h_links h) i (mkHLink (hl_tx l) (hl_rx l) secs (hl_status l))))
      else (Err TopologyExn, h)
    end
  end.
Definition hrun (ops : list hop) (h : heap) : heap := fold_left (fun h o => snd (hstep o h)) ops h.
