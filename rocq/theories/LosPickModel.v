(** Choosing sites on buildings (terragraph_planner/los/helper.py 582-810).  Sites are known by their
    position in a list.  Sets of indices are lists without duplicates. *)
From Coq Require Import QArith.
From Verif Require Import Base Dict TopologyModel LosRangeModel LosBatchModel.

(** the part of Site and DetectedSite used here; [ps_building] is None for -1 or no building *)
Record psite := mkPSite { ps_type : site_type; ps_building : option Z; ps_pos : position }.
Record losgraph := mkGraph { g_sites : list psite; g_rx : list (list nat); g_tx : list (list nat); g_conf : dict (nat * nat) Q }.

(** [l[i].append(x)] for a list of lists *)
Fixpoint append_at (l : list (list nat)) (i x : nat) : result (list (list nat)) :=
  match l, i with
  | [], _ => Err PyIndexError
  | y :: r, O => Ok ((y ++ [x]) :: r)
  | y :: r, S i' => do r' <- append_at r i' x ; Ok (y :: r')
  end.
(** core.py 400-406: the neighbour lists and confidences of the computed links *)
Definition link_step (acc : list (list nat) * list (list nat) * dict (nat * nat) Q) (v : valid) : result (list (list nat) * list (list nat) * dict (nat * nat) Q) :=
  match acc with
  | (rx, tx, conf) =>
    do rx' <- append_at rx (v_tx v) (v_rx v) ;
    do tx' <- append_at tx (v_rx v) (v_tx v) ;
    Ok (rx', tx', dset conf (v_tx v, v_rx v) (v_conf v))
  end.
Definition los_graph (sites : list psite) (links : list valid) : result losgraph :=
  let empty := map (fun _ => []) sites in
  do r <- foldM link_step (empty, empty, []) links ;
  match r with (rx, tx, conf) => Ok (mkGraph sites rx tx conf) end.

(** ** pick_best_sites_per_building, 582-654 *)
(** 610-617: the sites of each building in order, and the user's sites *)
Definition group_step (acc : dict Z (list nat) * list nat) (p : nat * psite) : dict Z (list nat) * list nat :=
  let (d, users) := acc in
  match ps_building (snd p) with
  | Some b => (dset d b (match dget d b with Some l => l | None => [] end ++ [fst p]), users)
  | None => (d, users ++ [fst p])
  end.
Fixpoint enumerate_from {A} (k : nat) (l : list A) : list (nat * A) :=
  match l with [] => [] | x :: r => (k, x) :: enumerate_from (S k) r end.
Definition group_sites (sites : list psite) : dict Z (list nat) * list nat :=
  fold_left group_step (enumerate_from 0 sites) ([], []).
(** 620-622: list.sort(reverse=True, key=...): stable, in descending order of the key *)
Fixpoint insert_desc (x : nat * nat) (l : list (nat * nat)) : list (nat * nat) :=
  match l with [] => [x] | y :: r => if (snd x <? snd y)%nat then y :: insert_desc x r else x :: y :: r end.
Definition sort_desc (l : list (nat * nat)) : list (nat * nat) := fold_right insert_desc [] l.
(** 646-650: one neighbour of the new CN *)
Definition neighbour_step (dn cn : nat) (acc : list (list nat) * dict (nat * nat) Q) (t : nat) : result (list (list nat) * dict (nat * nat) Q) :=
  do rx <- append_at (fst acc) t cn ;
  match dget (snd acc) (dn, t) with
  | Some q => Ok (rx, dset (snd acc) (t, cn) q)
  | None => Err PyKeyError
  end.
(** 619-651: one building *)
Definition building_step (dn_deployment : bool) (acc : losgraph * list nat) (on_building : list nat) : result (losgraph * list nat) :=
  let (g, picked) := acc in
  do keyed <- mapM (fun i => do l <- at_index (g_rx g) i ; Ok (i, List.length l)) on_building ;
  match sort_desc keyed with
  | [] => Err PyIndexError
  | (dn, _) :: _ =>
    do site <- at_index (g_sites g) dn ;
    let cn := List.length (g_sites g) in
    let sites := g_sites g ++ [mkPSite CN (ps_building site) (ps_pos site)] in
    do from <- at_index (g_tx g) dn ;
    let tx := g_tx g ++ [from] in
    do ts <- at_index tx cn ;
    do rc <- foldM (neighbour_step dn cn) (g_rx g ++ [[]], g_conf g) ts ;
    Ok (mkGraph sites (fst rc) tx (snd rc), picked ++ (if dn_deployment then [dn] else []) ++ [cn])
  end.
Definition pick_best_sites_per_building (dn_deployment : bool) (g : losgraph) : result (losgraph * list nat) :=
  let (d, users) := group_sites (g_sites g) in
  foldM (building_step dn_deployment) (g, users) (dvals d).

(** ** get_site_connectable_status, 657-714 *)
Record conn := mkConn { k_connected : list nat; k_unconnected : list nat; k_connectable : list nat; k_other : list nat }.
Definition dedupe (l : list nat) : list nat := fold_left (fun s x => sadd x s) l [].
(** 689-696: the POPs; the queue is returned with the sets *)
Definition pop_step (acc : conn * list nat) (p : nat * site_type) : conn * list nat :=
  let (c, q) := acc in
  if beq (snd p) POP && mem (fst p) (k_unconnected c)
  then (mkConn (sadd (fst p) (k_connected c)) (discard (fst p) (k_unconnected c)) (k_connectable c) (k_other c), q ++ [fst p])
  else (c, q).
(** 700-708: one neighbour *)
Definition visit_step (acc : conn * list nat) (j : nat) : conn * list nat :=
  let (c, q) := acc in
  if mem j (k_unconnected c)
  then (mkConn (sadd j (k_connected c)) (discard j (k_unconnected c)) (k_connectable c) (k_other c), q ++ [j])
  else if mem j (k_other c)
  then (mkConn (k_connected c) (k_unconnected c) (sadd j (k_connectable c)) (discard j (k_other c)), q)
  else (c, q).
(** 698-708: breadth first search *)
Fixpoint bfs (fuel : nat) (rx : list (list nat)) (c : conn) (q : list nat) : result conn :=
  match q with
  | [] => Ok c
  | i :: q' =>
    match fuel with
    | O => Err OutOfFuel
    | S fuel' =>
      do ns <- at_index rx i ;
      let (c', q'') := fold_left visit_step ns (c, q') in
      bfs fuel' rx c' q''
    end
  end.
Definition get_site_connectable_status (types : list site_type) (rx : list (list nat)) (picked : list nat) : result conn :=
  let un := dedupe picked in
  let c0 := mkConn [] un [] (filter (fun i => negb (mem i un)) (seq 0 (List.length types))) in
  let (c, q) := fold_left pop_step (enumerate_from 0 types) (c0, []) in
  bfs (List.length un) rx c q.

(** ** select_additional_dns, 717-810 *)
Record extra := mkExtra { e_conn : conn; e_cns : list nat; e_queue : list (nat * nat); e_added : list nat }.
(** 774-785: the DN covering most CNs, the first of them *)
Definition best_step (rx : list (list nat)) (cns : list nat) (acc : option nat * list nat) (dn : nat) : result (option nat * list nat) :=
  do l <- at_index rx dn ;
  let covered := filter (fun j => mem j cns) l in
  Ok (if (List.length (snd acc) <? List.length covered)%nat then (Some dn, covered) else acc).
(** 797-803 *)
Definition update_step (c : conn) (j : nat) : conn :=
  if mem j (k_other c) then mkConn (k_connected c) (k_unconnected c) (sadd j (k_connectable c)) (discard j (k_other c))
  else if mem j (k_unconnected c) then mkConn (sadd j (k_connected c)) (discard j (k_unconnected c)) (k_connectable c) (k_other c)
  else c.
(** 758-805: one pass of the loop, the queue not empty *)
Definition extra_step (rx tx : list (list nat)) (e : extra) (cn tries : nat) (rest : list (nat * nat)) : result extra :=
  if negb (mem cn (e_cns e)) then Ok (mkExtra (e_conn e) (e_cns e) rest (e_added e))
  else
    do senders <- at_index tx cn ;
    do best <- foldM (best_step rx (e_cns e)) (None, []) (filter (fun i => mem i (k_connectable (e_conn e))) senders) ;
    match best with
    | (Some dn, covered) =>
      let c := e_conn e in
      let c1 := mkConn (sadd dn (k_connected c)) (k_unconnected c) (discard dn (k_connectable c)) (k_other c) in
      do ns <- at_index rx dn ;
      Ok (mkExtra (fold_left update_step ns c1) (filter (fun j => negb (mem j covered)) (e_cns e)) rest (e_added e ++ [dn]))
    | (None, _) => Ok (mkExtra (e_conn e) (e_cns e) (if (tries <? 3)%nat then rest ++ [(cn, (tries + 1)%nat)] else rest) (e_added e))
    end.
Fixpoint extra_loop (fuel : nat) (rx tx : list (list nat)) (e : extra) : result (list nat) :=
  match e_queue e with
  | [] => Ok (e_added e)
  | (cn, tries) :: rest =>
    match fuel with
    | O => Err OutOfFuel
    | S fuel' => do e' <- extra_step rx tx e cn tries rest ; extra_loop fuel' rx tx e'
    end
  end.
(** 739-757.  [order] is the order in which Python enumerates the set of unconnected CNs: any list
    with the same elements. *)
Definition select_additional_dns (order : list nat -> list nat) (types : list site_type) (rx tx : list (list nat)) (picked : list nat) : result (list nat) :=
  do c <- get_site_connectable_status types rx picked ;
  do cns <- mapM (fun i => do ty <- at_index types i ; Ok (i, beq ty CN)) (k_unconnected c) ;
  let set := map fst (filter (fun p => snd p) cns) in
  extra_loop (3 * List.length (order set)) rx tx (mkExtra c set (map (fun i => (i, 1%nat)) (order set)) []).
