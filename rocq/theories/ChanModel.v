(** The problem of the deployment step: which links and sectors of the chosen sites are used, and on
    which channel (optimization/ilp_models/interference_optimization.py).  The constraints that tie
    the throughput of a link to the interference it receives are in [SinrModel.v]. *)
From Coq Require Import QArith.
From Verif Require Import Base Dict TopologyModel RfModel SetupModel IlpModel.
Local Open Scope Q_scope.

(** 66-71: what the previous steps proposed as links and sectors is forgotten *)
Definition deploy_inst (I : inst) : inst :=
  mkInst (i_params I)
    (i_locations I) (i_type I) (i_set I) (i_geo I) (i_secs I) (i_sectype I) (i_node I) (i_demand I) (i_seccost I)
    (i_l2s I) (i_cap I) (i_colocated I) (i_wired I) (i_existing_sites I) (i_proposed_sites I) (i_inactive_sites I)
    (i_existing_links I) [] (i_inactive_links I) [] (i_max_throughput I).

Section Deploy.
Variable I : inst.
(** params.dn_dn_sector_limit, params.dn_total_sector_limit, and the pairs (i, j), (i, k) of links that
    the angle guideline forbids *)
Variables (dn_limit total_limit : nat) (violating : list (string * string * string)).
Let ps := i_params I.
Let one_channel : bool := Nat.eqb (p_channels ps) 1.

(** 261-300; the set of active sites as a list *)
Definition active_sites : result (list string) :=
  let act := i_proposed_sites I ++ i_existing_sites I in
  do lone <- filterM (fun i => if mem i act then alone I i else Ok false) (i_locations I) ;
  do col <- concatM (fun locs =>
      match locs with
      | [] | [_] => Ok []
      | _ =>
        match filter (fun l => mem l locs) act with
        | [] => Ok []
        | here =>
          do tys <- mapM (get (i_type I)) here ;
          let m := max_site_type tys in
          filterM (fun loc => do ty <- get (i_type I) loc ; Ok (beq ty (Real m) && mem loc act)) locs
        end
      end) (dvals (i_colocated I)) ;
  Ok (lone ++ col).
(** 302-309: the sites are decided, a constant each *)
Definition site_constants (act : list string) : result (dict string expr) :=
  do sk <- site_decisions I ;
  Ok (dict_of (map (fun i => (i, Cst (if mem i act then 1 else 0))) sk)).
(** 311-323; [link_to_sectors.get((i, j), (None, None))] *)
Definition sectors_of (e : edge) : option string * option string :=
  match dget (i_l2s I) e with Some s => s | None => (None, None) end.
Definition active_link_keys : result (list edge) :=
  filterM (fun e =>
    do q <- get (i_cap I) e ;
    if Qle_bool q 0 then Ok false
    else match sectors_of e with
         | (Some _, Some _) =>
           do ti <- get (i_type I) (fst e) ;
           do tj <- get (i_type I) (snd e) ;
           Ok (negb (imaginary ti) && negb (imaginary tj) && negb (mem e (i_wired I)))
         | _ => Ok false
         end) (i_links I).
(** 325-346 *)
Definition deployment_keys (ak : list edge) : list key3 :=
  if one_channel then []
  else flat_map (fun p => let '(i, j, k) := p in
         if mem (i, j) ak && mem (i, k) ak
         then flat_map (fun e => map (fun c => (e, c)) (channels I)) [(i, j); (i, k)] else []) violating.
Definition active_var (e : edge) : var := VActive (fst e) (snd e).
Definition deploy_var (k : key3) : var := VDeploy (fst (fst k)) (snd (fst k)) (snd k).
(** 162-175 *)
Definition deploy_tables : result (tables * dict key3 expr) :=
  do act <- active_sites ;
  do vs <- site_constants act ;
  do ok <- odd_keys I ;
  do ak <- active_link_keys ;
  do sk <- sector_keys I ;
  do tk <- tdm_keys I ;
  Ok (mkTables vs (dict_of (fresh sector_var sk)) (dict_of (fresh flow_var (flow_keys I))) (dict_of (fresh tdm_var tk))
        (dict_of (fresh VOdd ok)) (dict_of (fresh VShort (shortage_keys I))) (dict_of (fresh active_var ak)),
      dict_of (fresh deploy_var (deployment_keys ak))).
Definition deploy_decls : result (list (var * kind)) :=
  do ok <- odd_keys I ;
  do sh <- shortage_decls I ;
  do ak <- active_link_keys ;
  do sk <- sector_keys I ;
  do tk <- tdm_keys I ;
  Ok (map (fun i => (VOdd i, Binary)) ok
      ++ map (fun e => (flow_var e, Continuous 0 None)) (flow_keys I) ++ sh
      ++ map (fun e => (active_var e, Binary)) ak
      ++ map (fun k => (deploy_var k, Binary)) (deployment_keys ak)
      ++ map (fun k => (sector_var k, Binary)) sk
      ++ map (fun k => (tdm_var k, Continuous 0 (Some 1))) tk).

Section Constraints.
Variables (V : tables) (Dp : dict key3 expr).

(** [self.site_vars[loc] == 0]: a constant *)
Definition site_off (loc : string) : result bool :=
  do x <- get (v_site V) loc ; Ok (match x with Cst q => Qeq_bool q 0 | _ => false end).
(** [xp.Sum(self.sector_vars[(loc, sec, channel)] for channel in range(..))], KeyError if one is missing *)
Definition sector_full (loc sec : string) : result expr :=
  do l <- mapM (fun c => get (v_sector V) (loc, sec, c)) (channels I) ; Ok (xsum l).

(** 550-561 *)
Definition create_tdm_link_relationship : result (list constr) :=
  concatM (fun e =>
    if dmem (v_tdm V) (e, 0%nat) then
      match dget (v_active V) e with
      | Some x => do s <- tdm_sum I V e ; Ok [Le s x]
      | None => Ok []
      end
    else Ok []) (i_links I).
(** 465-478 *)
Definition create_flow_link_relationship : result (list constr) :=
  concatM (fun p =>
    match dget (v_active V) (fst p) with
    | Some x => do cap <- get (i_cap I) (fst p) ; Ok [Le (snd p) (Scale cap x)]
    | None => Ok []
    end) (v_flow V).
(** 596-602 *)
Definition create_symmetric_link_constraints : list constr :=
  flat_map (fun p => match dget (v_active V) (snd (fst p), fst (fst p)) with
                     | Some y => [Eq (snd p) y] | None => [] end) (v_active V).

(** network_optimization.py 350-364 *)
Definition create_sector_channel_constraints : result (list constr) :=
  if one_channel then Ok []
  else concatM (fun p => concatM (fun sec =>
         do ty <- get (i_sectype I) sec ;
         match ty with
         | SecDN =>
           do l <- mapM (fun c => get (v_sector V) (fst p, sec, c)) (channels I) ;
           Ok (match l with [] | [_] => [] | _ => [Le (xsum l) (Cst 1)] end)
         | _ => Ok []
         end) (snd p)) (i_secs I).
(** network_optimization.py 366-381 *)
Definition create_always_active_sector_constraints : list constr :=
  flat_map (fun loc => match dget (i_proposed_sectors I) loc with
                       | Some secs => map (fun sec => Eq (sector_sum I V loc sec) (Cst 1)) secs
                       | None => [] end) (i_locations I).
(** network_optimization.py 383-398 *)
Definition create_sector_site_relationship : result (list constr) :=
  concatM (fun loc =>
    do ty <- get (i_type I) loc ;
    if imaginary ty then Ok []
    else
      do secs <- get (i_secs I) loc ;
      concatM (fun sec =>
        do st <- get (i_sectype I) sec ;
        if imaginary_sec st then Ok []
        else do x <- get (v_site V) loc ; Ok [Le (sector_sum I V loc sec) x]) secs) (i_locations I).
(** network_optimization.py 400-425.  [(loc, sec) in self.sector_vars]: the keys of sector_vars are
    triples (location, sector, channel), and a pair is never equal to a triple. *)
Definition pair_is_key (d : dict key3 expr) (p : string * string) : bool := false.
Definition node_groups : result (dict (string * nat) (list edge)) :=
  do l <- concatM (fun loc =>
      do secs <- get (i_secs I) loc ;
      concatM (fun sec =>
        do st <- get (i_sectype I) sec ;
        if imaginary_sec st then Ok []
        else do nd <- get (i_node I) sec ;
             Ok (if pair_is_key (v_sector V) (loc, sec) then [((loc, nd), (loc, sec))] else [])) secs) (i_locations I) ;
  Ok (fold_left (fun d p => dset d (fst p) ((match dget d (fst p) with Some m => m | None => [] end) ++ [snd p])) l []).
Fixpoint two_of {A} (l : list A) : list (A * A) :=
  match l with [] => [] | x :: r => map (fun y => (x, y)) r ++ two_of r end.
Definition create_same_node_sector_relationship : result (list constr) :=
  do nodes <- node_groups ;
  concatM (fun group => concatM (fun p =>
    let '(loc1, sec1) := fst p in
    let '(loc2, sec2) := snd p in
    do r <- concatM (fun c => if dmem (v_sector V) (loc1, sec1, c)
                              then do x <- get (v_sector V) (loc2, sec2, c) ; Ok [x] else Ok []) (channels I) ;
    Ok [Eq (sector_sum I V loc1 sec1) (xsum r)]) (two_of group)) (dvals nodes).
(** network_optimization.py 343-348 *)
Definition create_sector_constraints : result (list constr) :=
  do c1 <- create_tdm_sector_relationship I V ;
  do c2 <- create_sector_site_relationship ;
  do c3 <- create_same_node_sector_relationship ;
  do c5 <- create_sector_channel_constraints ;
  Ok (c1 ++ c2 ++ c3 ++ create_always_active_sector_constraints ++ c5).

(** 495-548; the links with a decision have both sectors (311-323) *)
Definition link_sectors_on (e : edge) (x : expr) : result (list constr) :=
  match sectors_of e with
  | (Some s1, Some s2) =>
    let a := if dmem (v_sector V) (fst e, s1, 0%nat) then [Le x (sector_sum I V (fst e) s1)] else [] in
    let b := if dmem (v_sector V) (snd e, s2, 0%nat) then [Le x (sector_sum I V (snd e) s2)] else [] in
    do tj <- (if one_channel then Ok (Real CN) else get (i_type I) (snd e)) ;
    if beq tj (Real CN) then Ok (a ++ b)
    else
      do cs <- concatM (fun c =>
          do y1 <- get (v_sector V) (fst e, s1, c) ;
          do y2 <- get (v_sector V) (snd e, s2, c) ;
          Ok [Le x (Add (Sub y1 y2) (Cst 1)); Le x (Add (Sub y2 y1) (Cst 1))]) (channels I) ;
      Ok (a ++ b ++ cs)
  | _ => Err PyKeyError
  end.
Definition create_sector_link_constraints : result (list constr) :=
  concatM (fun p => link_sectors_on (fst p) (snd p)) (v_active V).
(** 480-493 *)
Definition active_among (es : list edge) : list expr :=
  flat_map (fun e => match dget (v_active V) e with Some x => [x] | None => [] end) es.
Definition create_cn_link_constraints : result (list constr) :=
  concatM (fun cn =>
    do es <- incoming I cn ;
    Ok (at_most (active_among es) (Cst 1)))
    (filter (fun loc => mem loc (i_set I (Real CN))) (i_locations I)).
(** 563-594 *)
Definition create_polarity_link_relationship : result (list constr) :=
  if p_ignore_polarities ps then Ok []
  else concatM (fun e =>
    if mem e (i_proposed_links I ++ i_existing_links I) then Ok []
    else match dget (v_active V) e with
         | None => Ok []
         | Some x =>
           do ti <- get (i_type I) (fst e) ;
           do tj <- get (i_type I) (snd e) ;
           if dist ti && dist tj then
             do oi <- get (v_odd V) (fst e) ;
             do oj <- get (v_odd V) (snd e) ;
             Ok [Le x (Add oi oj); Le x (Sub (Sub (Cst 2) oi) oj)]
           else Ok []
         end) (i_links I).
(** 353-401 *)
Definition decided_link (e : edge) : result (list constr) :=
  if negb (mem e (i_proposed_links I ++ i_existing_links I)) then Ok []
  else
    do a <- site_off (fst e) ;
    do b <- (if a then Ok true else site_off (snd e)) ;
    if b then Ok []
    else
      let on := match dget (v_active V) e with Some x => [Eq x (Cst 1)] | None => [] end in
      match sectors_of e with
      | (None, None) => Err OptExn
      | (s1, s2) =>
        Ok (on ++ (match s1 with Some s => [Eq (sector_sum I V (fst e) s) (Cst 1)] | None => [] end)
               ++ (match s2 with Some s => [Eq (sector_sum I V (snd e) s) (Cst 1)] | None => [] end))
      end.
Definition create_decided_link_constraints : result (list constr) :=
  do c1 <- concatM decided_link (i_links I) ;
  Ok (c1 ++ flat_map (fun e => if mem e (i_inactive_links I)
                               then match dget (v_active V) e with Some x => [Eq x (Cst 0)] | None => [] end
                               else []) (i_links I)).
(** 403-463 *)
Definition sector_links (i sec : string) : result (list (loc_type * expr)) :=
  do es <- outgoing I i ;
  concatM (fun e =>
    do s <- get (i_l2s I) e ;
    if beq (fst s) (Some sec) then
      match dget (v_active V) e with
      | None => Ok []
      | Some x => do tj <- get (i_type I) (snd e) ; Ok [(tj, x)]
      end
    else Ok []) es.
Definition create_multi_point_constraints : result (list constr) :=
  concatM (fun i =>
    do ty <- get (i_type I) i ;
    if negb (dist ty) then Ok []
    else
      do secs <- get (i_secs I) i ;
      concatM (fun sec =>
        do mine <- sector_links i sec ;
        let dns := map snd (filter (fun q => dist (fst q)) mine) in
        let all := map snd (filter (fun q => dist (fst q) || beq (fst q) (Real CN)) mine) in
        do c1 <- (if Nat.leb dn_limit (List.length dns)
                  then do s <- sector_full i sec ; Ok [Le (xsum dns) (Scale (inject_Z (Z.of_nat dn_limit)) s)] else Ok []) ;
        do c2 <- (if Nat.leb total_limit (List.length all)
                  then do s <- sector_full i sec ; Ok [Le (xsum all) (Scale (inject_Z (Z.of_nat total_limit)) s)] else Ok []) ;
        Ok (c1 ++ c2)) secs) (i_locations I).
(** 604-641 *)
Definition deployment_link (k : key3) (d : expr) : result (list constr) :=
  let e := fst k in
  let c := snd k in
  do x <- get (v_active V) e ;
  do s <- get (i_l2s I) e ;
  match s with
  | (Some s1, Some s2) =>
    do y1 <- get (v_sector V) (fst e, s1, c) ;
    do y2 <- (match dget (v_sector V) (snd e, s2, c) with Some y => Ok y | None => get (v_sector V) (snd e, s2, 0%nat) end) ;
    Ok [Le d x; Le d y1; Le d y2; Le (Sub (Add (Add x y1) y2) (Cst 2)) d]
  | _ => Err PyKeyError
  end.
Definition create_deployment_link_constraints : result (list constr) :=
  if one_channel then Ok [] else concatM (fun p => deployment_link (fst p) (snd p)) Dp.
(** 643-671 *)
Definition create_angle_limit_guideline_constraints : result (list constr) :=
  concatM (fun p => let '(i, j, k) := p in
    match dget (v_active V) (i, j), dget (v_active V) (i, k) with
    | Some x, Some y =>
      if mem (i, j) (i_proposed_links I ++ i_existing_links I) && mem (i, k) (i_proposed_links I ++ i_existing_links I)
      then Ok []
      else if one_channel then Ok [Le (Add x y) (Cst 1)]
      else concatM (fun c =>
          do d1 <- get Dp (i, j, c) ;
          do d2 <- get Dp (i, k, c) ;
          Ok [Le (Add d1 d2) (Cst 1)]) (channels I)
    | _, _ => Ok []
    end) violating.
(** 177-190 and 348-351 *)
Definition deploy_constraints : result (list constr) :=
  do c1 <- create_tdm_flow_relationship I V ;
  do c2 <- create_tdm_link_relationship ;
  do c3 <- create_flow_balance_with_shortage I V ;
  do c4 <- create_pop_load_constraints I V ;
  do c5 <- create_flow_link_relationship ;
  do c7 <- create_sector_constraints ;
  do c8 <- create_sector_link_constraints ;
  do c9 <- create_cn_link_constraints ;
  do c10 <- create_polarity_link_relationship ;
  do c11 <- create_decided_link_constraints ;
  do c12 <- create_active_link_polarity_constraints I V ;
  do c13 <- create_inactive_link_flow_constraints I V ;
  do c14 <- create_multi_point_constraints ;
  do c15 <- create_deployment_link_constraints ;
  do c16 <- create_angle_limit_guideline_constraints ;
  Ok (c1 ++ c2 ++ c3 ++ c4 ++ c5 ++ create_symmetric_link_constraints ++ c7 ++ c8 ++ c9 ++ c10 ++ c11 ++ c12 ++ c13 ++ c14 ++ c15 ++ c16).
End Constraints.
End Deploy.

(** 162-190, all but the last line *)
Definition deploy_problem (dn_limit total_limit : nat) (violating : list (string * string * string)) (I0 : inst) : result problem :=
  let I := deploy_inst I0 in
  do VD <- deploy_tables I violating ;
  do ds <- deploy_decls I violating ;
  do cs <- deploy_constraints I dn_limit total_limit violating (fst VD) (snd VD) ;
  Ok (mkProblem ds cs).
