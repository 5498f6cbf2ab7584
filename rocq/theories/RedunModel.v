(** Redundancy of the backhaul (optimization/ilp_models/redundancy_optimization.py 48-627 and
    [_run_redundancy_step], optimization/topology_optimization.py 376-419).

    Simplifications.  Floats are exact rationals.  The solver is not modelled: what is proved holds of
    every assignment that satisfies the constraints exactly.  The heuristic that restricts the links
    (630-893) is not modelled either: the restriction is an arbitrary argument.  Sets are lists read
    through membership.  Objectives, log lines and time limits are left out. *)
From Coq Require Import QArith.
From Verif Require Import Base Dict TopologyModel RfModel SetupModel IlpModel ExtractModel.
Local Open Scope Q_scope.

(** ** Problems, as in IlpModel.v but with one flow per link and protected DN *)
Inductive rvar := RSite (i : string) | ROdd (i : string) | RFlow (i j dn : string) | RShort (dn : string).
Inductive rexpr := RCst (q : Q) | RVar (v : rvar) | RAdd (x y : rexpr) | RSub (x y : rexpr) | RScale (q : Q) (x : rexpr).
Inductive rconstr := RLe (x y : rexpr) | REq (x y : rexpr).
Record rproblem := mkRproblem { r_decls : list (rvar * kind); r_constraints : list rconstr }.
Fixpoint reval (v : rvar -> Q) (x : rexpr) : Q :=
  match x with
  | RCst q => q
  | RVar y => v y
  | RAdd x y => reval v x + reval v y
  | RSub x y => reval v x - reval v y
  | RScale q x => q * reval v x
  end.
Definition rsat (v : rvar -> Q) (c : rconstr) : Prop :=
  match c with RLe x y => reval v x <= reval v y | REq x y => reval v x == reval v y end.
Definition rfeasible (P : rproblem) (v : rvar -> Q) : Prop :=
  (forall d, In d (r_decls P) -> in_kind (v (fst d)) (snd d)) /\ (forall c, In c (r_constraints P) -> rsat v c).
Definition rsum (l : list rexpr) : rexpr := fold_right RAdd (RCst 0) l.

(** structs.py 107-111: RedundancyParams *)
Record caps := mkCaps { c_pop : Q; c_dn : Q; c_sink : Q }.
Inductive red_level := LevelNone | LevelLow | LevelMedium | LevelHigh.
(** topology_optimization.py 382-419: the node capacities for a level *)
Definition active_pops (t : topo) : nat := List.length (get_site_ids t (Some [PROPOSED; EXISTING]) (Some [POP])).
Definition level_caps (lvl : red_level) (num_pops : nat) : option caps :=
  match lvl with
  | LevelLow => Some (mkCaps 2 2 2)
  | LevelMedium => Some (if Nat.ltb 1 num_pops then mkCaps 1 1 2 else mkCaps 2 1 2)
  | LevelHigh => Some (if Nat.ltb 1 num_pops then mkCaps 2 1 4 else mkCaps 3 1 3)
  | LevelNone => None
  end.

(** the attributes of the RedundantNetwork object *)
Record rnet := mkRnet {
  r_inst : inst;
  r_odd_in : list string;      (* site_polarities[ODD] *)
  r_caps : caps;
  r_dns : list string;
  r_links : list edge;         (* restricted_links *)
  r_sites : list string }.     (* restricted_sites *)

Definition active_site (I : inst) (loc : string) : bool := mem loc (i_proposed_sites I) || mem loc (i_existing_sites I).
(** dist_site_types() | {SUPERSOURCE} *)
Definition super_dist (ty : loc_type) : bool := match ty with Supersource => true | _ => dist ty end.
(** 88-100: one link of the comprehension *)
Definition restricted (I : inst) (only : option (list edge)) (e : edge) : result bool :=
  do cap <- get (i_cap I) e ;
  if Qle_bool cap 0 then Ok false
  else
    do t1 <- get (i_type I) (fst e) ;
    do t2 <- get (i_type I) (snd e) ;
    Ok (super_dist t1 && super_dist t2 &&
        match only with
        | None => true
        | Some es => beq (fst e) SUPERSOURCE || beq (snd e) SUPERSOURCE || mem e es
        end).
(** 60-120; the flag maximize_common_bandwidth is set to False before, and restored after, the
    construction of the parent object *)
Definition redundant_network (ps : params) (at_ : attrs) (t : topo) (cs : caps) (only : option (list edge)) : result rnet :=
  do I <- network ps at_ t ;
  do dns <- filterM (fun loc => do ty <- get (i_type I) loc ; Ok (active_site I loc && beq ty (Real DN))) (i_locations I) ;
  do ls <- filterM (restricted I only) (i_links I) ;
  let sites := flat_map (fun e => [fst e; snd e]) ls in
  do _ <- guard (forallb (fun d => mem d sites) dns) OptExn ;
  Ok (mkRnet I (get_site_polarities t ODD) cs dns ls sites).

Section Problem.
Variable R : rnet.
Let I := r_inst R.
Let polar := negb (p_ignore_polarities (i_params I)).

(** ** Variables *)
(** 149-159 *)
Definition r_site_keys : result (list string) :=
  filterM (fun loc => if mem loc (r_sites R) then do ty <- get (i_type I) loc ; Ok (negb (imaginary ty)) else Ok false) (i_locations I).
(** 161-176 *)
Definition r_odd_keys : result (list string) :=
  if polar then filterM (fun loc => if mem loc (r_sites R) then do ty <- get (i_type I) loc ; Ok (dist ty) else Ok false) (i_locations I)
  else Ok [].
(** 186-197 *)
Definition r_flow_keys : list (edge * string) :=
  flat_map (fun d => map (fun e => (e, d)) (filter (fun e => mem e (r_links R)) (i_links I))) (r_dns R).
Definition flow_ub (e : edge) : Q := if beq (fst e) SUPERSOURCE || beq (snd e) SUPERSOURCE then c_pop (r_caps R) else 1.

Record rtables := mkRtables {
  w_site : dict string rexpr; w_odd : dict string rexpr; w_flow : dict (edge * string) rexpr; w_short : dict string rexpr }.
Definition rfresh {K} `{EqB K} (mk : K -> rvar) (l : list K) : dict K rexpr := dict_of (map (fun k => (k, RVar (mk k))) l).
Definition rflow (k : edge * string) : rvar := RFlow (fst (fst k)) (snd (fst k)) (snd k).

(** ** Constraints *)
Section Constraints.
Variable V : rtables.

(** 218-234 *)
Definition r_decided_sites : result (list rconstr) :=
  concatM (fun loc =>
    if negb (mem loc (r_sites R)) then Ok []
    else if active_site I loc then do x <- get (w_site V) loc ; Ok [REq x (RCst 1)]
    else if mem loc (i_inactive_sites I) then do x <- get (w_site V) loc ; Ok [REq x (RCst 0)]
    else if mem loc (i_set I (Real POP)) then do x <- get (w_site V) loc ; Ok [REq x (RCst 0)]
    else Ok []) (i_locations I).
(** 236-246 *)
Definition r_inactive_links : result (list rconstr) :=
  concatM (fun e =>
    if negb (mem e (r_links R)) then Ok []
    else if mem e (i_inactive_links I) then mapM (fun d => do x <- get (w_flow V) (e, d) ; Ok (REq x (RCst 0))) (r_dns R)
    else Ok []) (i_links I).
(** 248-266 *)
Definition r_colocated : result (list rconstr) :=
  concatM (fun p =>
    do ls <- filterM (fun loc => do ty <- get (i_type I) loc ; Ok (dist ty && in_dict loc (w_site V))) (snd p) ;
    match ls with
    | [] => Ok []
    | _ => do xs <- mapM (get (w_site V)) ls ; Ok [RLe (rsum xs) (RCst 1)]
    end) (i_colocated I).
(** 268-302: [None] if there is no such link *)
Definition r_flow_sum (d : string) (es : list edge) : result (option rexpr) :=
  do xs <- mapM (fun e => get (w_flow V) (e, d)) (filter (fun e => mem e (r_links R)) es) ;
  Ok (match xs with [] => None | _ => Some (rsum xs) end).
Definition r_incoming (loc d : string) : result (option rexpr) := do es <- incoming I loc ; r_flow_sum d es.
Definition r_outgoing (loc d : string) : result (option rexpr) := do es <- outgoing I loc ; r_flow_sum d es.
(** 315-321 *)
Definition node_cap (ty : loc_type) (loc d : string) : Q :=
  if beq ty (Real POP) then c_pop (r_caps R) else if beq loc d then c_sink (r_caps R) else c_dn (r_caps R).
(** 304-327 *)
Definition r_flow_site : result (list rconstr) :=
  concatM (fun loc =>
    if negb (mem loc (r_sites R)) then Ok []
    else concatM (fun d =>
      do ty <- get (i_type I) loc ;
      do x <- r_incoming loc d ;
      match x with
      | None => Ok []
      | Some x => do s <- get (w_site V) loc ; Ok [RLe x (RScale (node_cap ty loc d) s)]
      end) (r_dns R)) (i_locations I).
Definition or_none (x : option rexpr) : rexpr := match x with Some x => x | None => RCst 0 end.
(** 329-356; a solver expression counts as true in [incoming_flow if incoming_flow else 0] *)
Definition r_balance : result (list rconstr) :=
  concatM (fun loc =>
    if negb (mem loc (r_sites R)) then Ok []
    else concatM (fun d =>
      do x <- r_incoming loc d ;
      do y <- r_outgoing loc d ;
      match x, y with
      | None, None => Ok []
      | _, _ =>
        let net := RSub (or_none x) (or_none y) in
        if beq loc SUPERSOURCE then do s <- get (w_short V) d ; Ok [RLe (RSub s (RCst (c_sink (r_caps R)))) net]
        else if beq loc d then do s <- get (w_short V) d ; Ok [RLe (RSub (RCst (c_sink (r_caps R))) s) net]
        else Ok [REq net (RCst 0)]
      end) (r_dns R)) (i_locations I).
(** 358-390 *)
Definition r_polarity : result (list rconstr) :=
  if polar then
    concatM (fun e =>
      if negb (mem e (r_links R)) then Ok []
      else if mem e (i_wired I) then Ok []
      else
        do oi <- get (w_odd V) (fst e) ;
        do oj <- get (w_odd V) (snd e) ;
        if mem e (i_proposed_links I) || mem e (i_existing_links I) then Ok [REq oi (RSub (RCst 1) oj)]
        else
          concatM (fun d =>
            do x <- get (w_flow V) (e, d) ;
            Ok [RLe x (RAdd oi oj); RLe x (RSub (RSub (RCst 2) oi) oj)]) (r_dns R)) (i_links I)
  else Ok [].
End Constraints.

Definition r_tables (fixed : option (dict string Q)) : result rtables :=
  do sk <- r_site_keys ;
  do ok <- r_odd_keys ;
  Ok (mkRtables (rfresh RSite sk) (rfresh ROdd ok) (rfresh rflow r_flow_keys)
        (match fixed with
         | None => rfresh RShort (r_dns R)
         | Some sh => map (fun p => (fst p, RCst (snd p))) sh
         end)).
(** 122-147, with [shortage_decisions] = True when [fixed] is None; otherwise [fixed] holds the
    shortages of the first solve (454-460) *)
Definition skeleton (fixed : option (dict string Q)) : result rproblem :=
  do V <- r_tables fixed ;
  do a <- r_decided_sites V ;
  do b <- r_inactive_links V ;
  do c <- r_colocated V ;
  do d <- r_flow_site V ;
  do e <- r_balance V ;
  do f <- r_polarity V ;
  Ok (mkRproblem
    (map (fun p => (RSite (fst p), Binary)) (w_site V) ++ map (fun p => (ROdd (fst p), Binary)) (w_odd V) ++
     map (fun p => (rflow (fst p), Continuous 0 (Some (flow_ub (fst (fst p)))))) (w_flow V) ++
     match fixed with None => map (fun d => (RShort d, Continuous 0 (Some (c_sink (r_caps R))))) (r_dns R) | Some _ => [] end)%list
    (a ++ b ++ c ++ d ++ e ++ f)%list).

(** ** Reading the answer *)
Record rsolution := mkRsolution {
  n_site : dict string Z; n_sector : dict edge Z; n_link : dict edge Z; n_odd : dict string Z; n_even : dict string Z;
  n_channel : dict edge Z; n_flow : dict (edge * string) Q; n_short : dict string Q; n_cost : Q }.
Definition rvalues {K} (v : rvar -> Q) (d : dict K rexpr) : dict K Q := map (fun p => (fst p, reval v (snd p))) d.
Definition rbinary {K} (v : rvar -> Q) (d : dict K rexpr) : dict K Z := map (fun p => (fst p, get_binary_value (reval v (snd p)))) d.
(** 535-538 *)
Definition r_forced : list string :=
  i_proposed_sites I ++ i_existing_sites I ++ flat_map (fun e => [fst e; snd e]) (i_proposed_links I ++ i_existing_links I).
(** 551-561 *)
Definition any_dn_active (site : dict string Z) (locs : list string) : result bool :=
  do l <- filterM (fun c => do ty <- get (i_type I) c ; Ok (dist ty && match dget site c with Some z => Z.eqb z 1 | None => false end)) locs ;
  Ok (match l with [] => false | _ => true end).
(** 540-572 *)
Definition fill_site (site : dict string Z) (loc : string) : result (dict string Z) :=
  do ty <- get (i_type I) loc ;
  if imaginary ty then Ok site
  else if beq ty (Real CN) then
    if mem loc r_forced then
      do g <- get (i_geo I) loc ;
      let locs := match dget (i_colocated I) g with Some l => l | None => [] end in
      if Nat.leb (List.length locs) 1 then Ok (dset site loc 1%Z)
      else do b <- any_dn_active site locs ; Ok (dset site loc (if b then 0%Z else 1%Z))
    else Ok (dset site loc 0%Z)
  else if dist ty && negb (dmem site loc) then Ok (dset site loc (if mem loc r_forced then 1%Z else 0%Z))
  else Ok site.
(** 574-590 *)
Definition fill_odd (site : dict string Z) (odd : dict string Z) (loc : string) : result (dict string Z) :=
  do ty <- get (i_type I) loc ;
  if dist ty && negb (dmem odd loc) then
    do z <- get site loc ;
    Ok (dset odd loc (if Z.eqb z 1 && mem loc (r_odd_in R) then 1%Z else 0%Z))
  else Ok odd.
(** 592-598 *)
Definition split_odd (site odd : dict string Z) : result (dict string (Z * Z)) :=
  mapM (fun p => do z <- get site (fst p) ; Ok (fst p, if Z.eqb z 0 then (0%Z, 0%Z) else (snd p, (1 - snd p)%Z))) odd.
(** 519-627 *)
Definition extract_redundancy (sh : dict string Q) (v : rvar -> Q) : result rsolution :=
  do V <- r_tables (Some sh) ;
  do site <- foldM fill_site (i_locations I) (rbinary v (w_site V)) ;
  do odd0 <- (if polar then foldM (fill_odd site) (i_locations I) (rbinary v (w_odd V)) else Ok []) ;
  do pol <- split_odd site odd0 ;
  let odd := map (fun p => (fst p, fst (snd p))) pol in
  let even := map (fun p => (fst p, snd (snd p))) pol in
  do sec <- sector_decisions I site ;
  do links <- link_decisions I site odd sec ;
  do cost <- solution_cost I site sec ;
  Ok (mkRsolution site sec links odd even
        (map (fun p => (fst p, if Z.eqb (snd p) 1 then 0%Z else (-1)%Z)) sec) (rvalues v (w_flow V)) sh cost).
End Problem.
