(** The optimisation models as data: variables, linear constraints, and the functions that build
    them (optimization/ilp_models/network_optimization.py, site_optimization.py,
    flow_optimization.py).  The solver is not modelled: C16-C19 hold of every assignment that
    satisfies the constraints exactly. *)
From Coq Require Import QArith.
From Verif Require Import Base Dict TopologyModel RfModel SetupModel.
Local Open Scope Q_scope.

(** ** Problems *)
Inductive var :=
| VSite (i : string) | VSector (i a : string) (c : nat) | VFlow (i j : string)
| VTdm (i j : string) (c : nat) | VOdd (i : string) | VShort (i : string)
| VActive (i j : string) | VDeploy (i j : string) (c : nat)
| VBuffer | VCommon.
Inductive expr := Cst (q : Q) | Var (v : var) | Add (x y : expr) | Sub (x y : expr) | Scale (q : Q) (x : expr).
Inductive constr := Le (x y : expr) | Eq (x y : expr).
Inductive kind := Binary | Continuous (lb : Q) (ub : option Q).
Record problem := mkProblem { decls : list (var * kind); constraints : list constr }.

Fixpoint eval (v : var -> Q) (x : expr) : Q :=
  match x with
  | Cst q => q
  | Var y => v y
  | Add x y => eval v x + eval v y
  | Sub x y => eval v x - eval v y
  | Scale q x => q * eval v x
  end.
Definition sat (v : var -> Q) (c : constr) : Prop :=
  match c with Le x y => eval v x <= eval v y | Eq x y => eval v x == eval v y end.
Definition in_kind (q : Q) (k : kind) : Prop :=
  match k with
  | Binary => q == 0 \/ q == 1
  | Continuous lb ub => lb <= q /\ match ub with Some u => q <= u | None => True end
  end.
(** the assignments among which the solver chooses *)
Definition feasible (P : problem) (v : var -> Q) : Prop :=
  (forall d, In d (decls P) -> in_kind (v (fst d)) (snd d)) /\ (forall c, In c (constraints P) -> sat v c).

(** xp.Sum *)
Definition xsum (l : list expr) : expr := fold_right Add (Cst 0) l.
(** the variable dictionaries of the optimiser object; a value is an expression because some
    models put the constants 0 and 1 there *)
Record tables := mkTables {
  v_site : dict string expr; v_sector : dict key3 expr; v_flow : dict edge expr;
  v_tdm : dict key3 expr; v_odd : dict string expr; v_short : dict string expr;
  v_active : dict edge expr }.
Definition no_tables : tables := mkTables [] [] [] [] [] [] [].

Definition concatM {A B} (f : A -> result (list B)) (l : list A) : result (list B) :=
  do ls <- mapM f l ; Ok (List.concat ls).
Definition channels (I : inst) : list nat := seq 0 (p_channels (i_params I)).
Definition in_dict {K V} `{EqB K} (k : K) (d : dict K V) : bool := dmem d k.

Section Builders.
Variable I : inst.
Let ps := i_params I.

(** ** Variables (network_optimization.py 238-341) *)
Definition real_locations : result (list string) :=
  filterM (fun loc => do ty <- get (i_type I) loc ; Ok (negb (imaginary ty))) (i_locations I).
(** 238-247 *)
Definition site_decisions : result (list string) := real_locations.
(** 249-256 *)
Definition flow_keys : list edge := i_links I.
(** 258-284 *)
Definition tdm_keys : result (list key3) :=
  concatM (fun e =>
    do ti <- get (i_type I) (fst e) ;
    do tj <- get (i_type I) (snd e) ;
    Ok (if negb (imaginary ti) && negb (imaginary tj) && negb (mem e (i_wired I))
        then map (fun c => (e, c)) (channels I) else [])) (i_links I).
(** 286-297 *)
Definition odd_keys : result (list string) :=
  if p_ignore_polarities ps then Ok []
  else filterM (fun loc => do ty <- get (i_type I) loc ; Ok (dist ty)) (i_locations I).
(** 299-313 *)
Definition shortage_keys : list string := filter (fun loc => mem loc (i_set I Demand)) (i_locations I).
Definition shortage_decls : result (list (var * kind)) :=
  mapM (fun loc => do q <- get (i_demand I) loc ; Ok (VShort loc, Continuous 0 (Some q))) shortage_keys.
(** 315-341 *)
Definition sector_keys : result (list key3) :=
  concatM (fun p => concatM (fun a =>
     do ty <- get (i_sectype I) a ;
     Ok (if imaginary_sec ty then []
         else map (fun c => (fst p, a, c)) (match ty with SecDN => channels I | _ => [0%nat] end))) (snd p))
    (i_secs I).

Section Constraints.
Variable V : tables.

(** [self.tdm[(i, j, c)] for c in range(number_of_channels)] *)
Definition tdm_sum (e : edge) : result expr :=
  do l <- mapM (fun c => get (v_tdm V) (e, c)) (channels I) ; Ok (xsum l).
(** [self.sector_vars[(loc, sec, c)] for c in range(..) if (loc, sec, c) in self.sector_vars] *)
Definition sector_sum (loc sec : string) : expr :=
  xsum (flat_map (fun c => match dget (v_sector V) (loc, sec, c) with Some x => [x] | None => [] end) (channels I)).

(** 534-546, 549-559 *)
Definition flow_sum (es : list edge) : result (option expr) :=
  do l <- mapM (get (v_flow V)) es ; Ok (match es with [] => None | _ => Some (xsum l) end).
Definition incoming_flow (loc : string) : result (option expr) := do es <- incoming I loc ; flow_sum es.
Definition outgoing_flow (loc : string) : result (option expr) := do es <- outgoing I loc ; flow_sum es.
Definition or_zero (o : option expr) : expr := match o with Some x => x | None => Cst 0 end.
(** 561-574 *)
Definition net_flow (loc : string) : result (option expr) :=
  do a <- incoming_flow loc ;
  do b <- outgoing_flow loc ;
  Ok (match a, b with None, None => None | _, _ => Some (Sub (or_zero a) (or_zero b)) end).
(** 577-591 *)
Definition balance_rhs (loc : string) : result expr :=
  do ty <- get (i_type I) loc ;
  match ty with
  | Demand =>
    do q <- get (i_demand I) loc ;
    do s <- get (v_short V) loc ;
    Ok (Sub (Cst q) s)
  | Supersource =>
    do l <- mapM (get (v_short V)) shortage_keys ;
    Ok (Add (Cst (- i_max_throughput I)) (xsum l))
  | Real _ => Ok (Cst 0)
  end.
(** 611-619 *)
Definition create_flow_balance_with_shortage : result (list constr) :=
  concatM (fun loc =>
    do n <- net_flow loc ;
    do r <- balance_rhs loc ;
    Ok (match n with Some x => [Eq x r] | None => [] end)) (i_locations I).
(** 593-609 *)
Definition create_flow_site_relationship : result (list constr) :=
  concatM (fun loc =>
    do a <- incoming_flow loc ;
    do b <- outgoing_flow loc ;
    do ty <- get (i_type I) loc ;
    do s <- (if imaginary ty then Ok (Cst 1) else get (v_site V) loc) ;
    let bound := Scale (i_max_throughput I) s in
    Ok ((match a with Some x => [Le x bound] | None => [] end)
        ++ (match b with Some x => [Le x bound] | None => [] end))) (i_locations I).

(** 427-462 *)
Definition sector_tdm (sec : string) (c : nat) (side : option string * option string -> option string) (es : list edge)
  : result (list expr) :=
  concatM (fun e =>
    do s <- get (i_l2s I) e ;
    Ok (if beq (side s) (Some sec)
        then match dget (v_tdm V) (e, c) with Some x => [x] | None => [] end else [])) es.
Definition at_most (l : list expr) (x : expr) : list constr := match l with [] => [] | _ => [Le (xsum l) x] end.
Definition create_tdm_sector_relationship : result (list constr) :=
  concatM (fun i =>
    do ty <- get (i_type I) i ;
    if imaginary ty then Ok []
    else
      do secs <- get (i_secs I) i ;
      concatM (fun sec => concatM (fun c =>
        match dget (v_sector V) (i, sec, c) with
        | None => Ok []
        | Some x =>
          do eo <- outgoing I i ;
          do ei <- incoming I i ;
          do out <- sector_tdm sec c fst eo ;
          do inn <- sector_tdm sec c snd ei ;
          Ok (at_most out x ++ at_most inn x)
        end) (channels I)) secs) (i_locations I).

(** 464-475 *)
Definition create_pop_load_constraints : result (list constr) :=
  concatM (fun loc =>
    do o <- outgoing_flow loc ;
    Ok (match o with Some x => [Le x (Cst (p_pop_capacity ps))] | None => [] end))
    (filter (fun loc => mem loc (i_set I (Real POP))) (i_locations I)).
(** 477-495 *)
Definition create_tdm_flow_relationship : result (list constr) :=
  concatM (fun e =>
    do cap <- get (i_cap I) e ;
    do f <- get (v_flow V) e ;
    if dmem (v_tdm V) (e, 0%nat) then do s <- tdm_sum e ; Ok [Le f (Scale cap s)]
    else Ok [Le f (Cst (qmin2 cap (i_max_throughput I)))]) (i_links I).
(** 497-532 *)
Definition create_tdm_polarity_relationship : result (list constr) :=
  if p_ignore_polarities ps then Ok []
  else concatM (fun e =>
    if mem e (i_proposed_links I ++ i_existing_links I) then Ok []
    else if mem e (i_wired I) then Ok []
    else
      do ti <- get (i_type I) (fst e) ;
      do tj <- get (i_type I) (snd e) ;
      if dist ti && dist tj then
        do s <- tdm_sum e ;
        do oi <- get (v_odd V) (fst e) ;
        do oj <- get (v_odd V) (snd e) ;
        Ok [Le s (Add oi oj); Le s (Sub (Sub (Cst 2) oi) oj)]
      else Ok []) (i_links I).

(** 621-646 *)
Definition max_site_type (types : list loc_type) : site_type :=
  fold_left (fun m ty => match ty with
                         | Real DN => match m with POP => POP | _ => DN end
                         | Real POP => POP
                         | _ => m end) types CN.
Definition valid_site_types (m : site_type) : list site_type :=
  match m with CN => [CN; DN; POP] | DN => [DN] | POP => [POP] end.
(** 653-665 *)
Definition input_active_sites : list string :=
  i_proposed_sites I ++ i_existing_sites I
  ++ flat_map (fun e => [fst e; snd e]) (i_proposed_links I ++ i_existing_links I)
  ++ (if p_always_active_pops ps
      then filter (fun i => mem i (i_set I (Real POP)) && negb (mem i (i_inactive_sites I))) (i_locations I) else []).
Definition invalid_site (act : list string) (m : site_type) (loc : string) : result bool :=
  do ty <- get (i_type I) loc ;
  Ok (negb (mem ty (map Real (valid_site_types m))) || (beq ty (Real m) && negb (mem loc act))).
(** 666-704: one group of co-located sites *)
Definition colocated_group (act : list string) (locs : list string) : result (list constr) :=
  match locs with
  | [] | [_] => Ok []
  | _ =>
    do xs <- mapM (get (v_site V)) locs ;
    match filter (fun l => mem l locs) act with
    | [] => Ok [Le (xsum xs) (Cst 1)]
    | here =>
      do tys <- mapM (get (i_type I)) here ;
      let m := max_site_type tys in
      do bad <- filterM (invalid_site act m) locs ;
      do bxs <- mapM (get (v_site V)) bad ;
      Ok (Eq (xsum xs) (Cst 1) :: match bxs with [] => [] | _ => [Eq (xsum bxs) (Cst 0)] end)
    end
  end.
Definition create_colocated_site_relationship : result (list constr) :=
  concatM (colocated_group input_active_sites) (dvals (i_colocated I)).

(** 843-875 *)
Definition alone (loc : string) : result bool :=
  do g <- get (i_geo I) loc ;
  Ok (match dget (i_colocated I) g with Some (_ :: _ :: _) => false | _ => true end).
Definition decided_site (loc : string) : result (list constr) :=
  if p_always_active_pops ps && mem loc (i_set I (Real POP)) then
    if mem loc (i_inactive_sites I) then Ok []
    else do b <- alone loc ; if b then do x <- get (v_site V) loc ; Ok [Eq x (Cst 1)] else Ok []
  else if mem loc (i_proposed_sites I) || mem loc (i_existing_sites I) then
    do b <- alone loc ; if b then do x <- get (v_site V) loc ; Ok [Eq x (Cst 1)] else Ok []
  else if mem loc (i_inactive_sites I) then do x <- get (v_site V) loc ; Ok [Eq x (Cst 0)]
  else Ok [].
Definition create_decided_site_constraints : result (list constr) := concatM decided_site (i_locations I).
(** 877-887 *)
Definition create_active_link_polarity_constraints : result (list constr) :=
  if p_ignore_polarities ps then Ok []
  else Ok (flat_map (fun e =>
    if mem e (i_proposed_links I) || mem e (i_existing_links I) then
      match dget (v_odd V) (fst e), dget (v_odd V) (snd e) with
      | Some oi, Some oj => [Eq oi (Sub (Cst 1) oj)]
      | _, _ => []
      end
    else []) (i_links I)).
(** 889-893 and site_optimization.py 166-170: no flow on the listed links *)
Definition no_flow_on (es : list edge) : result (list constr) :=
  concatM (fun e => if mem e es then do f <- get (v_flow V) e ; Ok [Eq f (Cst 0)] else Ok []) (i_links I).
Definition create_inactive_link_flow_constraints : result (list constr) := no_flow_on (i_inactive_links I).

(** 735-760 *)
Definition site_cost (loc : string) : result expr :=
  do ty <- get (i_type I) loc ;
  match ty with
  | Real k =>
    if mem loc (i_existing_sites I) then Ok (Cst 0)
    else
      do x <- get (v_site V) loc ;
      do secs <- get (i_secs I) loc ;
      do l <- concatM (fun a =>
          do st <- get (i_sectype I) a ;
          if imaginary_sec st then Ok []
          else do q <- get (i_seccost I) (loc, a) ; Ok [Scale q (sector_sum loc a)]) secs ;
      Ok (Add (Scale (p_capex ps k) x) (xsum l))
  | _ => Ok (Cst 0)
  end.
Definition extract_cost : result expr := do l <- mapM site_cost (i_locations I) ; Ok (xsum l).
(** 706-719 *)
Definition create_cost_constraint : result (list constr) :=
  do c <- extract_cost ; Ok [Le c (Cst (p_budget ps))].
(** 762-797, without maximize_common_bandwidth *)
Definition create_coverage_constraint : result (list constr) :=
  match i_set I Demand with
  | [] => Ok []
  | _ =>
    do qs <- mapM (get (i_demand I)) shortage_keys ;
    do l <- mapM (get (v_short V)) shortage_keys ;
    Ok [Le (xsum l) (Cst ((1 - p_coverage ps) * fold_left Qplus qs 0))]
  end.
(** pop_proposal_optimization.py 235-245, given the number of POPs computed at 212-234; 0 is no limit *)
Definition create_pop_constraint (number : nat) : result (list constr) :=
  match number with
  | O => Ok []
  | S _ =>
    do xs <- mapM (get (v_site V)) (filter (fun loc => mem loc (i_set I (Real POP))) (i_locations I)) ;
    Ok [Eq (xsum xs) (Cst (inject_Z (Z.of_nat number)))]
  end.
End Constraints.
End Builders.

(** network_optimization.py 85-102: some POP has outgoing links whose capacities add up to more than 0 *)
Definition positive_links (I : inst) (es : list edge) : result bool :=
  do caps <- mapM (get (i_cap I)) es ;
  Ok (match es with [] => false | _ => negb (Qle_bool (fold_left Qplus caps 0) 0) end).
Fixpoint find_first {A} (f : A -> result bool) (l : list A) : result unit :=
  match l with
  | [] => Err OptExn
  | x :: r => do b <- f x ; if b then Ok tt else find_first f r
  end.
Definition check_pop_feasibility (I : inst) : result unit :=
  find_first (fun i => do es <- outgoing I i ; positive_links I es) (i_set I (Real POP)).
(** 104-122 *)
Definition check_demand_feasibility (I : inst) (t : topo) : result unit :=
  find_first (fun i => do es <- incoming I i ; positive_links I es) (flat_map (fun p => d_sites (snd p)) (t_demands t)).
(** 47-61 *)
Definition network (ps : params) (at_ : attrs) (t : topo) : result inst :=
  do I <- setup ps at_ t ;
  do _ <- check_pop_feasibility I ;
  do _ <- check_demand_feasibility I t ;
  Ok I.

(** a dictionary of fresh variables *)
Definition fresh {K} (mk : K -> var) (l : list K) : list (K * expr) := map (fun k => (k, Var (mk k))) l.
Definition flow_var (e : edge) : var := VFlow (fst e) (snd e).
Definition tdm_var (k : key3) : var := VTdm (fst (fst k)) (snd (fst k)) (snd k).
Definition sector_var (k : key3) : var := VSector (fst (fst k)) (snd (fst k)) (snd k).

(** ** SiteOptimization (site_optimization.py) *)
Definition with_channels (n : nat) (I : inst) : inst :=
  let p := i_params I in
  mkInst (mkParams (p_pop_capacity p) (p_oversubscription p) n (p_ignore_polarities p) (p_always_active_pops p)
            (p_budget p) (p_coverage p) (p_common_bandwidth p) (p_capex p))
    (i_locations I) (i_type I) (i_set I) (i_geo I) (i_secs I) (i_sectype I) (i_node I) (i_demand I) (i_seccost I)
    (i_l2s I) (i_cap I) (i_colocated I) (i_wired I) (i_existing_sites I) (i_proposed_sites I) (i_inactive_sites I)
    (i_existing_links I) (i_proposed_links I) (i_inactive_links I) (i_proposed_sectors I) (i_max_throughput I).

(** 128-139: a sector is on when its site is *)
Definition site_sector_vars (I : inst) (vs : dict string expr) : result (dict key3 expr) :=
  concatM (fun p => concatM (fun a =>
    do ty <- get (i_sectype I) a ;
    if imaginary_sec ty then Ok [] else do x <- get vs (fst p) ; Ok [(fst p, a, 0%nat, x)]) (snd p)) (i_secs I).

(** 98-126 (set_up_problem_skeleton); [I] has one channel (37) *)
Definition site_tables (I : inst) : result tables :=
  do sk <- site_decisions I ;
  let vs := dict_of (fresh VSite sk) in
  do sec <- site_sector_vars I vs ;
  do tk <- tdm_keys I ;
  do ok <- odd_keys I ;
  Ok (mkTables vs (dict_of sec) (dict_of (fresh flow_var (flow_keys I))) (dict_of (fresh tdm_var tk))
        (dict_of (fresh VOdd ok)) (dict_of (fresh VShort (shortage_keys I))) []).
Definition site_decls (I : inst) : result (list (var * kind)) :=
  do sk <- site_decisions I ;
  do tk <- tdm_keys I ;
  do ok <- odd_keys I ;
  do sh <- shortage_decls I ;
  Ok (map (fun i => (VSite i, Binary)) sk
      ++ map (fun e => (flow_var e, Continuous 0 None)) (flow_keys I)
      ++ map (fun k => (tdm_var k, Continuous 0 (Some 1))) tk
      ++ map (fun i => (VOdd i, Binary)) ok ++ sh).
Definition site_constraints (I : inst) (V : tables) (adversarial : list edge) : result (list constr) :=
  do c1 <- create_colocated_site_relationship I V ;
  do c2 <- create_tdm_flow_relationship I V ;
  do c3 <- create_tdm_sector_relationship I V ;
  do c4 <- create_pop_load_constraints I V ;
  do c5 <- create_flow_balance_with_shortage I V ;
  do c6 <- create_flow_site_relationship I V ;
  do c7 <- no_flow_on I V adversarial ;
  do c8 <- create_tdm_polarity_relationship I V ;
  do c9 <- create_decided_site_constraints I V ;
  do c10 <- create_active_link_polarity_constraints I V ;
  do c11 <- create_inactive_link_flow_constraints I V ;
  Ok (c1 ++ c2 ++ c3 ++ c4 ++ c5 ++ c6 ++ c7 ++ c8 ++ c9 ++ c10 ++ c11).
(** what MinCostNetwork and MaxCoverageNetwork add (site_optimization.py 141-164), and what
    POPProposalNetwork adds (pop_proposal_optimization.py 247-251) *)
Inductive goal := CostUnderCoverage | CoverageUnderCost | CoverageUnderPops (number : nat).
Definition goal_constraint (g : goal) (I : inst) (V : tables) : result (list constr) :=
  match g with
  | CostUnderCoverage => create_coverage_constraint I V
  | CoverageUnderCost => create_cost_constraint I V
  | CoverageUnderPops n => create_pop_constraint I V n
  end.
Definition site_problem (g : goal) (adversarial : list edge) (I0 : inst) : result problem :=
  let I := with_channels 1 I0 in
  do V <- site_tables I ;
  do ds <- site_decls I ;
  do cs <- site_constraints I V adversarial ;
  do x <- goal_constraint g I V ;
  Ok (mkProblem ds (cs ++ x)).

(** ** MaxFlowNetwork (flow_optimization.py 72-205) *)
(** 72-117: candidate links carry nothing, redundant links have no capacity, the bound on the
    flow is the total POP capacity.  [candidates] are the sites and links of candidate status,
    [redundant] holds of the ends of redundant links (links of the topology, never of the
    imaginary ones). *)
Definition maxflow_inst (candidates : list edge) (redundant : edge -> bool) (I : inst) : inst :=
  let p := i_params I in
  mkInst (mkParams (p_pop_capacity p) (p_oversubscription p) 1 (p_ignore_polarities p) (p_always_active_pops p)
            (p_budget p) (p_coverage p) (p_common_bandwidth p) (p_capex p))
    (i_locations I) (i_type I) (i_set I) (i_geo I) (i_secs I) (i_sectype I) (i_node I) (i_demand I) (i_seccost I)
    (i_l2s I) (map (fun q => (fst q, if redundant (fst q) then 0 else snd q)) (i_cap I))
    (i_colocated I) (i_wired I) (i_existing_sites I) (i_proposed_sites I) (i_inactive_sites I)
    (i_existing_links I) (i_proposed_links I) (i_inactive_links I ++ candidates) (i_proposed_sectors I)
    (inject_Z (Z.of_nat (List.length (i_set I (Real POP)))) * p_pop_capacity p).
(** 163-181 *)
Definition maxflow_tables (I : inst) : result tables :=
  do sk <- site_decisions I ;
  do sec <- concatM (fun loc =>
      do secs <- get (i_secs I) loc ;
      concatM (fun a => do ty <- get (i_sectype I) a ;
        Ok (if imaginary_sec ty then []
            else [(loc, a, 0%nat, Cst (if mem a (match dget (i_proposed_sectors I) loc with Some l => l | None => [] end) then 1 else 0))])) secs)
    (i_locations I) ;
  do tk <- tdm_keys I ;
  Ok (mkTables (dict_of (map (fun i => (i, Cst (if mem i (i_proposed_sites I ++ i_existing_sites I) then 1 else 0))) sk))
        (dict_of sec) (dict_of (fresh flow_var (flow_keys I))) (dict_of (fresh tdm_var tk)) [] [] []).
(** 186-221 *)
Definition create_flow_balance_with_buffer (connected : list string) (I : inst) (V : tables) : result (list constr) :=
  concatM (fun loc =>
    do n <- net_flow I V loc ;
    match n with
    | None => Ok []
    | Some x =>
      do ty <- get (i_type I) loc ;
      Ok (match ty with
          | Demand => [Eq x (if mem loc connected then Var VBuffer else Cst 0)]
          | Supersource => [Le x (Cst 0)]
          | Real _ => [Eq x (Cst 0)]
          end)
    end) (i_locations I).
(** 128-147; [connected] is the set of demand sites reachable over active links *)
Definition maxflow_problem (candidates : list edge) (redundant : edge -> bool) (connected : list string) (I0 : inst)
  : result problem :=
  let I := maxflow_inst candidates redundant I0 in
  do V <- maxflow_tables I ;
  do tk <- tdm_keys I ;
  do c1 <- create_tdm_sector_relationship I V ;
  do c2 <- create_tdm_flow_relationship I V ;
  do c3 <- create_flow_site_relationship I V ;
  do c4 <- create_inactive_link_flow_constraints I V ;
  do c5 <- create_pop_load_constraints I V ;
  do c6 <- create_flow_balance_with_buffer connected I V ;
  Ok (mkProblem
        (map (fun e => (flow_var e, Continuous 0 None)) (flow_keys I)
         ++ map (fun k => (tdm_var k, Continuous 0 (Some 1))) tk ++ [(VBuffer, Continuous 0 None)])
        (c1 ++ c2 ++ c3 ++ c4 ++ c5 ++ c6)).
