(** Reading the answer of the solver: SiteOptimization.extract_solution
    (optimization/ilp_models/site_optimization.py 184-461 and the helpers it uses from
    network_optimization.py).  Decisions are the integers 0 and 1.  The values of the solver are the
    rationals [v]; the case of a solver that found nothing is left out.  The sets of sites and of
    (site, sector) pairs with active links are lists, of which only membership is used. *)
From Coq Require Import QArith Qabs.
From Verif Require Import Base Dict TopologyModel RfModel SetupModel PruneModel IlpModel.
Local Open Scope Q_scope.

Record solution := mkSolution {
  o_site : dict string Z; o_sector : dict edge Z; o_link : dict edge Z;
  o_odd : dict string Z; o_even : dict string Z; o_channel : dict edge Z;
  o_tdm : dict edge Q; o_flow : dict edge Q; o_short : dict string Q; o_cost : Q }.

Fixpoint foldM {A S} (f : S -> A -> result S) (l : list A) (s : S) : result S :=
  match l with [] => Ok s | x :: r => do s' <- f s x ; foldM f r s' end.

(** network_optimization.py 990-991 *)
Definition get_binary_value (q : Q) : Z := if gtb q (1 - epsilon) then 1%Z else 0%Z.
(** 994-1008 *)
Definition values {K} (v : var -> Q) (d : dict K expr) : dict K Q := map (fun p => (fst p, eval v (snd p))) d.
Definition binary_values {K} (v : var -> Q) (d : dict K expr) : dict K Z := map (fun p => (fst p, get_binary_value (eval v (snd p)))) d.
(** [math.isclose(q, 0, abs_tol=EPSILON)] *)
Definition near_zero (q : Q) : bool := Qle_bool (Qabs q) epsilon.

(** site, odd and even decisions *)
Record choice := mkChoice { c_site : dict string Z; c_odd : dict string Z; c_even : dict string Z }.
Definition drop (polar : bool) (st : choice) (loc : string) : choice :=
  if polar then mkChoice (dset (c_site st) loc 0%Z) (dset (c_odd st) loc 0%Z) (dset (c_even st) loc 0%Z)
  else mkChoice (dset (c_site st) loc 0%Z) (c_odd st) (c_even st).

Section Extract.
Variable I : inst.
Variable V : tables.
Variable v : var -> Q.
(** the value of the common bandwidth variable, if the model has one *)
Variable common : option Q.
Let ps := i_params I.
Let polar := negb (p_ignore_polarities ps).

(** site_optimization.py 310-325 *)
Definition split_polarities (site odd : dict string Z) : result choice :=
  do l <- mapM (fun p => do s <- get site (fst p) ;
                         Ok (fst p, if Z.eqb s 0 then (0%Z, 0%Z) else (snd p, (1 - snd p)%Z))) odd ;
  Ok (mkChoice site (map (fun q => (fst q, fst (snd q))) l) (map (fun q => (fst q, snd (snd q))) l)).

(** 352-355 *)
Definition forced_active : list string :=
  i_proposed_sites I ++ i_existing_sites I ++ flat_map (fun e => [fst e; snd e]) (i_proposed_links I ++ i_existing_links I).
Definition flow_through (fl : dict edge Q) (es : list edge) : result Q :=
  do l <- mapM (get fl) es ; Ok (fold_left Qplus l 0).
(** 357-376: a site that carries nothing and is not forced *)
Definition deselect (fl : dict edge Q) (st : choice) (loc : string) : result choice :=
  do ty <- get (i_type I) loc ;
  if imaginary ty then Ok st
  else
    do s <- get (c_site st) loc ;
    if Z.eqb s 0 || mem loc forced_active then Ok st
    else
      do ei <- incoming I loc ;
      do a <- flow_through fl ei ;
      do eo <- outgoing I loc ;
      do b <- flow_through fl eo ;
      Ok (if near_zero a && near_zero b then drop polar st loc else st).

(** 219-234 *)
Definition sector_decisions (site : dict string Z) : result (dict edge Z) :=
  do l <- concatM (fun loc =>
      do ty <- get (i_type I) loc ;
      if imaginary ty then Ok []
      else
        do secs <- get (i_secs I) loc ;
        concatM (fun a => do st <- get (i_sectype I) a ;
                          if imaginary_sec st then Ok [] else do s <- get site loc ; Ok [((loc, a), s)]) secs)
      (i_locations I) ;
  Ok (dict_of l).

(** 184-216 *)
Definition compatible_polarity (odd : dict string Z) (e : edge) : result bool :=
  if mem e (i_existing_links I ++ i_proposed_links I) || mem e (i_wired I) then Ok true
  else
    do t1 <- get (i_type I) (fst e) ;
    do t2 <- get (i_type I) (snd e) ;
    let value i := match dget odd i with Some z => z | None => 0%Z end in
    Ok (if dist t1 && dist t2 then negb (Z.eqb (value (fst e)) (value (snd e))) else true).
Definition sector_value (sec : dict edge Z) (loc a : string) : Z := match dget sec (loc, a) with Some z => z | None => 0%Z end.
(** 254-294: the decision for one link *)
Definition link_decision (site odd : dict string Z) (sec : dict edge Z) (e : edge) : result Z :=
  do t1 <- get (i_type I) (fst e) ;
  do t2 <- get (i_type I) (snd e) ;
  if imaginary t1 || imaginary t2 then Ok 0%Z
  else if mem e (i_inactive_links I) then Ok 0%Z
  else
    do cap <- get (i_cap I) e ;
    if Qle_bool cap 0 then Ok 0%Z
    else
      do compat <- (if polar then compatible_polarity odd e else Ok true) ;
      if negb compat then Ok 0%Z
      else
        do s1 <- get site (fst e) ;
        do s2 <- get site (snd e) ;
        if negb (Z.eqb s1 1 && Z.eqb s2 1) then Ok 0%Z
        else if mem e (i_wired I) then Ok 1%Z
        else
          match dget (i_l2s I) e with
          | Some (Some a, Some b) =>
            Ok (if Z.eqb (sector_value sec (fst e) a + sector_value sec (snd e) b) 2 then 1%Z else 0%Z)
          | _ => Err OptExn
          end.
Definition link_decisions (site odd : dict string Z) (sec : dict edge Z) : result (dict edge Z) :=
  do l <- mapM (fun e => do z <- link_decision site odd sec e ; Ok (e, z)) (i_links I) ; Ok (dict_of l).

Definition is_active (links : dict edge Z) (e : edge) : bool := match dget links e with Some z => Z.eqb z 1 | None => false end.
(** network_optimization.py 1010-1021 *)
Definition sites_with_active_links (links : dict edge Z) : list string :=
  flat_map (fun e => if is_active links e then [fst e; snd e] else []) (i_links I).
(** 1023-1050: all sectors on the node of the sector [a] of [loc] *)
Definition node_sectors (loc : string) (a : option string) : result (list edge) :=
  match a with
  | None => Ok []
  | Some sec =>
    do ty <- get (i_sectype I) sec ;
    if imaginary_sec ty then Ok []
    else
      do n <- get (i_node I) sec ;
      do others <- get (i_secs I) loc ;
      concatM (fun o => do ty' <- get (i_sectype I) o ;
                        if imaginary_sec ty' then Ok []
                        else do n' <- get (i_node I) o ; Ok (if Nat.eqb n n' then [(loc, o)] else [])) others
  end.
Definition sectors_with_active_links (links : dict edge Z) : result (list edge) :=
  concatM (fun e =>
    if is_active links e then
      do s <- get (i_l2s I) e ;
      do x <- node_sectors (fst e) (fst s) ;
      do y <- node_sectors (snd e) (snd s) ;
      Ok (x ++ y)
    else Ok []) (i_links I).
(** site_optimization.py 399-405: sites serving demand *)
Definition serving_sites (site : dict string Z) : result (list string) :=
  concatM (fun e =>
    do t2 <- get (i_type I) (snd e) ;
    match t2 with
    | Demand => do s <- get site (fst e) ; Ok (if Z.eqb s 1 then [fst e] else [])
    | _ => Ok []
    end) (i_links I).
(** 407-421 *)
Definition settle (sites : list string) (secs : list edge) (acc : choice * dict edge Z) (loc : string)
  : result (choice * dict edge Z) :=
  do ty <- get (i_type I) loc ;
  if imaginary ty then Ok acc
  else
    do here <- get (i_secs I) loc ;
    do off <- concatM (fun a => do st <- get (i_sectype I) a ;
                                Ok (if imaginary_sec st then [] else if mem (loc, a) secs then [] else [a])) here ;
    Ok (if mem loc sites then fst acc else drop polar (fst acc) loc,
        fold_left (fun d a => dset d (loc, a) 0%Z) off (snd acc)).

(** 423-434 *)
Definition tdm_decisions : result (dict edge Q) :=
  do l <- mapM (fun p => if Nat.eqb (snd (fst p)) 0 then Ok (fst (fst p), snd p) else Err OptExn) (values v (v_tdm V)) ;
  Ok (dict_of l).
(** network_optimization.py 735-760 on numbers *)
Definition solution_cost (site : dict string Z) (sec : dict edge Z) : result Q :=
  do l <- mapM (fun loc =>
      do ty <- get (i_type I) loc ;
      match ty with
      | Real k =>
        if mem loc (i_existing_sites I) then Ok 0
        else
          do s <- get site loc ;
          do secs <- get (i_secs I) loc ;
          do qs <- mapM (fun a =>
              do st <- get (i_sectype I) a ;
              if imaginary_sec st then Ok 0
              else do q <- get (i_seccost I) (loc, a) ; do z <- get sec (loc, a) ; Ok (q * inject_Z z)) secs ;
          Ok (fold_left Qplus qs (p_capex ps k * inject_Z s))
      | _ => Ok 0
      end) (i_locations I) ;
  Ok (fold_left Qplus l 0).

(** 296-459; [None] is the degenerate solution *)
Definition extract_solution : result (option solution) :=
  let site0 := binary_values v (v_site V) in
  do st0 <- split_polarities site0 (if polar then binary_values v (v_odd V) else []) ;
  do fl <- prune_loops (i_links I) (i_locations I) (values v (v_flow V)) ;
  if near_zero (fold_left Qplus (dvals fl) 0) then
    do _ <- guard (match common with None => true | Some q => Qeq_bool q 0 end) OptExn ;
    Ok None
  else
    do st <- foldM (deselect fl) (i_locations I) st0 ;
    do sec <- sector_decisions (c_site st) ;
    do links <- link_decisions (c_site st) (c_odd st) sec ;
    do on <- sectors_with_active_links links ;
    do serving <- serving_sites (c_site st) ;
    do fin <- foldM (settle (sites_with_active_links links ++ serving) on) (i_locations I) (st, sec) ;
    do tdm <- tdm_decisions ;
    do cost <- solution_cost (c_site (fst fin)) (snd fin) ;
    Ok (Some (mkSolution (c_site (fst fin)) (snd fin) links (c_odd (fst fin)) (c_even (fst fin))
                (map (fun p => (fst p, if Z.eqb (snd p) 1 then 0%Z else (-1)%Z)) sec)
                tdm fl (values v (v_short V)) cost)).
End Extract.

(** the whole run on the values [v] of the solver: SiteOptimization has one channel *)
Definition extract (common : option Q) (I0 : inst) (v : var -> Q) : result (option solution) :=
  let I := with_channels 1 I0 in
  do V <- site_tables I ; extract_solution I V v common.
