(** NetworkOptimization.prune_loops (optimization/ilp_models/network_optimization.py 895-988).
    Flows are exact rationals.  The recursion depth and the inner [while] are bounded by fuel;
    C15 shows that the bounds chosen in [prune_loops] are never reached. *)
From Coq Require Import QArith Qabs.
From Verif Require Import Base Dict RfModel.
Local Open Scope Q_scope.

Notation edge := (string * string)%type.
(** optimization/constants.py: EPSILON = 1e-5 *)
Definition epsilon : Q := 1 # 100000.
Definition gtb (x y : Q) : bool := negb (Qle_bool x y).

(** the mutable variables [flows] and [is_loop_free] *)
Record pstate := mkP { p_flows : dict edge Q; p_free : dict string bool }.
Definition p_reduce (st : pstate) (e : edge) (x r : Q) : pstate := mkP (dset (p_flows st) e (x - r)) (p_free st).

(** 905-907: successors of [i] in the order of the flow dictionary *)
Definition succs (fl : dict edge Q) (i : string) : list string :=
  map snd (filter (fun e => beq (fst e) i) (dkeys fl)).

Definition answer : Type := option (string * Q).     (* (k, reduce_flow); None is (None, inf) *)
Definition lower_all (m : dict string Q) (x : Q) : dict string Q := map (fun p => (fst p, qmin2 (snd p) x)) m.

Section Layer.
(** the recursive call and the bound on the number of iterations of [while] *)
Variable rec : string -> dict string Q -> pstate -> result (answer * pstate).
Variable bound : nat.
Variable i : string.

(** 931-967: the [while k is not None] loop for the edge (i, j); [None] in the first component
    means the search goes on with the next successor *)
Fixpoint again (n : nat) (j : string) (latest : dict string Q) (st : pstate) : result (option (string * Q) * pstate) :=
  match n with
  | O => Err OutOfFuel
  | S n' =>
    do r <- rec j latest st ;
    let '(a, st1) := r in
    match a with
    | None => Ok (None, st1)
    | Some (k, red) =>
      match dget (p_flows st1) (i, j) with
      | None => Err PyKeyError
      | Some x =>
        let st2 := p_reduce st1 (i, j) x red in
        if negb (beq k i) then Ok (Some (k, red), st2)
        else
          match dget (p_free st2) j with
          | None => Err PyKeyError
          | Some fr =>
            if gtb epsilon (Qabs (x - red)) || fr then Ok (None, st2)
            else again n' j (lower_all latest (x - red)) st2
          end
      end
    end
  end.

(** 911-972: the [for j] loop *)
Fixpoint each (mins : dict string Q) (js : list string) (st : pstate) : result (answer * pstate) :=
  match js with
  | [] => Ok (None, mkP (p_flows st) (dset (p_free st) i true))
  | j :: js' =>
    match dget (p_flows st) (i, j) with
    | None => Err PyKeyError
    | Some x =>
      if negb (gtb x epsilon) then each mins js' st
      else match dget (p_free st) j with
      | None => Err PyKeyError
      | Some true => each mins js' st
      | Some false =>
        let latest := dset (lower_all mins x) i x in
        match dget mins j with
        | Some _ =>
          match dget latest j with
          | None => Err PyKeyError
          | Some m => Ok (Some (j, m), p_reduce st (i, j) x m)
          end
        | None =>
          do r <- again bound j latest st ;
          let '(a, st') := r in
          match a with
          | Some kr => Ok (Some kr, st')
          | None => each mins js' st'
          end
        end
      end
    end
  end.
End Layer.

(** 910-972 *)
Fixpoint prune (fuel bound : nat) (succ : string -> list string) (i : string) (mins : dict string Q) (st : pstate)
  : result (answer * pstate) :=
  match fuel with
  | O => Err OutOfFuel
  | S f => each (prune f bound succ) bound i mins (succ i) st
  end.

(** 975-977 *)
Fixpoint until_free (n : nat) (call : pstate -> result (answer * pstate)) (loc : string) (st : pstate) : result pstate :=
  match dget (p_free st) loc with
  | None => Err PyKeyError
  | Some true => Ok st
  | Some false =>
    match n with
    | O => Err OutOfFuel
    | S n' => do r <- call st ; until_free n' call loc (snd r)
    end
  end.
Fixpoint all_locations (depth bound : nat) (succ : string -> list string) (locs : list string) (st : pstate) : result pstate :=
  match locs with
  | [] => Ok st
  | loc :: r =>
    do st' <- until_free bound (prune depth bound succ loc []) loc st ;
    all_locations depth bound succ r st'
  end.

(** 895-988: [links] and [locations] are the attributes of the optimiser *)
Definition prune_loops (links : list edge) (locations : list string) (flows : dict edge Q) : result (dict edge Q) :=
  let free := fold_left (fun d l => dset d l false) locations [] in
  do st <- all_locations (S (List.length locations)) (S (List.length flows)) (succs flows) (dkeys free) (mkP flows free) ;
  Ok (fold_left (fun d p => dset d (fst p) (snd p)) (p_flows st) (fold_left (fun d l => dset d l 0) links [])).
