(** Simulated availability (terragraph_planner/optimization/topology_availability.py).
    Times are exact rationals. *)
From Coq Require Import ZArith QArith.
From Verif Require Import Base Dict TopologyModel SetupModel LosRangeModel NxModel.
Local Open Scope string_scope.
Local Open Scope list_scope.

(** 83-85: [_FAILED = 0, _REPAIRED = 1, _SIM_END = 2] *)
Definition event := (Q * (string * string) * nat)%type.
(** Python's comparison of tuples *)
Definition pair_ltb (a b : string * string) : bool := str_ltb (fst a) (fst b) || (beq (fst a) (fst b) && str_ltb (snd a) (snd b)).
Definition event_ltb (a b : event) : bool :=
  let '(ta, ka, ya) := a in
  let '(tb, kb, yb) := b in
  negb (Qle_bool tb ta) || (Qeq_bool ta tb && (pair_ltb ka kb || (beq ka kb && (ya <? yb)%nat))).
Definition backhaul (ty : option etype) : bool := match ty with Some (ELink WIRELESS_BACKHAUL) => true | _ => false end.

Section Sim.
(** the standard exponential numbers drawn in the n-th round for a link: [rng.exponential(s)] is [s] times one of them *)
Variable draw : string * string -> nat -> Q * Q.
(** whether the time limit has passed after the n-th event; without a limit always [false] *)
Variable over : nat -> bool.

(** 107-115; the loop runs until the drawn times exceed the length of the simulation *)
Fixpoint schedule (fuel n : nat) (key : string * string) (mttf mttr sim curr : Q) : result (list event) :=
  if Qle_bool sim curr then Ok []
  else
    match fuel with
    | O => Err OutOfFuel
    | S fuel =>
      let fail := (curr + mttf * fst (draw key n))%Q in
      let repair := (fail + mttr * snd (draw key n))%Q in
      do l <- schedule fuel (S n) key mttf mttr sim repair ;
      Ok ((fail, key, 0%nat) :: (repair, key, 1%nat) :: l)
    end.
(** 90-117 *)
Definition collect_step (fuel : nat) (g : graph) (mttf mttr sim : Q) (s : list (string * string) * list event) (e : string * string * option etype)
  : result (list (string * string) * list event) :=
  let '(u, v, ty) := e in
  if negb (backhaul ty) then Ok s
  else
    let key := sorted_edge u v in
    if mem key (fst s) then Ok s
    else if has_edge g v u then
      do l <- schedule fuel 0 key mttf mttr sim 0 ;
      Ok (sadd key (fst s), snd s ++ l)
    else Err OptExn.
(** 184-187 *)
Definition rescale (sim time : Q) (a : dict string Q) : result (dict string Q) :=
  match a with
  | [] => Ok []
  | _ => if Qeq_bool time 0 then Err PyZeroDivision else Ok (map (fun q => (fst q, (snd q * sim / time)%Q)) a)
  end.
(** 127-192.  [heapq] returns the events in sorted order, as none is added any more: the argument is the sorted list.
    The keys of [a] are the connected demand sites. *)
Fixpoint simulate (sim : Q) (n : nat) (l : list event) (last : Q) (c : graph) (missing : list (string * string)) (a : dict string Q) (la : dict (string * string) Q)
  : result (dict string Q * dict (string * string) Q) :=
  match l with
  | [] => Ok (a, la)
  | (time, (u, v), ty) :: l =>
    if negb (Qle_bool time sim) then Err OptExn
    else
      let dT := ((time - last) / sim)%Q in
      do des <- descendants c ;
      let a := map (fun q => (fst q, if mem (fst q) des then (snd q + dT)%Q else snd q)) a in
      let la := map (fun q => (fst q, if mem (fst q) missing then snd q else (snd q + dT)%Q)) la in
      match ty with
      | 1%nat =>
        let c := add_edge (add_edge c u v no_attr) v u no_attr in
        if mem (u, v) missing then
          if over n then do a <- rescale sim time a ; Ok (a, la)
          else simulate sim (S n) l time c (discard (u, v) missing) a la
        else Err OptExn
      | 0%nat =>
        do c <- remove_edge c u v ;
        do c <- remove_edge c v u ;
        if mem (u, v) missing then Err OptExn
        else
          if over n then do a <- rescale sim time a ; Ok (a, la)
          else simulate sim (S n) l time c (sadd (u, v) missing) a la
      | 2%nat => Ok (a, la)
      | _ => Err OptExn
      end
  end.
(** 29-195 *)
Definition compute_availability (fuel : nat) (g : graph) (link_availability sim : Q) : result (dict string Q * dict (string * string) Q) :=
  if negb (Qle_bool 0 link_availability && Qle_bool link_availability 100) then Err OptExn
  else if Qle_bool sim 0 then Err OptExn
  else
    do demands <- find_connected_demands g ;
    let a := map (fun d => (d, 0%Q)) demands in
    let la := fold_left (fun d e => let '(u, v, ty) := e in if backhaul ty then dset d (sorted_edge u v) 0%Q else d) (edges g) [] in
    let mttf := (link_availability / 100)%Q in
    let mttr := (1 - mttf)%Q in
    do s <- foldM (collect_step fuel g mttf mttr sim) ([], []) (edges g) ;
    simulate sim 0 (sort_by event_ltb ((sim, ("", ""), 2%nat) :: snd s)) 0 g [] a la.
End Sim.
