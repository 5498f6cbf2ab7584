(** Transmit power control (terragraph_planner/optimization/topology_operations.py 507-616) and the link budgets it starts from
    (topology_preparation.py 66-144).  Finite floats are exact rationals. *)
From Coq Require Import QArith.
From Verif Require Import Base Dict SetupModel LosRangeModel TopologyModel RfModel.
Local Open Scope Q_scope.
Local Open Scope list_scope.

(** Floats with infinities and NaN *)
Inductive num := Fin (q : Q) | NInf | PInf | NaN.
Definition nadd (a b : num) : num :=
  match a, b with
  | Fin x, Fin y => Fin (x + y)
  | NaN, _ | _, NaN | NInf, PInf | PInf, NInf => NaN
  | NInf, _ | _, NInf => NInf
  | _, _ => PInf
  end.
Definition nopp (a : num) : num := match a with Fin x => Fin (- x) | NInf => PInf | PInf => NInf | NaN => NaN end.
Definition nsub (a b : num) : num := nadd a (nopp b).
Definition nle (a b : num) : bool :=
  match a, b with
  | NaN, _ | _, NaN => false
  | Fin x, Fin y => Qle_bool x y
  | NInf, _ | _, PInf => true
  | _, _ => false
  end.
Definition nlt (a b : num) : bool := nle a b && negb (nle b a).
(** Python's [max(a, b)]: [b] if [b > a] else [a] *)
Definition nmax (a b : num) : num := if nlt a b then b else a.

(** math.isclose with the default relative tolerance 1e-9 and abs_tol=EPSILON (optimization/constants.py 11) *)
Definition qabs (x : Q) : Q := if Qle_bool 0 x then x else - x.
Definition close_q (x y : Q) : bool :=
  Qle_bool (qabs (x - y)) (qmax2 ((1 # 1000000000) * qmax2 (qabs x) (qabs y)) (1 # 100000)).
Definition is_close (a b : num) : bool :=
  match a, b with
  | Fin x, Fin y => close_q x y
  | NInf, NInf | PInf, PInf => true
  | _, _ => false
  end.

(** link_budget_calculator.py 452-468 *)
Definition mcs_of (s : num) (t : list mcsrow) : result nat :=
  match s with
  | Fin q => get_mcs_from_snr (Some q) t
  | NaN => get_mcs_from_snr None t
  | NInf => do _ <- py_min_q (map snd (mcs_snr_mapping t)) ; Ok 0%nat
  | PInf => do _ <- py_min_q (map snd (mcs_snr_mapping t)) ; py_max_n (map fst (mcs_snr_mapping t))
  end.
(** link_budget_calculator.py 401-426 *)
Fixpoint adjust_power (m : nat) (t : list mcsrow) (minimum : option Q) (max_tx : Q) (gain noise : num) : result (nat * num) :=
  match m with
  | O => Ok (0%nat, NInf)
  | S m' =>
    do snr <- get_snr_from_mcs m t ;
    let p := nsub (nadd (Fin snr) noise) gain in
    let p := match minimum with None => p | Some q => nmax (Fin q) p end in
    if nle p (Fin (max_tx - get_backoff_from_mcs m t)) then Ok (m, p)
    else adjust_power m' t minimum max_tx gain noise
  end.

(** LinkBudgetMeasurements, common/structs.py 94-108 *)
Record meas := mkMeas { x_mcs : nat; x_rsl : num; x_snr : num; x_cap : Q; x_tx : num; x_sinr : num }.
(** the constructor sets [sinr_dbm] to [snr_dbm] *)
Definition new_meas (m : nat) (rsl snr : num) (cap : Q) (tx : num) : meas := mkMeas m rsl snr cap tx snr.
Definition of_budget (b : budget) : meas := new_meas (b_mcs b) (Fin (b_rsl b)) (Fin (b_snr b)) (b_capacity b) (Fin (b_tx b)).
(** the measurements of the links by link id *)
Definition state := string -> meas.
Definition upd (s : state) (k : string) (m : meas) : state := fun j => if beq j k then m else s j.

Section Control.
(** per link: the MCS table and noise power of the receiver's device, the smallest and largest power of the sender's device
    and the net gain of the path with the deviations of the link *)
Variables (table : link -> list mcsrow) (minimum : link -> option Q) (max_power noise gain : link -> Q) (pop_capacity : Q).
(** noise and interference in dBm on a link, given the powers of all links (topology_interference.py 130-141 and 144-189,
    modelled in InterfModel.v) *)
Variable received : (string -> num) -> string -> Q.
Variable links : list link.

Definition wired (l : link) : bool := beq (l_type l) ETHERNET.
(** topology_preparation.py 66-144 with deviations *)
Definition add_capacity (s : state) (l : link) : result state :=
  if wired l then Ok (upd s (l_id l) (new_meas 0 NInf NInf pop_capacity NInf))
  else if is_out_of_sector l then Ok (upd s (l_id l) (new_meas 0 NInf NInf 0 NInf))
  else do b <- link_budget (max_power l) (minimum l) (gain l) (noise l) (table l) ; Ok (upd s (l_id l) (of_budget b)).
Definition add_link_capacities (s : state) : result state := foldM add_capacity s links.

(** topology_interference.py 114-141: active wireless links *)
Definition live (l : link) : bool := active (l_status l) && negb (wired l).
Definition set_sinr (m : meas) (v : num) : meas := mkMeas (x_mcs m) (x_rsl m) (x_snr m) (x_cap m) (x_tx m) v.
Definition is_ninf (a : num) : bool := match a with NInf => true | _ => false end.
Definition sinr_step (powers : string -> num) (s : state) (l : link) : state :=
  if live l then
    let m := s (l_id l) in
    upd s (l_id l) (set_sinr m (if is_ninf (x_rsl m) then NInf else nsub (x_rsl m) (Fin (received powers (l_id l)))))
  else s.
Definition analyze (s : state) : state := fold_left (sinr_step (fun k => x_tx (s k))) links s.

(** 556-592, for one link; the number counts stable powers *)
Definition power_step (net : string -> num) (q : state * nat) (l : link) : result (state * nat) :=
  let (s, count) := q in
  let k := l_id l in
  let m := s k in
  do level <- mcs_of (x_sinr m) (table l) ;
  let cap := get_link_capacity_from_mcs level (table l) in
  let n_and_i := nsub (x_rsl m) (x_sinr m) in
  do mp <- adjust_power level (table l) (minimum l) (max_power l) (net k) n_and_i ;
  let rsl := nadd (snd mp) (net k) in
  let snr := nsub rsl (Fin (noise l)) in
  Ok (upd s k (mkMeas (fst mp) rsl snr cap (snd mp) (x_sinr m)),
      if is_close (snd mp) (x_tx m) then S count else count).
Definition round (net : string -> num) (s : state) : result (state * nat) :=
  foldM (power_step net) (analyze s, 0%nat) (filter live links).
(** 550-602; [true]: the loop ended because all powers were stable *)
Fixpoint iterate (n : nat) (net : string -> num) (s : state) : result (state * bool) :=
  match n with
  | O => Ok (s, false)
  | S n' =>
    do q <- round net s ;
    if (snd q =? List.length (filter live links))%nat then Ok (fst q, true) else iterate n' net (fst q)
  end.
(** 604-616 *)
Definition final_step (s : state) (l : link) : result state :=
  if wired l then Ok s
  else
    let m := s (l_id l) in
    do level <- mcs_of (x_sinr m) (table l) ;
    Ok (upd s (l_id l) (mkMeas level (x_rsl m) (x_snr m) (get_link_capacity_from_mcs level (table l)) (x_tx m) (x_sinr m))).
(** 507-616 *)
Definition power_control (max_iterations : Z) (s : state) : result (state * bool) :=
  do _ <- guard (1 <=? max_iterations)%Z OptExn ;
  do s <- add_link_capacities s ;
  let net := fun k => nsub (x_rsl (s k)) (x_tx (s k)) in
  do q <- (match filter live links with [] => Ok (s, false) | _ => iterate (Z.to_nat max_iterations) net s end) ;
  do s <- foldM final_step (analyze (fst q)) links ;
  Ok (s, snd q).
End Control.
