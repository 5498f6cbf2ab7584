(** The losses of a link (terragraph_planner/common/rf/link_budget_calculator.py 40-86, 207-269), over exact reals instead of floats. *)
From Coq Require Import Reals List.
From Verif Require Import Base TopologyModel LosGeomModel.
Import ListNotations.
Local Open Scope R_scope.

(** [math.log10], [math.log(x, 10)]: ValueError outside the positive numbers *)
Definition py_log10 (x : R) : result R := if rlt 0 x then Ok (ln x / ln 10) else Err PyValueError.
(** [math.pow]; the exponents that occur are no integers when the base is negative *)
Definition py_pow (x y : R) : result R :=
  if rlt 0 x then Ok (Rpower x y)
  else if req x 0 then (if rlt 0 y then Ok 0 else if req y 0 then Ok 1 else Err PyValueError)
  else Err PyValueError.
Definition py_div (x y : R) : result R := if req y 0 then Err PyZeroDivision else Ok (x / y).
(** 27-32 *)
Definition mhz_to_ghz (x : R) : R := x / 1000.
(** 40-47; constants.py 14 *)
Definition fspl_margin : R := 9245 / 100.
Definition fspl (d_km f_ghz : R) : result R :=
  do lf <- py_log10 f_ghz ;
  if rle d_km (Rpower 10 (- fspl_margin / 20 - lf)) then Ok 0
  else do ld <- py_log10 d_km ; do lf <- py_log10 f_ghz ; Ok (20 * (ld + lf) + fspl_margin).
(** 60-86 *)
Definition get_net_gain (ag_tx al_tx d_km f_ghz : R) (ag_rx al_rx : option R) (el : R) : result R :=
  let al_rx := match al_rx with None => al_tx | Some x => x end in
  let ag_rx := match ag_rx with None => ag_tx | Some x => x end in
  do l <- fspl d_km f_ghz ; Ok (ag_tx - al_tx + ag_rx - al_rx - l - el).
(** 207-248 *)
Definition compute_rain_loss (dist_km rain_rate availability carrier : R) : result R :=
  if rle dist_km 0 then Ok 0
  else
    let f := mhz_to_ghz carrier in
    let p := 100 - availability in
    let alpha := 7486 / 10000 in
    do g <- py_pow rain_rate alpha ;
    let a := 8515 / 10000 * g * dist_km in
    do x1 <- py_pow dist_km (633 / 1000) ; do x2 <- py_pow rain_rate (73 / 1000 * alpha) ; do x3 <- py_pow f (123 / 1000) ;
    do r <- py_div 1 (477 / 1000 * x1 * x2 * x3 - 10579 / 1000 * (1 - exp (- (24 / 1000) * dist_km))) ;
    let r := Rmin r (5 / 2) in
    let a_001 := a * r in
    do x4 <- py_pow (f / 10) (8 / 10) ; do l <- py_log10 x4 ;
    let c0 := 12 / 100 + 4 / 10 * l in
    do y1 <- py_pow (7 / 100) c0 ; do y2 <- py_pow (12 / 100) (1 - c0) ;
    let c1 := y1 * y2 in
    let c2 := 855 / 1000 * c0 + 546 / 1000 * (1 - c0) in
    let c3 := 139 / 1000 * c0 + 43 / 1000 * (1 - c0) in
    do lp <- py_log10 p ; do z <- py_pow p (- (c2 + c3 * lp)) ;
    Ok (Rmax (a_001 * c1 * z) 0).
(** constants.py 31-49 *)
Definition oxygen_map : list (R * R) :=
  [(52, 0); (53, 1); (54, 22/10); (55, 4); (56, 66/10); (57, 97/10); (58, 126/10); (59, 146/10); (60, 15); (61, 146/10); (62, 143/10); (63, 105/10); (64, 68/10); (65, 39/10); (66, 19/10); (67, 1); (68, 0)].
(** [np.interp] with [left = right = 0] *)
Fixpoint between (x : R) (l : list (R * R)) : R :=
  match l with
  | [] => 0
  | (x1, y1) :: rest =>
    match rest with
    | [] => if req x x1 then y1 else 0
    | (x2, y2) :: _ => if rlt x x2 then (y2 - y1) / (x2 - x1) * (x - x1) + y1 else between x rest
    end
  end.
Definition interp (x : R) (l : list (R * R)) : R := match l with [] => 0 | (x0, _) :: _ => if rlt x x0 then 0 else between x l end.
(** 251-269 *)
Definition compute_oxygen_loss (dist_km carrier : R) : R := interp (mhz_to_ghz carrier) oxygen_map * dist_km.
(** 272-343, for given antenna gains *)
Definition fspl_based_net_gain (dist_m carrier rain availability tx_gain tx_loss rx_gain rx_loss : R) : result R :=
  let f := mhz_to_ghz carrier in
  let d := dist_m / 1000 in
  do rain_loss <- compute_rain_loss d rain availability carrier ;
  let oxygen_loss := compute_oxygen_loss d carrier in
  get_net_gain tx_gain tx_loss d f (Some rx_gain) (Some rx_loss) (rain_loss + oxygen_loss).
