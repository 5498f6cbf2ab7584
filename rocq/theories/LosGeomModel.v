(** The two line-of-sight models (terragraph_planner/los/base_los_validator.py, cylindrical_los_validator.py,
    ellipsoidal_los_validator.py, fresnel_zone.py), over exact reals instead of floats.  Whether a line
    meets an exclusion zone is left to shapely: a zone is a test on the two ends of a line. *)
From Coq Require Import Reals.
From Verif Require Import Base ElevModel.
Local Open Scope R_scope.

Definition rle (a b : R) : bool := if Rle_dec a b then true else false.
Definition rlt (a b : R) : bool := if Rlt_dec a b then true else false.
Definition req (a b : R) : bool := if Req_EM_T a b then true else false.

(** common/topology_models/site.py 249-258; the location type is ROOFTOP or not *)
Record lsite := mkLSite { ls_x : R; ls_y : R; ls_alt : option R; ls_rooftop : bool; ls_building : option Z }.
Notation zone := (R * R -> R * R -> bool).

Section Validator.
(** base_los_validator.py 26-60 *)
Variable surface : option elev.
Variables max_los_distance min_los_distance max_el_dev threshold : R.
Variable exclusion_zones : list zone.
Definition new_validator : result unit :=
  if rlt 0 min_los_distance && rlt min_los_distance max_los_distance then
    if rle 0 max_el_dev && rle max_el_dev 90 then
      if rle 0 threshold && rle threshold 1 then Ok tt else Err LOSExn
    else Err LOSExn
  else Err LOSExn.
(** 66-74 *)
Definition comp_los_distance (s1 s2 : lsite) : R :=
  let x := ls_x s1 - ls_x s2 in
  let y := ls_y s1 - ls_y s2 in
  let z := match ls_alt s1, ls_alt s2 with Some a, Some b => a - b | _, _ => 0 end in
  sqrt (x * x + y * y + z * z).
(** 107-147 *)
Definition same_xy (s1 s2 : lsite) : bool := req (ls_x s1) (ls_x s2) && req (ls_y s1) (ls_y s2).
Definition on_the_same_building (s1 s2 : lsite) : bool :=
  ls_rooftop s1 && ls_rooftop s2 && match ls_building s1, ls_building s2 with None, None => true | Some a, Some b => Z.eqb a b | _, _ => false end.
Definition out_of_distance_range (d : R) : bool := negb (rle min_los_distance d && rle d max_los_distance).
Definition degrees (x : R) : R := x * 180 / PI.
Definition exceed_max_el_dev (d : R) (alt1 alt2 : option R) : bool :=
  match alt1, alt2 with Some a, Some b => rlt max_el_dev (degrees (asin (Rabs (a - b) / d))) | _, _ => false end.
Definition intersects_with_exclusion_zones (s1 s2 : lsite) : bool :=
  existsb (fun z => z (ls_x s1, ls_y s1) (ls_x s2, ls_y s2)) exclusion_zones.
(** 76-105 *)
Definition passes_simple_checks (s1 s2 : lsite) : bool :=
  if same_xy s1 s2 then false
  else if on_the_same_building s1 s2 then false
  else let d := comp_los_distance s1 s2 in
  if out_of_distance_range d then false
  else if exceed_max_el_dev d (ls_alt s1) (ls_alt s2) then false
  else if intersects_with_exclusion_zones s1 s2 then false
  else true.
(** 149-177 *)
Definition corner_offsets (x1 y1 x2 y2 r : R) : R * R :=
  if rle (Rabs (y2 - y1)) (Rabs (x2 - x1))
  then let slope := (y2 - y1) / (x2 - x1) in let oy := r / sqrt (1 + slope * slope) in (oy * slope, oy)
  else let slope := (x2 - x1) / (y2 - y1) in let ox := r / sqrt (1 + slope * slope) in (ox, ox * slope).
Definition four_corners (x1 y1 x2 y2 r : R) : (R * R) * (R * R) * (R * R) * (R * R) :=
  let (ox, oy) := corner_offsets x1 y1 x2 y2 r in
  ((x1 + ox, y1 - oy), (x1 - ox, y1 + oy), (x2 + ox, y2 - oy), (x2 - ox, y2 + oy)).
Definition min4 (a b c d : R) : R := Rmin (Rmin (Rmin a b) c) d.
Definition max4 (a b c d : R) : R := Rmax (Rmax (Rmax a b) c) d.

(** ** cylinder *)
Variable fresnel_radius : R.
(** cylindrical_los_validator.py 203-224 *)
Definition in_rectangle (p pq pr : R * R) (x y : R) : bool :=
  let mx := x - fst p in let my := y - snd p in
  rle 0 (mx * fst pq + my * snd pq) && rle (mx * fst pq + my * snd pq) (fst pq * fst pq + snd pq * snd pq) &&
  rle 0 (mx * fst pr + my * snd pr) && rle (mx * fst pr + my * snd pr) (fst pr * fst pr + snd pr * snd pr).
(** 100: stable sort, highest first *)
Fixpoint insert_high (p : pt3) (l : list pt3) : list pt3 :=
  match l with [] => [p] | q :: r => if rle (pz q) (pz p) then p :: l else q :: insert_high p r end.
Definition sort_high (l : list pt3) : list pt3 := fold_right insert_high [] l.
(** 131-201 *)
Definition distance_to_center_line (g : pt3) (ax ay az bx by_ bz : R) : option R :=
  let dx := px g - ax in let dy := py g - ay in let dz := pz g - az in
  let l2 := bx * bx + by_ * by_ in
  let p := (dx * bx + dy * by_) / l2 in
  let q := dz - p * bz in
  if rlt 0 q then
    if rle 0 p && rle p 1 then Some (Rabs (- dx * by_ + dy * bx) / sqrt l2) else None
  else
    let t := (dx * bx + dy * by_ + dz * bz) / (l2 + bz * bz) in
    if rlt t 0 || rlt 1 t then None
    else let ex := t * bx - dx in let ey := t * by_ - dy in let ez := t * bz - dz in
      Some (sqrt (ex * ex + ey * ey + ez * ez)).
(** 112-129: None when the line is blocked *)
Fixpoint scan (ax ay az bx by_ bz highest : R) (l : list pt3) (least : R) : option R :=
  match l with
  | [] => Some least
  | g :: r =>
    if req threshold 1 && rlt highest (pz g) then None
    else match distance_to_center_line g ax ay az bx by_ bz with
         | None => scan ax ay az bx by_ bz highest r least
         | Some d => if rlt d (fresnel_radius * threshold) then None
                     else scan ax ay az bx by_ bz highest r (Rmin least d)
         end
  end.
(** 69-129 *)
Definition cylinder_obstructions (e : elev) (s1 s2 : lsite) : list pt3 :=
  match four_corners (ls_x s1) (ls_y s1) (ls_x s2) (ls_y s2) fresnel_radius with
  | (p, q, r, s) =>
    let pq := (fst q - fst p, snd q - snd p) in
    let pr := (fst r - fst p, snd r - snd p) in
    get_all_obstructions e (min4 (fst p) (fst q) (fst r) (fst s)) (max4 (snd p) (snd q) (snd r) (snd s))
      (max4 (fst p) (fst q) (fst r) (fst s)) (min4 (snd p) (snd q) (snd r) (snd s)) (in_rectangle p pq pr)
  end.
Definition confidence_by_radius (e : elev) (s1 s2 : lsite) : result R :=
  let obstructions := cylinder_obstructions e s1 s2 in
  match ls_alt s1, ls_alt s2 with
  | Some a1, Some a2 =>
    match scan (ls_x s1) (ls_y s1) a1 (ls_x s2 - ls_x s1) (ls_y s2 - ls_y s1) (a2 - a1) (Rmax a1 a2) (sort_high obstructions) fresnel_radius with
    | None => Ok 0
    | Some d => if req fresnel_radius 0 then Err PyZeroDivision else Ok (d / fresnel_radius)
    end
  | _, _ => Err PyAssertion
  end.
(** 55-67 *)
Definition cylindrical_confidence (s1 s2 : lsite) : result R :=
  if negb (passes_simple_checks s1 s2) then Ok 0
  else match surface with None => Ok 1 | Some e => confidence_by_radius e s1 s2 end.

(** ** ellipsoid *)
Variable frequency_mhz : R.
Definition FIRST_ZONE_MULTIPLIER : R := 865725790883 / 100000000000.
(** fresnel_zone.py 172-279 *)
Record fresnel := mkFresnel { f_cos_a : R; f_sin_a : R; f_cos_b : R; f_sin_b : R; f_outer : R; f_outer_sq : R; f_inner_sq : R;
  f_xm : R; f_ym : R; f_zm : R; f_half_sq : R; f_half_xy_sq : R; f_a_over_c : R; f_b_over_c : R; f_d_over_c : R }.
(** 62-104: the constructor; the caller has made sure that the sites differ *)
Definition new_fresnel (s1 s2 : lsite) : result fresnel :=
  if negb (rle 0 threshold && rle threshold 1) then Err LOSExn
  else if same_xy s1 s2 then Err LOSExn
  else match ls_alt s1, ls_alt s2 with
  | Some a1, Some a2 =>
    let x := ls_x s2 - ls_x s1 in let y := ls_y s2 - ls_y s1 in let z := a2 - a1 in
    let xy_sq := x * x + y * y in let xy := sqrt xy_sq in
    let d_sq := xy_sq + z * z in let d := sqrt d_sq in
    if req frequency_mhz 0 then Err PyZeroDivision
    else if rlt (d / frequency_mhz) 0 then Err PyValueError
    else
      let outer := FIRST_ZONE_MULTIPLIER * sqrt (d / frequency_mhz) in
      let inner := outer * threshold in
      let third := if negb (req x 0) then (ls_x s1 - y / x, ls_y s1 + 1) else (ls_x s1 + 1, ls_y s1 - x / y) in
      let a := y * (a1 - a1) - z * (snd third - ls_y s1) in
      let b := z * (fst third - ls_x s1) - x * (a1 - a1) in
      let c := x * (snd third - ls_y s1) - y * (fst third - ls_x s1) in
      let dd := - (a * ls_x s1 + b * ls_y s1 + c * a1) in
      Ok (mkFresnel (x / xy) (y / xy) (xy / d) (z / d) outer (outer * outer) (inner * inner)
        ((ls_x s1 + ls_x s2) / 2) ((ls_y s1 + ls_y s2) / 2) ((a1 + a2) / 2) (d_sq / 4) (xy_sq / 4) (a / c) (b / c) (dd / c))
  | _, _ => Err PyAssertion
  end.
(** 281-301 *)
Definition in_ellipse (f : fresnel) (r_sq x y : R) : bool :=
  let first := (x - f_xm f) * f_cos_a f + (y - f_ym f) * f_sin_a f in
  let second := (x - f_xm f) * f_sin_a f - (y - f_ym f) * f_cos_a f in
  rle (first * first / f_half_xy_sq f + second * second / r_sq) 1.
(** 303-347: None is infinity *)
Definition lower_height (f : fresnel) (x y r_sq : R) : result (option R) :=
  let tmp1 := (x - f_xm f) * f_cos_a f * f_cos_b f + (y - f_ym f) * f_sin_a f * f_cos_b f in
  let tmp2 := (f_xm f - x) * f_cos_a f * f_sin_b f + (f_ym f - y) * f_sin_a f * f_sin_b f in
  let side := (f_xm f - x) * f_sin_a f + (y - f_ym f) * f_cos_a f in
  let qa := f_sin_b f * f_sin_b f / f_half_sq f + f_cos_b f * f_cos_b f / r_sq in
  let qb := 2 * (tmp1 * f_sin_b f / f_half_sq f + tmp2 * f_cos_b f / r_sq) in
  let qc := tmp1 * tmp1 / f_half_sq f + tmp2 * tmp2 / r_sq + side * side / r_sq - 1 in
  let qd := qb * qb - 4 * qa * qc in
  if negb (rlt 0 qa) then Err LOSExn
  else if rle qd 0 then Ok None
  else if rle 0 qb then Ok (Some ((- qb - sqrt qd) / (2 * qa) + f_zm f))
  else Ok (Some (2 * qc / (- qb + sqrt qd) + f_zm f)).
(** 126-148 *)
Definition obstructs_inner (s1 s2 : lsite) (f : fresnel) (p : pt3) : result bool :=
  if (req (px p) (ls_x s1) && req (py p) (ls_y s1)) || (req (px p) (ls_x s2) && req (py p) (ls_y s2)) then Ok false
  else if req threshold 0 then Ok false
  else if negb (in_ellipse f (f_inner_sq f) (px p) (py p)) then Ok false
  else do h <- lower_height f (px p) (py p) (f_inner_sq f) ;
    Ok (match h with None => false | Some h => rle h (pz p) end).
(** 349-369 *)
Definition max_radius_2d (f : fresnel) (x y : R) : R :=
  let first := (x - f_xm f) * f_cos_a f + (y - f_ym f) * f_sin_a f in
  let a := first * first / f_half_xy_sq f in
  let second := (x - f_xm f) * f_sin_a f - (y - f_ym f) * f_cos_a f in
  let b := second * second in
  if rle 1 a then f_outer f else sqrt (b / (1 - a)).
(** 371-385 *)
Definition max_radius_3d (f : fresnel) (x y z : R) : R :=
  let first := (x - f_xm f) * f_cos_a f * f_cos_b f + (y - f_ym f) * f_sin_a f * f_cos_b f + (z - f_zm f) * f_sin_b f in
  let a := first * first / f_half_sq f in
  let second := (f_xm f - x) * f_sin_a f + (y - f_ym f) * f_cos_a f in
  let b := second * second in
  let third := (f_xm f - x) * f_cos_a f * f_sin_b f + (f_ym f - y) * f_sin_a f * f_sin_b f + (z - f_zm f) * f_cos_b f in
  let c := third * third in
  if rle 1 a then f_outer f else sqrt ((b + c) / (1 - a)).
(** 150-170 *)
Definition max_fresnel_radius (f : fresnel) (p : pt3) : result R :=
  do h <- lower_height f (px p) (py p) (f_outer_sq f) ;
  if match h with None => true | Some h => rlt (pz p) h end then Ok (f_outer f)
  else let zp := - (f_a_over_c f * px p + f_b_over_c f * py p + f_d_over_c f) in
    if rle zp (pz p) then Ok (max_radius_2d f (px p) (py p)) else Ok (max_radius_3d f (px p) (py p) (pz p)).
(** ellipsoidal_los_validator.py 75-86: None when the inner zone is obstructed *)
Fixpoint scan_zone (s1 s2 : lsite) (f : fresnel) (l : list pt3) (least : R) : result (option R) :=
  match l with
  | [] => Ok (Some least)
  | p :: r =>
    do blocked <- obstructs_inner s1 s2 f p ;
    if blocked then Ok None
    else do m <- max_fresnel_radius f p ; scan_zone s1 s2 f r (Rmin m least)
  end.
(** 57-74 *)
Definition ellipsoid_obstructions (e : elev) (s1 s2 : lsite) (f : fresnel) : list pt3 :=
  match four_corners (ls_x s1) (ls_y s1) (ls_x s2) (ls_y s2) (f_outer f) with
  | (a, b, c, d) =>
    get_all_obstructions e (min4 (fst a) (fst b) (fst c) (fst d)) (max4 (snd a) (snd b) (snd c) (snd d))
      (max4 (fst a) (fst b) (fst c) (fst d)) (min4 (snd a) (snd b) (snd c) (snd d)) (in_ellipse f (f_outer_sq f))
  end.
(** 44-86 *)
Definition ellipsoidal_confidence (s1 s2 : lsite) : result R :=
  if negb (passes_simple_checks s1 s2) then Ok 0
  else match surface with
  | None => Ok 1
  | Some e =>
    do f <- new_fresnel s1 s2 ;
    do m <- scan_zone s1 s2 f (ellipsoid_obstructions e s1 s2 f) (f_outer f) ;
    match m with None => Ok 0 | Some m => Ok (m / f_outer f) end
  end.
End Validator.
