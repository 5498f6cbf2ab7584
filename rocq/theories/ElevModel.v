(** Elevation rasters (terragraph_planner/los/elevation.py).  Coordinates and elevations are exact reals
    instead of floats.  The matrix has shape (e_ny, e_nx); its cell [y, x] is [e_data e y x].  The KD-tree
    search for the closest valid elevation is a parameter. *)
From Coq Require Import Reals Lra.
From Verif Require Import Base LosRangeModel.
Local Open Scope R_scope.

Record pt3 := mkPt3 { px : R; py : R; pz : R }.
(** elevation.py 35-62 *)
Record elev := mkElev { e_data : Z -> Z -> R; e_nx : Z; e_ny : Z;
  e_min_x : R; e_min_y : R; e_max_x : R; e_max_y : R; e_xres : R; e_yres : R; e_left : R; e_top : R }.
Definition NO_DATA_VALUE : R := IZR (-32768).

(** Python's floor, ceil and round (half to even) *)
Definition rfloor (x : R) : Z := Int_part x.
Definition rceil (x : R) : Z := (- Int_part (- x))%Z.
Definition rround (x : R) : Z :=
  let n := rfloor x in
  if Rlt_dec (x - IZR n) (1/2) then n
  else if Rlt_dec (1/2) (x - IZR n) then (n + 1)%Z
  else if Z.even n then n else (n + 1)%Z.
(** range(a, b) *)
Definition zrange (a b : Z) : list Z := map (fun k => a + Z.of_nat k)%Z (seq 0 (Z.to_nat (b - a))).

(** 66-72 *)
Definition idx_to_utm (e : elev) (ix iy : Z) : R * R := (e_left e + e_xres e * IZR ix, e_top e - e_yres e * IZR iy).
(** 74-83 *)
Definition utm_to_idx (e : elev) (x y : R) : Z * Z :=
  (Z.min (Z.max (rround ((x - e_left e) / e_xres e)) 0) (e_nx e - 1),
   Z.min (Z.max (rround ((e_top e - y) / e_yres e)) 0) (e_ny e - 1))%Z.
(** 85-128 *)
Definition clamp (lo hi x : R) : R := Rmin (Rmax x lo) hi.
Definition get_all_obstructions (e : elev) (x1 y1 x2 y2 : R) (within : R -> R -> bool) : list pt3 :=
  let x1 := clamp (e_min_x e) (e_max_x e) x1 in
  let x2 := clamp (e_min_x e) (e_max_x e) x2 in
  let y1 := clamp (e_min_y e) (e_max_y e) y1 in
  let y2 := clamp (e_min_y e) (e_max_y e) y2 in
  let lo := utm_to_idx e (Rmin x1 x2) (Rmax y1 y2) in
  let hi := utm_to_idx e (Rmax x1 x2) (Rmin y1 y2) in
  flat_map (fun iy => flat_map (fun ix =>
    let u := idx_to_utm e ix iy in
    if within (fst u) (snd u) then [mkPt3 (fst u) (snd u) (e_data e iy ix)] else []) (zrange (fst lo) (fst hi + 1))) (zrange (snd lo) (snd hi + 1)).

Section Closest.
(** 142-154, 321-378 *)
Variable find_closest_valid_elevation : elev -> R -> R -> result R.
Definition fill (e : elev) (iy ix : Z) (v : R) : elev :=
  mkElev (fun y x => if (Z.eqb y iy && Z.eqb x ix)%bool then v else e_data e y x) (e_nx e) (e_ny e)
    (e_min_x e) (e_min_y e) (e_max_x e) (e_max_y e) (e_xres e) (e_yres e) (e_left e) (e_top e).
(** 130-140: a cell without data is filled in *)
Definition get_value (e : elev) (x y : R) : result (R * elev) :=
  let (ix, iy) := utm_to_idx e x y in
  if ((0 <=? ix) && (ix <? e_nx e) && (0 <=? iy) && (iy <? e_ny e))%Z%bool
  then if Req_EM_T (e_data e iy ix) NO_DATA_VALUE
       then do v <- find_closest_valid_elevation e x y ; Ok (v, fill e iy ix v)
       else Ok (e_data e iy ix, e)
  else Err DataExn.
(** 212-243 *)
Definition list_step (acc : list pt3 * elev) (u : R * R) : result (list pt3 * elev) :=
  do r <- get_value (snd acc) (fst u) (snd u) ; Ok (fst acc ++ [mkPt3 (fst u) (snd u) (fst r)], snd r).
Definition get_value_list_within_bound (e : elev) (min_x min_y max_x max_y : R) : result (list pt3 * elev) :=
  let xs := map (fun i => e_left e + IZR i * e_xres e) (zrange (rceil ((min_x - e_left e) / e_xres e)) (rfloor ((max_x - e_left e) / e_xres e) + 1)) in
  let ys := map (fun i => e_top e - IZR i * e_yres e) (zrange (rceil ((e_top e - max_y) / e_yres e)) (rfloor ((e_top e - min_y) / e_yres e) + 1)) in
  foldM list_step ([], e) (list_prod xs ys).
(** 245-271, with the slices of Python: a negative bound counts from the end *)
Definition slice_bound (n k : Z) : Z := (if k <? 0 then Z.max (n + k) 0 else Z.min k n)%Z.
Definition slice (n a b : Z) : list Z := zrange (slice_bound n a) (slice_bound n b).
Definition get_value_matrix_within_bound (e : elev) (min_x min_y max_x max_y : R) : result (list (list R) * elev) :=
  let rows := slice (e_ny e) (rceil ((e_top e - max_y) / e_yres e)) (rfloor ((e_top e - min_y) / e_yres e) + 1) in
  let cols := slice (e_nx e) (rceil ((min_x - e_left e) / e_xres e)) (rfloor ((max_x - e_left e) / e_xres e) + 1) in
  if (List.length rows * List.length cols =? 0)%nat
  then do r <- get_value e min_x min_y ; Ok ([[fst r]], snd r)
  else Ok (map (fun iy => map (fun ix => e_data e iy ix) cols) rows, e).
(** 156-190: nearest-neighbour resampling; the cells are visited row by row, so a cell without data is
    filled in once *)
Definition resample_step (xres yres : R) (acc : list R * elev) (p : Z * Z) : result (list R * elev) :=
  do r <- get_value (snd acc) (e_left (snd acc) + xres * IZR (snd p)) (e_top (snd acc) - yres * IZR (fst p)) ;
  Ok (fst acc ++ [fst r], snd r).
Definition resample (e : elev) (xres yres : R) : result elev :=
  let nx := rceil ((e_max_x e + xres / 2 - e_left e) / xres) in
  let ny := rceil ((e_top e - e_min_y e + yres / 2) / yres) in
  do r <- foldM (resample_step xres yres) ([], e) (list_prod (zrange 0 ny) (zrange 0 nx)) ;
  Ok (mkElev (fun iy ix => nth (Z.to_nat (iy * nx + ix)) (fst r) 0) nx ny
    (e_min_x e) (e_min_y e) (e_max_x e) (e_max_y e) xres yres (e_left e) (e_top e)).
Definition set_resolution (e : elev) (xres yres : R) : result elev :=
  if Req_EM_T xres (e_xres e) then if Req_EM_T yres (e_yres e) then Ok e else resample e xres yres else resample e xres yres.
End Closest.
