(** What C37, C54 and C55 mean. *)
From Coq Require Import Reals.
From Verif Require Import Base ElevModel.
Local Open Scope R_scope.

(** a raster with at least one cell and cells of positive size *)
Definition raster (e : elev) : Prop := (0 < e_nx e)%Z /\ (0 < e_ny e)%Z /\ 0 < e_xres e /\ 0 < e_yres e.
Definition cell (e : elev) (ix iy : Z) : Prop := (0 <= ix < e_nx e)%Z /\ (0 <= iy < e_ny e)%Z.
(** the centre of a cell: columns go east and rows south from the first one *)
Definition centre_x (e : elev) (ix : Z) : R := e_left e + IZR ix * e_xres e.
Definition centre_y (e : elev) (iy : Z) : R := e_top e - IZR iy * e_yres e.
(** no cell is nearer to the point *)
Definition nearest (e : elev) (x y : R) (ix iy : Z) : Prop :=
  cell e ix iy /\ forall jx jy, cell e jx jy ->
    Rabs (x - centre_x e ix) <= Rabs (x - centre_x e jx) /\ Rabs (y - centre_y e iy) <= Rabs (y - centre_y e jy).
(** the area of the cells *)
Definition in_raster (e : elev) (x y : R) : Prop :=
  centre_x e 0 - e_xres e / 2 <= x <= centre_x e (e_nx e - 1) + e_xres e / 2 /\
  centre_y e (e_ny e - 1) - e_yres e / 2 <= y <= centre_y e 0 + e_yres e / 2.
(** every cell has an elevation *)
Definition no_gaps (e : elev) : Prop := forall ix iy, cell e ix iy -> e_data e iy ix <> NO_DATA_VALUE.
Definition in_box (x1 y1 x2 y2 x y : R) : Prop := Rmin x1 x2 <= x <= Rmax x1 x2 /\ Rmin y1 y2 <= y <= Rmax y1 y2.
Definition in_area (e : elev) (x y : R) : Prop := e_min_x e <= x <= e_max_x e /\ e_min_y e <= y <= e_max_y e.
(** the cells, as points, whose centres are in a window *)
Definition window_point (e : elev) (x1 y1 x2 y2 : R) (p : pt3) : Prop :=
  exists ix iy, cell e ix iy /\ p = mkPt3 (centre_x e ix) (centre_y e iy) (e_data e iy ix) /\ x1 <= px p <= x2 /\ y1 <= py p <= y2.
(** the window reaches less than one cell over the edges of the raster *)
Definition window_inside (e : elev) (x1 y1 x2 y2 : R) : Prop :=
  centre_x e 0 - e_xres e < x1 /\ x2 < centre_x e (e_nx e) /\ centre_y e (e_ny e) < y1 /\ y2 < centre_y e 0 + e_yres e.
