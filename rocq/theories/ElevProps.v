(** Property theorems C37, C54 and C55; vocabulary in ElevSpec.v. *)
From Coq Require Import Reals Lra Lia Sorted.
From Verif Require Import Base ElevModel ElevSpec ElevProofs ElevExamples.
Local Open Scope R_scope.

(** the index found is that of a cell, and no cell is nearer *)
Theorem C37_index_of_nearest_cell : forall e x y, raster e ->
  exists ix iy, utm_to_idx e x y = (ix, iy) /\ nearest e x y ix iy.
Proof. intros e x y W. destruct (utm_to_idx e x y) as [ix iy] eqn:E. exists ix, iy. split; [reflexivity|]. assert (H := utm_nearest e W x y). now rewrite E in H. Qed.
Print Assumptions C37_index_of_nearest_cell.
Theorem C37_index_within_half_a_cell : forall e x y ix iy, raster e -> in_raster e x y -> utm_to_idx e x y = (ix, iy) ->
  Rabs (x - centre_x e ix) <= e_xres e / 2 /\ Rabs (y - centre_y e iy) <= e_yres e / 2.
Proof. intros e x y ix iy W H E. assert (K := utm_half e W x y H). now rewrite E in K. Qed.
Print Assumptions C37_index_within_half_a_cell.
Theorem C37_index_of_cell_centre : forall e ix iy, raster e -> cell e ix iy ->
  idx_to_utm e ix iy = (centre_x e ix, centre_y e iy) /\ utm_to_idx e (centre_x e ix) (centre_y e iy) = (ix, iy).
Proof. intros e ix iy W C. assert (H := idx_utm e W ix iy C). rewrite (idx_centre e) in *. auto. Qed.
Print Assumptions C37_index_of_cell_centre.
(** the obstructions are cells that pass the filter, each once; all those with centres in the box and the
    area of interest are among them *)
Theorem C37_obstructions : forall e x1 y1 x2 y2 within, raster e ->
  NoDup (get_all_obstructions e x1 y1 x2 y2 within) /\
  (forall p, In p (get_all_obstructions e x1 y1 x2 y2 within) ->
     exists ix iy, cell e ix iy /\ p = mkPt3 (centre_x e ix) (centre_y e iy) (e_data e iy ix) /\ within (px p) (py p) = true) /\
  (forall ix iy, cell e ix iy -> in_area e (centre_x e ix) (centre_y e iy) -> in_box x1 y1 x2 y2 (centre_x e ix) (centre_y e iy) ->
     within (centre_x e ix) (centre_y e iy) = true ->
     In (mkPt3 (centre_x e ix) (centre_y e iy) (e_data e iy ix)) (get_all_obstructions e x1 y1 x2 y2 within)).
Proof. intros e x1 y1 x2 y2 f W. split; [now apply obstructions_once|]. split; [intros p; now apply obstructions_sound|]. intros; now apply obstructions_complete. Qed.
Print Assumptions C37_obstructions.
Theorem C37_elevation_of_nearest_cell : forall closest e x y, raster e -> no_gaps e ->
  exists ix iy, nearest e x y ix iy /\ get_value closest e x y = Ok (e_data e iy ix, e).
Proof. intros c e x y W V. destruct (value_nearest e W x y) as (ix & iy & N & E). exists ix, iy. split; [exact N|]. rewrite <- E. now apply get_value_ok. Qed.
Print Assumptions C37_elevation_of_nearest_cell.
Example C37_raster : raster e5 /\ no_gaps e5 /\ in_raster e5 (13/10) (-2) /\ cell e5 1 2 /\ in_area e5 (centre_x e5 1) (centre_y e5 2) /\ in_box 2 0 0 (-3) (centre_x e5 1) (centre_y e5 2).
Proof.
  split; [exact e5_raster|]. split; [exact e5_no_gaps|]. unfold in_raster, in_area, in_box, centre_x, centre_y, e5, cell. cbn. rewrite !Rmin_right, !Rmax_left by lra. split; [lra|]. split; [lia|]. split; lra.
Qed.

(** the points of a window are the cells with centres in it, each once; beyond the edges of the raster the
    grid goes on with the elevations of the nearest cells *)
Theorem C54_window_points : forall closest e x1 y1 x2 y2, raster e -> no_gaps e -> exists l,
  get_value_list_within_bound closest e x1 y1 x2 y2 = Ok (l, e) /\ NoDup l /\
  (forall p, window_point e x1 y1 x2 y2 p -> In p l) /\
  (forall p, In p l -> x1 <= px p <= x2 /\ y1 <= py p <= y2 /\ exists ix iy, nearest e (px p) (py p) ix iy /\ pz p = e_data e iy ix) /\
  (window_inside e x1 y1 x2 y2 -> forall p, In p l -> window_point e x1 y1 x2 y2 p).
Proof. intros. now apply window_list. Qed.
Print Assumptions C54_window_points.
(** The matrix of a window has its cells.  Missing: windows that reach one cell or more over the left or
    upper edge, for which it is false (below). *)
Theorem C54_window_matrix_partial : forall closest e x1 y1 x2 y2, raster e ->
  window_inside e x1 y1 x2 y2 -> (exists ix iy, cell e ix iy /\ x1 <= centre_x e ix <= x2 /\ y1 <= centre_y e iy <= y2) ->
  exists rows cols, get_value_matrix_within_bound closest e x1 y1 x2 y2 = Ok (map (fun iy => map (fun ix => e_data e iy ix) cols) rows, e) /\
  StronglySorted Z.lt rows /\ StronglySorted Z.lt cols /\
  (forall iy, In iy rows <-> (0 <= iy < e_ny e)%Z /\ y1 <= centre_y e iy <= y2) /\ (forall ix, In ix cols <-> (0 <= ix < e_nx e)%Z /\ x1 <= centre_x e ix <= x2).
Proof. intros. now apply window_matrix. Qed.
Print Assumptions C54_window_matrix_partial.
Example C54_window : window_inside e5 1 (-3) 2 (-1) /\ exists ix iy, cell e5 ix iy /\ 1 <= centre_x e5 ix <= 2 /\ -3 <= centre_y e5 iy <= -1.
Proof. unfold window_inside, centre_x, centre_y, e5, cell. cbn. split; [lra|]. exists 1%Z, 2%Z. split; [lia|]. lra. Qed.
(** a window over the left edge contains nine cells, one of elevation 0, yet one other value is returned *)
Theorem C54_window_matrix_refuted : exists e x1 y1 x2 y2, raster e /\ no_gaps e /\
  window_point e x1 y1 x2 y2 (mkPt3 0 0 0) /\ window_point e x1 y1 x2 y2 (mkPt3 2 (-1) 12) /\
  forall closest, get_value_matrix_within_bound closest e x1 y1 x2 y2 = Ok ([[20]], e).
Proof.
  exists e5, (-1), (-2), 2, 0. split; [exact e5_raster|]. split; [exact e5_no_gaps|]. unfold window_point, cell, centre_x, centre_y. cbn [px py e5 e_left e_top e_xres e_yres e_data e_nx e_ny].
  split; [exists 0%Z, 0%Z; split; [lia|]; split; [f_equal; simpl; lra|lra]|]. split; [exists 2%Z, 1%Z; split; [lia|]; split; [f_equal; simpl; lra|lra]|].
  intros c. unfold get_value_matrix_within_bound. cbn [e5 e_left e_top e_xres e_yres e_data e_nx e_ny].
  replace ((0 - 0) / 1) with (IZR 0) by (simpl; lra). replace ((0 - -2) / 1) with (IZR 2) by (simpl; lra). replace ((-1 - 0) / 1) with (IZR (-1)) by (simpl; lra). replace ((2 - 0) / 1) with (IZR 2) by (simpl; lra).
  rewrite !rceil_int, !rfloor_int. change (slice 5 (-1) (2 + 1)) with (@nil Z). rewrite Nat.mul_0_r. cbn [Nat.eqb]. rewrite (get_value_ok e5 e5_raster c e5_no_gaps). cbn [rbind fst snd].
  assert (E : value_at e5 (-1) (-2) = 20); [|now rewrite E].
  unfold value_at, utm_to_idx. cbn [e5 e_left e_top e_xres e_yres e_data e_nx e_ny]. replace ((-1 - 0) / 1) with (IZR (-1)) by (simpl; lra). replace ((0 - -2) / 1) with (IZR 2) by (simpl; lra). rewrite !rround_int. reflexivity.
Qed.
Print Assumptions C54_window_matrix_refuted.

(** after a change of resolution every cell has the elevation of the nearest old cell *)
Theorem C55_resampled_from_nearest_cells : forall closest e xres yres, raster e -> no_gaps e -> 0 < xres -> 0 < yres ->
  exists e', set_resolution closest e xres yres = Ok e' /\
  e_xres e' = xres /\ e_yres e' = yres /\ e_left e' = e_left e /\ e_top e' = e_top e /\
  (forall ix iy, cell e' ix iy -> exists jx jy, nearest e (centre_x e' ix) (centre_y e' iy) jx jy /\ e_data e' iy ix = e_data e jy jx).
Proof. intros. now apply set_resolution_ok. Qed.
Print Assumptions C55_resampled_from_nearest_cells.
