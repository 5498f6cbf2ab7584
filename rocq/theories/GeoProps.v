(** Property theorems C10, C11, C12 and C47; vocabulary in GeoSpec.v. *)
From Coq Require Import QArith.
From Verif Require Import Base GeoModel GeoSpec GeoProofs.
Local Open Scope Q_scope.

(** C10.  Bearings in [0, 360) differ by less than 360, so the hypotheses hold for them. *)
Theorem C10_angle_delta_is_signed_difference : forall a b, -(540) < a - b -> a - b <= 540 ->
  signed_angle (a - b) (angle_delta a b).
Proof. exact angle_delta_signed. Qed.
Print Assumptions C10_angle_delta_is_signed_difference.
Theorem C10_signed_difference_is_unique : forall d r r', signed_angle d r -> signed_angle d r' -> r == r'.
Proof. exact signed_angle_unique. Qed.
Print Assumptions C10_signed_difference_is_unique.
(** outside that interval the result is out of range *)
Theorem C10_range_is_necessary : forall a b,
  (-(180) < angle_delta a b /\ angle_delta a b <= 180) <-> (-(540) < a - b /\ a - b <= 540).
Proof. exact angle_delta_in_range_iff. Qed.
Print Assumptions C10_range_is_necessary.
Theorem C10_antisymmetric_except_180 : forall a b, -(540) < a - b -> a - b < 540 ->
  (angle_delta b a == - angle_delta a b) \/ (angle_delta a b == 180 /\ angle_delta b a == 180).
Proof. exact angle_delta_antisym. Qed.
Print Assumptions C10_antisymmetric_except_180.
Example C10_example : angle_delta 350 10 == -(20) /\ angle_delta 10 350 == 20 /\ angle_delta 190 10 == 180 /\ angle_delta 10 190 == 180.
Proof. vm_compute. auto. Qed.

(** C11 *)
Theorem C11_every_point_has_a_valid_zone : forall lat lon, valid_point lat lon ->
  (exists g, make_loc (Some lat) (Some lon) None None None None = Ok g) /\
  (forall x y, exists g, make_loc None None (Some x) (Some y) (Some (utm_epsg lat lon)) None = Ok g) /\
  (if Qle_bool 0 lat then (32601 <= utm_epsg lat lon <= 32660)%Z else (32701 <= utm_epsg lat lon <= 32760)%Z).
Proof. exact epsg_accepted. Qed.
Print Assumptions C11_every_point_has_a_valid_zone.
Theorem C11_longitude_lies_in_its_band : forall lon, -(180) <= lon -> lon < 180 ->
  -(180) + 6 * (inject_Z (utm_zone lon) - 1) <= lon /\ lon < -(180) + 6 * inject_Z (utm_zone lon).
Proof. exact zone_band. Qed.
Print Assumptions C11_longitude_lies_in_its_band.
Theorem C11_date_line_wraps_to_zone_1 : forall lon, lon == 180 -> utm_zone lon = 1%Z.
Proof. exact zone_wrap. Qed.
Print Assumptions C11_date_line_wraps_to_zone_1.
Example C11_example : valid_point (374 # 10) (-(1221 # 10)) /\ utm_epsg (374 # 10) (-(1221 # 10)) = 32610%Z /\ utm_epsg (-(33)) 151 = 32756%Z.
Proof. unfold valid_point, Qle. simpl. repeat split; discriminate || reflexivity. Qed.

(** C12 *)
Theorem C12_geohash_names_the_containing_cell : forall lat lon, valid_point lat lon ->
  exists s, geo_hash lat lon = Ok s /\ String.length s = 10%nat /\ in_cell s lat lon.
Proof. exact geo_hash_spec. Qed.
Print Assumptions C12_geohash_names_the_containing_cell.
Theorem C12_cells_of_distinct_hashes_are_disjoint : forall s s' lat lon, String.length s = String.length s' ->
  in_cell s lat lon -> in_cell s' lat lon -> s = s'.
Proof. exact in_cell_unique. Qed.
Print Assumptions C12_cells_of_distinct_hashes_are_disjoint.
Theorem C12_hash_iff_in_cell : forall lat lon s, valid_point lat lon -> String.length s = 10%nat ->
  (geo_hash lat lon = Ok s <-> in_cell s lat lon).
Proof. exact geo_hash_iff. Qed.
Print Assumptions C12_hash_iff_in_cell.
Theorem C12_same_hash_iff_same_cell : forall lat lon lat' lon', valid_point lat lon -> valid_point lat' lon' ->
  (geo_hash lat lon = geo_hash lat' lon' <->
   exists s, String.length s = 10%nat /\ in_cell s lat lon /\ in_cell s lat' lon').
Proof. exact same_hash_iff_same_cell. Qed.
Print Assumptions C12_same_hash_iff_same_cell.
Theorem C12_points_outside_are_rejected : forall lat lon, ~ valid_point lat lon -> geo_hash lat lon = Err DataExn.
Proof. exact geo_hash_rejects. Qed.
Print Assumptions C12_points_outside_are_rejected.
Example C12_example : geo_hash (374 # 10) (-(1221 # 10)) = Ok "9m9gr83mvb"%string /\ decode "9m9gr83mvb" = Some (5396671, 23749081)%Z.
Proof. vm_compute. auto. Qed.

(** C47.  Reading coordinates in any order and number never changes what is read. *)
Theorem C47_reads_are_stable : forall to_ll to_utm lat lon x y e alt g ws,
  make_loc lat lon x y e alt = Ok g ->
  let g' := fold_left (fun g w => read_any to_ll to_utm w g) ws g in
  fst (read_ll to_ll g') = fst (read_ll to_ll g) /\ fst (read_utm to_utm g') = fst (read_utm to_utm g) /\
  (exists p, fst (read_ll to_ll g) = Ok p) /\ (exists p, fst (read_utm to_utm g) = Ok p).
Proof. exact reads_stable. Qed.
Print Assumptions C47_reads_are_stable.
Theorem C47_copy_with_altitude_keeps_position_partial : forall to_ll to_utm lat lon x y e alt g a,
  make_loc lat lon x y e alt = Ok g ->
  exists g', copy_loc g (only_altitude a) = Ok g' /\ gl_alt g' = a /\
    fst (read_ll to_ll g') = fst (read_ll to_ll g) /\ fst (read_utm to_utm g') = fst (read_utm to_utm g).
Proof. exact copy_altitude_fresh. Qed.
Print Assumptions C47_copy_with_altitude_keeps_position_partial.
(** After the latitude of a UTM location has been read, a copy with a new easting silently
    keeps the old position. *)
Theorem C47_copy_override_refuted : exists to_ll to_utm g g1 g2,
  make_loc None None (Some 500000) (Some 0) (Some 32631%Z) None = Ok g /\
  g1 = snd (read_ll to_ll g) /\ copy_loc g1 (only_x 600000) = Ok g2 /\
  gl_x g2 = None /\ fst (read_ll to_ll g2) = fst (read_ll to_ll g) /\
  (exists g3, copy_loc g (only_x 600000) = Ok g3 /\ fst (read_utm to_utm g3) = Ok (600000, 0, 32631%Z)).
Proof.
  exists (fun _ x y => (3 + (x - 500000) / 100000, y / 100000)), (fun _ lo la => (500000 + (lo - 3) * 100000, la * 100000)).
  eexists _, _, _. split; [reflexivity|]. split; [reflexivity|]. split; [reflexivity|]. split; [reflexivity|]. split; [reflexivity|].
  eexists. split; reflexivity.
Qed.
Print Assumptions C47_copy_override_refuted.
