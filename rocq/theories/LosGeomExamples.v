(** Examples and witnesses for C27, C28 and C56. *)
From Coq Require Import Reals Lra Lia Psatz.
From Verif Require Import Base MonadLib ElevModel ElevSpec ElevProofs LosGeomModel LosGeomSpec LosGeomProofs LosZoneProofs.
Local Open Scope R_scope.

(** a surface of one cell *)
Definition one (x y z : R) : elev := mkElev (fun _ _ => z) 1 1 (-10) (-10) 10 10 1 1 x y.
Lemma one_raster x y z : raster (one x y z).
Proof. unfold raster, one. cbn. split; [lia|]. split; [lia|]. lra. Qed.
Lemma one_cell x y z : cell (one x y z) 0 0. Proof. unfold cell, one. cbn. lia. Qed.
Lemma one_x x y z : centre_x (one x y z) 0 = x. Proof. unfold centre_x, one. cbn. ring. Qed.
Lemma one_y x y z : centre_y (one x y z) 0 = y. Proof. unfold centre_y, one. cbn. ring. Qed.
Lemma one_list x y z x1 y1 x2 y2 w : get_all_obstructions (one x y z) x1 y1 x2 y2 w = if w x y then [mkPt3 x y z] else [].
Proof.
  unfold get_all_obstructions, utm_to_idx, idx_to_utm. cbn [one e_data e_nx e_ny e_min_x e_min_y e_max_x e_max_y e_xres e_yres e_left e_top fst snd].
  assert (E : forall k, Z.min (Z.max k 0) (1 - 1) = 0%Z) by (intros; lia). rewrite !E. change (zrange 0 (0 + 1)) with [0%Z]. cbn [flat_map app fst snd]. replace (x + 1 * 0) with x by ring. replace (y - 1 * 0) with y by ring. destruct (w x y); reflexivity.
Qed.
Lemma asin_90 t max : 90 <= max -> asin t * 180 / PI <= max.
Proof.
  intros M. assert (P := PI_RGT_0). assert (B := asin_bound t). apply Rle_trans with 90; [|exact M]. apply Rmult_le_reg_r with PI; [exact P|]. replace (asin t * 180 / PI * PI) with (asin t * 180) by (field; lra). lra.
Qed.

(** ** a level line of sight *)
Definition l1 : lsite := mkLSite 0 0 (Some 10) false None.
Definition l2 : lsite := mkLSite 6 0 (Some 10) false None.
Lemma level_length : los_length l1 l2 = 6.
Proof. unfold los_length, rise, l1, l2. cbn [ls_x ls_y ls_alt]. replace ((6 - 0) ^ 2 + (0 - 0) ^ 2 + (10 - 10) ^ 2) with (6 * 6) by ring. apply sqrt_square. lra. Qed.
Lemma level_usable : usable_pair 100 1 90 [] l1 l2.
Proof.
  constructor.
  - cbn. lra.
  - cbn. intros (A & _). discriminate.
  - rewrite level_length. lra.
  - intros _ _. apply asin_90. lra.
  - intros z [].
Qed.
Lemma params_ok t : 0 <= t <= 1 -> valid_params 100 1 90 t.
Proof. intros T. split; [lra|]. split; lra. Qed.

(** ** a steep one *)
Definition t1 : lsite := mkLSite (-3) 0 (Some (-4)) false None.
Definition t2 : lsite := mkLSite 3 0 (Some 4) false None.
Definition mhz : R := FIRST_ZONE_MULTIPLIER * FIRST_ZONE_MULTIPLIER * 10.
Lemma mhz_pos : 0 < mhz.
Proof. assert (P := multiplier_pos). unfold mhz. assert (0 < FIRST_ZONE_MULTIPLIER * FIRST_ZONE_MULTIPLIER) by (now apply Rmult_lt_0_compat). lra. Qed.
Lemma steep_length : los_length t1 t2 = 10.
Proof. unfold los_length, rise, t1, t2. cbn [ls_x ls_y ls_alt]. replace ((3 - -3) ^ 2 + (0 - 0) ^ 2 + (4 - -4) ^ 2) with (10 * 10) by ring. apply sqrt_square. lra. Qed.
Lemma steep_usable : usable_pair 100 1 90 [] t1 t2.
Proof.
  constructor.
  - cbn. lra.
  - cbn. intros (A & _). discriminate.
  - rewrite steep_length. lra.
  - intros _ _. apply asin_90. lra.
  - intros z [].
Qed.
Lemma steep_radius : zone_radius mhz t1 t2 = 1.
Proof.
  assert (P := multiplier_pos). unfold zone_radius. fold FIRST_ZONE_MULTIPLIER. rewrite steep_length. unfold mhz. set (m := FIRST_ZONE_MULTIPLIER) in *. replace (10 / (m * m * 10)) with (/ m * / m) by (field; lra). rewrite sqrt_square by (left; now apply Rinv_0_lt_compat). field. lra.
Qed.
Lemma steep_facts t f H : zone_facts t mhz t1 t2 (-4) 4 f H -> H = 5 /\ f_cos_a f = 1 /\ f_sin_a f = 0 /\ f_cos_b f = 3/5 /\ f_sin_b f = 4/5 /\ f_xm f = 0 /\ f_ym f = 0 /\ f_zm f = 0.
Proof.
  intros F. assert (L := length_sq _ _ _ _ _ _ _ _ F). assert (M := map_length_sq _ _ _ _ _ _ _ _ F). destruct F. cbn [t1 t2 ls_x ls_y] in *.
  assert (EH : H = 5). { assert (K : (H - 5) * (H + 5) = 0) by lra. apply Rmult_integral in K. lra. } subst H.
  assert (Esb : f_sin_b f = 4/5) by lra. assert (Ecb : f_cos_b f = 3/5). { rewrite Esb in zf_b. assert (K : (f_cos_b f - 3/5) * (f_cos_b f + 3/5) = 0) by lra. apply Rmult_integral in K. lra. }
  rewrite Ecb in *. split; [reflexivity|]. split; [lra|]. split; [lra|]. split; [reflexivity|]. split; [exact Esb|]. split; [lra|]. split; lra.
Qed.
Lemma steep_confidence t x y z : 0 <= t <= 1 -> under_zone t1 t2 1 x y ->
  exists f H, zone_facts t mhz t1 t2 (-4) 4 f H /\
  forall m, obstructs_inner t t1 t2 f (mkPt3 x y z) = Ok false -> max_fresnel_radius f (mkPt3 x y z) = Ok m -> m <= 1 ->
    ellipsoidal_confidence (Some (one x y z)) 100 1 90 t [] mhz t1 t2 = Ok m.
Proof.
  intros T U. destruct (ellipsoid_cases 100 1 90 t [] (params_ok t T) mhz mhz_pos (one x y z) t1 t2 (-4) 4 eq_refl eq_refl steep_usable) as (f & H & o & Ef & F & Eo & Ec). exists f, H. split; [exact F|].
  intros m Eb Em Hm. rewrite Ec. unfold ellipsoid_obstructions in Eo. destruct (four_corners _ _ _ _ _) as [[[a b] c] d]. rewrite one_list in Eo.
  assert (E : in_ellipse f (f_outer_sq f) x y = true). { apply (in_ellipse_true _ _ _ _ _ _ _ _ F). rewrite (zf_outer_sq _ _ _ _ _ _ _ _ F), steep_radius. eapply under_iff; eauto. lra. }
  rewrite E in Eo. cbn [scan_zone] in Eo. rewrite Eb in Eo. cbn [rbind] in Eo. rewrite Em in Eo. cbn [rbind] in Eo. injection Eo as <-. rewrite (zf_outer _ _ _ _ _ _ _ _ F), steep_radius. rewrite Rmin_left by exact Hm. f_equal. field.
Qed.
Lemma under_1 x y : x * x / 9 + y * y <= 1 -> under_zone t1 t2 1 x y.
Proof.
  intros E. unfold under_zone, map_foot, t1, t2. cbn [ls_x ls_y]. replace ((3 - -3) ^ 2 + (0 - 0) ^ 2) with 36 by ring. match goal with |- ?e <= 1 => replace e with (x * x / 9 + y * y); [exact E|] end. field.
Qed.
(** not below the zone of radius 1 *)
Lemma not_below t f H x y z : zone_facts t mhz t1 t2 (-4) 4 f H -> e3 f H (1 * 1) x y z < 1 -> exists h, lower_height f x y (f_outer_sq f) = Ok (Some h) /\ h <= z.
Proof.
  intros F E. rewrite (zf_outer_sq _ _ _ _ _ _ _ _ F), steep_radius. destruct (lower_ok _ _ _ _ _ _ _ _ F x y (1 * 1) ltac:(lra)) as (h & Eh & K). destruct h as [h|]; [|specialize (K z); lra].
  exists h. split; [exact Eh|]. apply Rnot_lt_le. intros C. specialize (K z C). lra.
Qed.
Definition low : R := sqrt (225 / 1984).
Lemma low_range : 0 < low < 1/2.
Proof.
  unfold low. split; [apply sqrt_lt_R0; lra|]. rewrite <- (sqrt_square (1/2)) by lra. apply sqrt_lt_1_alt. lra.
Qed.
Lemma steep_low : ellipsoidal_confidence (Some (one 3 0 (39/10))) 100 1 90 (1/2) [] mhz t1 t2 = Ok low.
Proof.
  destruct (steep_confidence (1/2) 3 0 (39/10)) as (f & H & F & C); [lra|apply under_1; lra|]. assert (L := low_range). destruct (steep_facts _ _ _ F) as (-> & Eca & Esa & Ecb & Esb & Exm & Eym & Ezm). apply C; [| |lra].
  - unfold obstructs_inner. cbn [px py pz]. replace (_ || _)%bool with true; [reflexivity|]. symmetry. apply (at_end_true t1 t2). right. cbn. auto.
  - unfold max_fresnel_radius. cbn [px py pz]. destruct (not_below _ _ _ 3 0 (39/10) F) as (h & -> & Hh). { unfold e3. rewrite Eca, Esa, Ecb, Esb, Exm, Eym, Ezm. lra. }
    cbn [rbind]. destruct (rlt (39/10) h) eqn:B; [apply rlt_true in B; lra|]. rewrite (zf_plane _ _ _ _ _ _ _ _ F).
    assert (EL : line_height t1 t2 (-4) 4 3 0 = 4) by (unfold line_height, t1, t2; cbn [ls_x ls_y]; field). rewrite EL. destruct (rle 4 (39/10)) eqn:B'; [apply rle_true in B'; lra|]. f_equal. unfold max_radius_3d. rewrite (zf_half _ _ _ _ _ _ _ _ F), Eca, Esa, Ecb, Esb, Exm, Eym, Ezm.
    destruct (rle 1 _) eqn:A; [apply rle_true in A; lra|]. unfold low. f_equal. field.
Qed.
Definition mid : R := sqrt (9/20).
Lemma mid_range : 0 < mid < 1.
Proof. unfold mid. split; [apply sqrt_lt_R0; lra|]. apply Rlt_le_trans with (sqrt 1); [apply sqrt_lt_1_alt; lra|right; apply sqrt_1]. Qed.
Lemma steep_mid : ellipsoidal_confidence (Some (one 2 (1/2) 3)) 100 1 90 0 [] mhz t1 t2 = Ok mid.
Proof.
  destruct (steep_confidence 0 2 (1/2) 3) as (f & H & F & C); [lra|apply under_1; lra|]. assert (L := mid_range). destruct (steep_facts _ _ _ F) as (-> & Eca & Esa & Ecb & Esb & Exm & Eym & Ezm). apply C; [| |lra].
  - unfold obstructs_inner. replace (req 0 0) with true by (symmetry; now apply req_true). destruct (_ || _)%bool; reflexivity.
  - unfold max_fresnel_radius. cbn [px py pz]. destruct (not_below _ _ _ 2 (1/2) 3 F) as (h & -> & Hh). { unfold e3. rewrite Eca, Esa, Ecb, Esb, Exm, Eym, Ezm. lra. }
    cbn [rbind]. destruct (rlt 3 h) eqn:B; [apply rlt_true in B; lra|]. rewrite (zf_plane _ _ _ _ _ _ _ _ F).
    assert (EL : line_height t1 t2 (-4) 4 2 (1/2) = 8/3) by (unfold line_height, t1, t2; cbn [ls_x ls_y]; field). rewrite EL. destruct (rle (8/3) 3) eqn:B'; [|apply rle_false in B'; lra]. f_equal. unfold max_radius_2d. rewrite (zf_half_xy _ _ _ _ _ _ _ _ F), Eca, Esa, Ecb, Exm, Eym.
    destruct (rle 1 _) eqn:A; [apply rle_true in A; lra|]. unfold mid. f_equal. field.
Qed.
Lemma steep_not_clear : in_zone t1 t2 (-4) 4 mid 2 (1/2) (13/5).
Proof.
  destruct (steep_confidence 0 2 (1/2) 3) as (f & H & F & _); [lra|apply under_1; lra|]. destruct (steep_facts _ _ _ F) as (EH & Eca & Esa & Ecb & Esb & Exm & Eym & Ezm). eapply in_zone_iff; [exact F|apply mid_range|].
  unfold mid. rewrite sqrt_sqrt by lra. unfold e3. rewrite EH, Eca, Esa, Ecb, Esb, Exm, Eym, Ezm. lra.
Qed.
(** half the radius of the cylinder is clear over a wall *)
Lemma level_half : cylindrical_confidence (Some (one 3 0 9)) 100 1 90 (1/4) [] 2 l1 l2 = Ok (1/2).
Proof.
  rewrite (cylinder_by_radius 100 1 90 (1/4) [] 2 ltac:(lra) _ (one 3 0 9) l1 l2 10 10 level_usable eq_refl eq_refl eq_refl).
  assert (O : cylinder_obstructions 2 (one 3 0 9) l1 l2 = [mkPt3 3 0 9]).
  { assert (B : beside l1 l2 2 3 0). { exists (1/2), 0. cbn [l1 l2 ls_x ls_y]. split; [lra|]. split; [lra|]. replace ((6 - 0) ^ 2 + (0 - 0) ^ 2) with (6 * 6) by ring. rewrite sqrt_square by lra. lra. }
    apply beside_box in B; [|cbn; lra|lra]. unfold cylinder_obstructions. destruct (four_corners _ _ _ _ 2) as [[[p q] r'] s]. destruct B as [B _]. rewrite one_list, B. reflexivity. }
  rewrite O. cbn [sort_high fold_right insert_high scan]. cbn [l1 l2 ls_x ls_y pz]. destruct (req (1/4) 1) eqn:E; [apply req_true in E; lra|]. cbn [andb].
  assert (D : distance_to_center_line (mkPt3 3 0 9) 0 0 10 (6 - 0) (0 - 0) (10 - 10) = Some 1).
  { unfold distance_to_center_line. cbn [px py pz]. destruct (rlt 0 _) eqn:Q; [apply rlt_true in Q; lra|]. match goal with |- context [rlt ?t 0] => replace t with (1/2) by field end. destruct (rlt (1/2) 0) eqn:A; [apply rlt_true in A; lra|]. destruct (rlt 1 (1/2)) eqn:B; [apply rlt_true in B; lra|]. cbn [orb]. f_equal.
    match goal with |- sqrt ?e = 1 => replace e with 1 by field end. apply sqrt_1. }
  rewrite D. destruct (rlt 1 (2 * (1/4))) eqn:A; [apply rlt_true in A; lra|]. rewrite Rmin_right by lra. reflexivity.
Qed.
(** a pit under the level link *)
Definition mhz6 : R := FIRST_ZONE_MULTIPLIER * FIRST_ZONE_MULTIPLIER * 6.
Lemma mhz6_pos : 0 < mhz6.
Proof. assert (P := multiplier_pos). unfold mhz6. assert (0 < FIRST_ZONE_MULTIPLIER * FIRST_ZONE_MULTIPLIER) by (now apply Rmult_lt_0_compat). lra. Qed.
Lemma level_radius : zone_radius mhz6 l1 l2 = 1.
Proof.
  assert (P := multiplier_pos). unfold zone_radius. fold FIRST_ZONE_MULTIPLIER. rewrite level_length. unfold mhz6. set (m := FIRST_ZONE_MULTIPLIER) in *. replace (6 / (m * m * 6)) with (/ m * / m) by (field; lra). rewrite sqrt_square by (left; now apply Rinv_0_lt_compat). field. lra.
Qed.
Lemma level_under : under_zone l1 l2 (zone_radius mhz6 l1 l2) 3 0.
Proof. rewrite level_radius. unfold under_zone, map_foot, l1, l2. cbn [ls_x ls_y]. replace ((3 - 0) * (6 - 0) + (0 - 0) * (0 - 0)) with 18 by ring. replace ((6 - 0) ^ 2 + (0 - 0) ^ 2) with 36 by ring. lra. Qed.
Lemma level_one : ellipsoidal_confidence (Some (one 3 0 5)) 100 1 90 0 [] mhz6 l1 l2 = Ok 1.
Proof.
  destruct (ellipsoid_cases 100 1 90 0 [] (params_ok 0 ltac:(lra)) mhz6 mhz6_pos (one 3 0 5) l1 l2 10 10 eq_refl eq_refl level_usable) as (f & H & o & Ef & F & Eo & Ec). rewrite Ec.
  unfold ellipsoid_obstructions in Eo. destruct (four_corners _ _ _ _ _) as [[[a b] c] d]. rewrite one_list in Eo.
  assert (E : in_ellipse f (f_outer_sq f) 3 0 = true). { apply (in_ellipse_true _ _ _ _ _ _ _ _ F). rewrite (zf_outer_sq _ _ _ _ _ _ _ _ F). eapply under_iff; eauto; [rewrite level_radius; lra|exact level_under]. }
  rewrite E in Eo. cbn [scan_zone] in Eo. assert (B : obstructs_inner 0 l1 l2 f (mkPt3 3 0 5) = Ok false). { unfold obstructs_inner. replace (req 0 0) with true by (symmetry; now apply req_true). destruct (_ || _)%bool; reflexivity. }
  rewrite B in Eo. cbn [rbind] in Eo. destruct (max_ok _ _ _ _ _ _ _ _ F (mkPt3 3 0 5)) as (m & Em & _ & Hm). rewrite Em in Eo. cbn [rbind px py pz] in *. rewrite level_radius in Hm. specialize (Hm 1).
  assert (L : line_height l1 l2 10 10 3 0 = 10) by (unfold line_height, l1, l2; cbn [ls_x ls_y]; field). rewrite L in Hm.
  assert (M : 1 <= m). { apply Hm; [lra| |lra]. intros _. rewrite (level_e3 _ _ _ _ _ _ _ _ F eq_refl) by lra. assert (Z := level_le _ _ _ _ _ _ _ _ F eq_refl (1 * 1) 3 0 10 ltac:(lra)). assert (Q : 0 <= e2 f H (1 * 1) 3 0).
    { unfold e2. assert (HH := zf_H _ _ _ _ _ _ _ _ F). assert (CB := zf_cb _ _ _ _ _ _ _ _ F). apply Rplus_le_le_0_compat; apply Rmult_le_pos; try apply sq_pos; left; apply Rinv_0_lt_compat; [|lra]. apply Rmult_lt_0_compat; now apply Rmult_lt_0_compat. } lra. }
  injection Eo as <-. rewrite (zf_outer _ _ _ _ _ _ _ _ F), level_radius. rewrite Rmin_right by exact M. f_equal. field.
Qed.
