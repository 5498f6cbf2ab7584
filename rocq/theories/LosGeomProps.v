(** Property theorems C27, C28 and C56; vocabulary in LosGeomSpec.v and ElevSpec.v.  [md] and [mn] are the
    longest and shortest length of a link, [el] the largest angle to the horizontal, [t] the threshold. *)
From Coq Require Import Reals Lra.
From Verif Require Import Base ElevModel ElevSpec LosGeomModel LosGeomSpec LosGeomProofs LosZoneProofs LosGeomExamples.
Local Open Scope R_scope.

(** the confidence is 0 for a pair that fails a check *)
Theorem C27_unusable_pair : forall surface md mn el t zones radius mhz s1 s2, valid_params md mn el t -> ~ usable_pair md mn el zones s1 s2 ->
  new_validator md mn el t = Ok tt /\ cylindrical_confidence surface md mn el t zones radius s1 s2 = Ok 0 /\ ellipsoidal_confidence surface md mn el t zones mhz s1 s2 = Ok 0.
Proof. intros. split; [now apply new_ok|]. split; [now apply cylinder_unusable|now apply ellipsoid_unusable]. Qed.
Print Assumptions C27_unusable_pair.
(** it is 1 for all others if there is no elevation data *)
Theorem C27_no_surface : forall md mn el t zones radius mhz s1 s2, valid_params md mn el t -> usable_pair md mn el zones s1 s2 ->
  cylindrical_confidence None md mn el t zones radius s1 s2 = Ok 1 /\ ellipsoidal_confidence None md mn el t zones mhz s1 s2 = Ok 1.
Proof. intros. split; [now apply cylinder_no_surface|now apply ellipsoid_no_surface]. Qed.
Print Assumptions C27_no_surface.
(** cylinder: 0, or from the threshold to 1 *)
Theorem C27_cylinder_threshold : forall surface md mn el t zones radius s1 s2, valid_params md mn el t -> 0 < radius ->
  (surface = None \/ (ls_alt s1 <> None /\ ls_alt s2 <> None)) ->
  exists c, cylindrical_confidence surface md mn el t zones radius s1 s2 = Ok c /\ (c = 0 \/ t <= c <= 1).
Proof. intros. now apply cylinder_range. Qed.
Print Assumptions C27_cylinder_threshold.
(** ellipsoid: from 0 to 1 *)
Theorem C27_ellipsoid_range : forall surface md mn el t zones mhz s1 s2, valid_params md mn el t -> 0 < mhz ->
  (surface = None \/ (ls_alt s1 <> None /\ ls_alt s2 <> None)) ->
  exists c, ellipsoidal_confidence surface md mn el t zones mhz s1 s2 = Ok c /\ 0 <= c <= 1.
Proof. intros. now apply ellipsoid_range. Qed.
Print Assumptions C27_ellipsoid_range.
(** ellipsoid: 0, or from the threshold to 1, for level links *)
Theorem C27_ellipsoid_level : forall e md mn el t zones mhz s1 s2 a, valid_params md mn el t -> 0 < mhz -> raster e ->
  ls_alt s1 = Some a -> ls_alt s2 = Some a ->
  exists c, ellipsoidal_confidence (Some e) md mn el t zones mhz s1 s2 = Ok c /\ (c = 0 \/ t <= c <= 1).
Proof. intros. eapply ellipsoid_level; eauto. Qed.
Print Assumptions C27_ellipsoid_level.
(** and for all links if no cell is in a blind spot of the inner zone.  Missing: links with such cells, see below *)
Theorem C27_ellipsoid_threshold_partial : forall e md mn el t zones mhz s1 s2 a1 a2, valid_params md mn el t -> 0 < mhz -> raster e ->
  ls_alt s1 = Some a1 -> ls_alt s2 = Some a2 ->
  (forall ix iy, cell e ix iy -> ~ blind_spot s1 s2 a1 a2 (zone_radius mhz s1 s2 * t) (centre_x e ix) (centre_y e iy) (e_data e iy ix)) ->
  exists c, ellipsoidal_confidence (Some e) md mn el t zones mhz s1 s2 = Ok c /\ (c = 0 \/ t <= c <= 1).
Proof. intros. eapply ellipsoid_threshold; eauto. Qed.
Print Assumptions C27_ellipsoid_threshold_partial.
(** on a steep link a cell at the end can make the ellipsoid return a positive confidence below the threshold *)
Theorem C27_ellipsoid_threshold_refuted : exists e md mn el t mhz s1 s2 a1 a2 c, valid_params md mn el t /\ 0 < mhz /\ raster e /\
  ls_alt s1 = Some a1 /\ ls_alt s2 = Some a2 /\ usable_pair md mn el [] s1 s2 /\
  ellipsoidal_confidence (Some e) md mn el t [] mhz s1 s2 = Ok c /\ 0 < c < t.
Proof.
  exists (one 3 0 (39/10)), 100, 1, 90, (1/2), mhz, t1, t2, (-4), 4, low. split; [apply params_ok; lra|]. split; [exact mhz_pos|]. split; [apply one_raster|]. split; [reflexivity|]. split; [reflexivity|]. split; [exact steep_usable|]. split; [exact steep_low|exact low_range].
Qed.
Print Assumptions C27_ellipsoid_threshold_refuted.
Example C27_pair : valid_params 100 1 90 (1/4) /\ usable_pair 100 1 90 [] l1 l2 /\ cylindrical_confidence (Some (one 3 0 9)) 100 1 90 (1/4) [] 2 l1 l2 = Ok (1/2).
Proof. split; [apply params_ok; lra|]. split; [exact level_usable|exact level_half]. Qed.
Example C27_unusable : ~ usable_pair 5 1 90 [] l1 l2.
Proof. intros U. assert (R := up_range _ _ _ _ _ _ U). rewrite level_length in R. lra. Qed.
Example C27_no_blind_spot : forall ix iy, cell (one 3 0 9) ix iy -> ~ blind_spot l1 l2 10 10 (1/2) (centre_x (one 3 0 9) ix) (centre_y (one 3 0 9) iy) (e_data (one 3 0 9) iy ix).
Proof.
  intros ix iy _. destruct (new_fresnel_ok (1/4) 60000 ltac:(lra) ltac:(lra) l1 l2 10 10 eq_refl eq_refl) as (f & H & _ & F); [cbn; lra|]. eapply level_no_blind; [exact F|reflexivity|lra].
Qed.

(** the direction of a link does not matter to either model, also when they fail *)
Theorem C28_cylinder : forall surface md mn el t zones radius s1 s2, undirected zones ->
  cylindrical_confidence surface md mn el t zones radius s1 s2 = cylindrical_confidence surface md mn el t zones radius s2 s1.
Proof. intros. now apply cylinder_symmetric. Qed.
Print Assumptions C28_cylinder.
Theorem C28_ellipsoid : forall surface md mn el t zones mhz s1 s2, undirected zones ->
  ellipsoidal_confidence surface md mn el t zones mhz s1 s2 = ellipsoidal_confidence surface md mn el t zones mhz s2 s1.
Proof. intros. now apply ellipsoid_symmetric. Qed.
Print Assumptions C28_ellipsoid.
Example C28_zones : undirected [fun p q => rle (fst p) 3 && rle 3 (fst q) || rle (fst q) 3 && rle 3 (fst p)]%bool.
Proof. intros z p q [<-|[]]. apply orb_comm. Qed.
Example C28_pairs : cylindrical_confidence (Some (one 3 0 9)) 100 1 90 (1/4) [] 2 l2 l1 = Ok (1/2) /\ ellipsoidal_confidence (Some (one 3 0 (39/10))) 100 1 90 (1/2) [] mhz t2 t1 = Ok low.
Proof. split; [rewrite C28_cylinder by (intros z p q []); exact level_half|rewrite C28_ellipsoid by (intros z p q []); exact steep_low]. Qed.

(** cylinder: with confidence [c] nothing under the top of any cell beside the line comes nearer to the line than
    [c] times the radius, except for a cell whose top is nearest to the line past one of the sites *)
Theorem C56_cylinder_clear : forall e md mn el t zones radius s1 s2 a1 a2 c, valid_params md mn el t -> 0 < radius -> raster e ->
  ls_alt s1 = Some a1 -> ls_alt s2 = Some a2 -> cylindrical_confidence (Some e) md mn el t zones radius s1 s2 = Ok c -> 0 < c ->
  forall ix iy, cell e ix iy -> in_area e (centre_x e ix) (centre_y e iy) -> beside s1 s2 radius (centre_x e ix) (centre_y e iy) ->
    past_an_end s1 s2 a1 a2 (centre_x e ix) (centre_y e iy) (e_data e iy ix) \/
    forall p z, z <= e_data e iy ix -> c * radius <= gap s1 s2 a1 a2 p (centre_x e ix) (centre_y e iy) z.
Proof. intros. eapply cylinder_clear; eauto. Qed.
Print Assumptions C56_cylinder_clear.
(** ellipsoid, level links: nothing under the top of a cell is in the zone with [c] times the radius.  Missing: links
    that are not level, see below *)
Theorem C56_level_zone_clear_partial : forall e md mn el t zones mhz s1 s2 a c, valid_params md mn el t -> 0 < mhz -> raster e ->
  ls_alt s1 = Some a -> ls_alt s2 = Some a -> ellipsoidal_confidence (Some e) md mn el t zones mhz s1 s2 = Ok c -> 0 < c ->
  forall ix iy, cell e ix iy -> in_area e (centre_x e ix) (centre_y e iy) -> under_zone s1 s2 (zone_radius mhz s1 s2) (centre_x e ix) (centre_y e iy) ->
    forall z, z <= e_data e iy ix -> ~ in_zone s1 s2 a a (c * zone_radius mhz s1 s2) (centre_x e ix) (centre_y e iy) z.
Proof. intros. eapply ellipsoid_clear; eauto. Qed.
Print Assumptions C56_level_zone_clear_partial.
(** ellipsoid, steep links: a cell reaches into the zone that is said to be clear *)
Theorem C56_steep_zone_refuted : exists e md mn el t mhz s1 s2 a1 a2 c, valid_params md mn el t /\ 0 < mhz /\ raster e /\
  ls_alt s1 = Some a1 /\ ls_alt s2 = Some a2 /\ ellipsoidal_confidence (Some e) md mn el t [] mhz s1 s2 = Ok c /\ 0 < c /\
  exists ix iy z, cell e ix iy /\ in_area e (centre_x e ix) (centre_y e iy) /\ z <= e_data e iy ix /\
    in_zone s1 s2 a1 a2 (c * zone_radius mhz s1 s2) (centre_x e ix) (centre_y e iy) z.
Proof.
  exists (one 2 (1/2) 3), 100, 1, 90, 0, mhz, t1, t2, (-4), 4, mid. split; [apply params_ok; lra|]. split; [exact mhz_pos|]. split; [apply one_raster|]. split; [reflexivity|]. split; [reflexivity|]. split; [exact steep_mid|]. split; [apply mid_range|].
  exists 0%Z, 0%Z, (13/5). split; [apply one_cell|]. rewrite one_x, one_y, steep_radius, Rmult_1_r. split; [unfold in_area, one; cbn [e_min_x e_min_y e_max_x e_max_y]; lra|]. split; [cbn [one e_data]; lra|exact steep_not_clear].
Qed.
Print Assumptions C56_steep_zone_refuted.
Example C56_wall : cylindrical_confidence (Some (one 3 0 9)) 100 1 90 (1/4) [] 2 l1 l2 = Ok (1/2) /\ beside l1 l2 2 (centre_x (one 3 0 9) 0) (centre_y (one 3 0 9) 0) /\
  in_area (one 3 0 9) (centre_x (one 3 0 9) 0) (centre_y (one 3 0 9) 0).
Proof.
  split; [exact level_half|]. rewrite one_x, one_y. split; [|unfold in_area, one; cbn [e_min_x e_min_y e_max_x e_max_y]; lra].
  exists (1/2), 0. cbn [l1 l2 ls_x ls_y]. split; [lra|]. split; [lra|]. replace ((6 - 0) ^ 2 + (0 - 0) ^ 2) with (6 * 6) by ring. rewrite sqrt_square by lra. lra.
Qed.
Example C56_pit : ellipsoidal_confidence (Some (one 3 0 5)) 100 1 90 0 [] mhz6 l1 l2 = Ok 1 /\ cell (one 3 0 5) 0 0 /\ under_zone l1 l2 (zone_radius mhz6 l1 l2) (centre_x (one 3 0 5) 0) (centre_y (one 3 0 5) 0).
Proof. split; [exact level_one|]. split; [apply one_cell|]. rewrite one_x, one_y. exact level_under. Qed.
