(** Proofs of C27, C28 and C56: the ellipsoid. *)
From Coq Require Import Reals Lra Psatz.
From Verif Require Import Base MonadLib ElevModel ElevSpec ElevProofs LosGeomModel LosGeomSpec LosGeomProofs.
Local Open Scope R_scope.

Section Zone.
Variables threshold frequency_mhz : R.
Hypothesis TH : 0 <= threshold <= 1.
Hypothesis FP : 0 < frequency_mhz.
Variables s1 s2 : lsite.
Variables a1 a2 : R.
Hypothesis A1 : ls_alt s1 = Some a1.
Hypothesis A2 : ls_alt s2 = Some a2.
Hypothesis AP : ~ (ls_x s1 = ls_x s2 /\ ls_y s1 = ls_y s2).
Notation x1 := (ls_x s1).
Notation y1 := (ls_y s1).
Notation dx := (ls_x s2 - ls_x s1).
Notation dy := (ls_y s2 - ls_y s1).
Notation dz := (a2 - a1).
Notation rad := (zone_radius frequency_mhz s1 s2).

(** the constants of the zone, without square roots *)
Record zone_facts (f : fresnel) (H : R) : Prop := {
  zf_H : 0 < H; zf_cb : 0 < f_cos_b f;
  zf_a : f_cos_a f * f_cos_a f + f_sin_a f * f_sin_a f = 1; zf_b : f_cos_b f * f_cos_b f + f_sin_b f * f_sin_b f = 1;
  zf_dx : dx = 2 * H * f_cos_b f * f_cos_a f; zf_dy : dy = 2 * H * f_cos_b f * f_sin_a f; zf_dz : dz = 2 * H * f_sin_b f;
  zf_half : f_half_sq f = H * H; zf_half_xy : f_half_xy_sq f = H * H * (f_cos_b f * f_cos_b f);
  zf_outer : f_outer f = rad; zf_pos : 0 < rad; zf_outer_sq : f_outer_sq f = rad * rad; zf_inner_sq : f_inner_sq f = rad * threshold * (rad * threshold);
  zf_xm : f_xm f = x1 + dx / 2; zf_ym : f_ym f = y1 + dy / 2; zf_zm : f_zm f = a1 + dz / 2;
  zf_plane : forall x y, - (f_a_over_c f * x + f_b_over_c f * y + f_d_over_c f) = line_height s1 s2 a1 a2 x y }.
Lemma multiplier_pos : 0 < FIRST_ZONE_MULTIPLIER. Proof. unfold FIRST_ZONE_MULTIPLIER. lra. Qed.
Lemma new_fresnel_ok : exists f H, new_fresnel threshold frequency_mhz s1 s2 = Ok f /\ zone_facts f H.
Proof.
  assert (P := l2_pos s1 s2 AP). assert (Z := sq_pos dz). unfold new_fresnel.
  replace (rle 0 threshold && rle threshold 1)%bool with true by (symmetry; rewrite andb_true_iff, !rle_true; lra). cbn [negb].
  destruct (same_xy s1 s2) eqn:S; [destruct AP; now apply same_xy_true|]. rewrite A1, A2.
  set (l2 := dx * dx + dy * dy) in *. set (d2 := l2 + dz * dz). assert (PD : 0 < d2) by (unfold d2; lra).
  set (l := sqrt l2). set (d := sqrt d2). assert (Pl : 0 < l) by (now apply sqrt_lt_R0). assert (Pd : 0 < d) by (now apply sqrt_lt_R0).
  assert (Ll : l * l = l2) by (apply sqrt_sqrt; lra). assert (Dd : d * d = d2) by (apply sqrt_sqrt; lra).
  destruct (req frequency_mhz 0) eqn:E0; [apply req_true in E0; lra|]. assert (Q : 0 < d / frequency_mhz) by (apply Rdiv_lt_0_compat; lra).
  destruct (rlt (d / frequency_mhz) 0) eqn:E1; [apply rlt_true in E1; lra|].
  assert (Ed : los_length s1 s2 = d). { unfold los_length, rise. rewrite A1, A2. unfold d, d2, l2. f_equal. ring. }
  assert (Er : FIRST_ZONE_MULTIPLIER * sqrt (d / frequency_mhz) = rad) by (unfold zone_radius; now rewrite Ed).
  eexists. exists (d / 2). split; [reflexivity|]. constructor; cbn [f_cos_a f_sin_a f_cos_b f_sin_b f_outer f_outer_sq f_inner_sq f_xm f_ym f_zm f_half_sq f_half_xy_sq f_a_over_c f_b_over_c f_d_over_c]; try rewrite !Er.
  - lra.
  - now apply Rdiv_lt_0_compat.
  - replace (dx / l * (dx / l) + dy / l * (dy / l)) with (l2 / (l * l)) by (unfold l2; field; lra). rewrite Ll. field. lra.
  - replace (l / d * (l / d) + dz / d * (dz / d)) with ((l * l + dz * dz) / (d * d)) by (field; lra). rewrite Ll, Dd. fold d2. field. lra.
  - field. lra.
  - field. lra.
  - field. lra.
  - rewrite <- Dd. field.
  - rewrite <- Ll. field. lra.
  - reflexivity.
  - rewrite <- Er. apply Rmult_lt_0_compat; [apply multiplier_pos|now apply sqrt_lt_R0].
  - reflexivity.
  - reflexivity.
  - field.
  - field.
  - field.
  - intros x y. unfold line_height. replace (dx ^ 2 + dy ^ 2) with l2 by (unfold l2; ring). destruct (negb (req dx 0)) eqn:X.
    + rewrite negb_true_iff, req_false in X. cbn [fst snd]. unfold l2. field. fold l2. split; [lra|assumption].
    + rewrite negb_false_iff, req_true in X. cbn [fst snd]. assert (Y : dy <> 0) by (intros C; unfold l2 in P; rewrite X, C in P; lra). unfold l2. field. split; [|assumption || (unfold l2 in P; lra)]; assumption || (unfold l2 in P; lra).
Qed.

Section Facts.
Variables (f : fresnel) (H : R).
Hypothesis ZF : zone_facts f H.
Notation ca := (f_cos_a f).
Notation sa := (f_sin_a f).
Notation cb := (f_cos_b f).
Notation sb := (f_sin_b f).
Notation X x y := ((x - f_xm f) * ca + (y - f_ym f) * sa).
Notation Y x y := ((f_xm f - x) * sa + (y - f_ym f) * ca).
Notation W x y z := (X x y * cb + (z - f_zm f) * sb).
Notation V x y z := ((z - f_zm f) * cb - X x y * sb).
Definition e3 (rr x y z : R) : R := W x y z * W x y z / (H * H) + (Y x y * Y x y + V x y z * V x y z) / rr.
Definition e2 (rr x y : R) : R := X x y * X x y / (H * H * (cb * cb)) + Y x y * Y x y / rr.
Lemma length_sq : dx ^ 2 + dy ^ 2 + dz ^ 2 = 4 * H * H.
Proof.
  destruct ZF. rewrite zf_dx0, zf_dy0, zf_dz0. transitivity (4 * H * H * (cb * cb * (ca * ca + sa * sa) + sb * sb)); [ring|]. rewrite zf_a0, Rmult_1_r, zf_b0. ring.
Qed.
Lemma map_length_sq : dx ^ 2 + dy ^ 2 = 4 * H * H * (cb * cb).
Proof. destruct ZF. rewrite zf_dx0, zf_dy0. transitivity (4 * H * H * (cb * cb) * (ca * ca + sa * sa)); [ring|]. rewrite zf_a0. ring. Qed.
Lemma foot_eq x y z : foot s1 s2 a1 a2 x y z = W x y z / (2 * H) + / 2.
Proof.
  assert (L := length_sq). unfold foot. rewrite L. destruct ZF. rewrite zf_xm0, zf_ym0, zf_zm0 in *.
  replace ((x - x1) * dx + (y - y1) * dy + (z - a1) * dz) with ((x - (x1 + dx / 2)) * dx + (y - (y1 + dy / 2)) * dy + (z - (a1 + dz / 2)) * dz + (dx ^ 2 + dy ^ 2 + dz ^ 2) / 2) by field.
  rewrite L. set (u := x - (x1 + dx / 2)). set (v := y - (y1 + dy / 2)). set (w := z - (a1 + dz / 2)). rewrite zf_dx0, zf_dy0, zf_dz0. field. lra.
Qed.
Lemma split_u x y : x - f_xm f = X x y * ca - Y x y * sa /\ y - f_ym f = X x y * sa + Y x y * ca.
Proof.
  destruct ZF. split.
  - transitivity ((x - f_xm f) * (ca * ca + sa * sa)); [rewrite zf_a0|]; ring.
  - transitivity ((y - f_ym f) * (ca * ca + sa * sa)); [rewrite zf_a0|]; ring.
Qed.
Lemma gap_eq x y z : (gap s1 s2 a1 a2 (foot s1 s2 a1 a2 x y z) x y z)^2 = Y x y * Y x y + V x y z * V x y z.
Proof.
  unfold gap, dist3. rewrite pow2_sqrt; [|match goal with |- 0 <= ?a^2 + ?b^2 + ?c^2 => assert (Q1 := sq_pos a); assert (Q2 := sq_pos b); assert (Q3 := sq_pos c); simpl; lra end].
  rewrite foot_eq. destruct (split_u x y) as [Eu Ev]. destruct ZF. set (w := W x y z). set (p := X x y) in *. set (q := Y x y) in *.
  assert (G1 : x1 + (w / (2 * H) + / 2) * dx - x = w * cb * ca - (x - f_xm f)) by (rewrite zf_xm0, zf_dx0; field; lra).
  assert (G2 : y1 + (w / (2 * H) + / 2) * dy - y = w * cb * sa - (y - f_ym f)) by (rewrite zf_ym0, zf_dy0; field; lra).
  assert (G3 : a1 + (w / (2 * H) + / 2) * dz - z = w * sb - (z - f_zm f)) by (rewrite zf_zm0, zf_dz0; field; lra).
  rewrite G1, G2, G3, Eu, Ev. unfold w. set (t := z - f_zm f).
  transitivity (((p * cb + t * sb) * cb - p) ^ 2 * (ca * ca + sa * sa) + q * q * (ca * ca + sa * sa) + ((p * cb + t * sb) * sb - t) ^ 2); [ring|]. rewrite zf_a0.
  replace ((p * cb + t * sb) * cb - p) with (p * (cb * cb - 1) + t * sb * cb) by ring. replace ((p * cb + t * sb) * sb - t) with (t * (sb * sb - 1) + p * cb * sb) by ring.
  replace (cb * cb - 1) with (- (sb * sb)) by lra. replace (sb * sb - 1) with (- (cb * cb)) by lra. transitivity (q * q + (t * cb - p * sb) * (t * cb - p * sb) * (cb * cb + sb * sb)); [ring|]. rewrite zf_b0. ring.
Qed.
Lemma in_zone_iff r x y z : 0 < r -> in_zone s1 s2 a1 a2 r x y z <-> e3 (r * r) x y z < 1.
Proof.
  intros Rp. unfold in_zone, e3. cbn zeta. replace ((gap s1 s2 a1 a2 (foot s1 s2 a1 a2 x y z) x y z / r) ^ 2) with ((gap s1 s2 a1 a2 (foot s1 s2 a1 a2 x y z) x y z) ^ 2 / (r * r)) by (field; lra).
  rewrite gap_eq, foot_eq. destruct ZF. replace ((2 * (W x y z / (2 * H) + / 2) - 1) ^ 2) with (W x y z * W x y z / (H * H)) by (field; lra). reflexivity.
Qed.
Lemma map_foot_eq x y : map_foot s1 s2 x y = X x y / (2 * H * cb) + / 2.
Proof.
  assert (L := map_length_sq). unfold map_foot. rewrite L. destruct ZF. rewrite zf_xm0, zf_ym0 in *.
  replace ((x - x1) * dx + (y - y1) * dy) with ((x - (x1 + dx / 2)) * dx + (y - (y1 + dy / 2)) * dy + (dx ^ 2 + dy ^ 2) / 2) by field.
  rewrite L. set (u := x - (x1 + dx / 2)). set (v := y - (y1 + dy / 2)). rewrite zf_dx0, zf_dy0. field. lra.
Qed.
Lemma under_iff r x y : 0 < r -> under_zone s1 s2 r x y <-> e2 (r * r) x y <= 1.
Proof.
  intros Rp. unfold under_zone, e2. cbn zeta. rewrite map_foot_eq. destruct (split_u x y) as [Eu Ev]. destruct ZF. set (w := X x y) in *. set (q := Y x y) in *.
  assert (G1 : x1 + (w / (2 * H * cb) + / 2) * dx - x = w * ca - (x - f_xm f)) by (rewrite zf_xm0, zf_dx0; field; lra).
  assert (G2 : y1 + (w / (2 * H * cb) + / 2) * dy - y = w * sa - (y - f_ym f)) by (rewrite zf_ym0, zf_dy0; field; lra).
  rewrite G1, G2, Eu, Ev.
  replace ((2 * (w / (2 * H * cb) + / 2) - 1) ^ 2) with (w * w / (H * H * (cb * cb))) by (field; lra).
  replace ((w * ca - (w * ca - q * sa)) ^ 2 + (w * sa - (w * sa + q * ca)) ^ 2) with (q * q * (ca * ca + sa * sa)) by ring. rewrite zf_a0, Rmult_1_r. replace (r ^ 2) with (r * r) by ring. reflexivity.
Qed.
Lemma in_ellipse_true r_sq x y : in_ellipse f r_sq x y = true <-> e2 r_sq x y <= 1.
Proof.
  unfold in_ellipse, e2. rewrite rle_true. destruct ZF. rewrite zf_half_xy0. replace (((x - f_xm f) * sa - (y - f_ym f) * ca) * ((x - f_xm f) * sa - (y - f_ym f) * ca)) with (Y x y * Y x y) by ring. reflexivity.
Qed.
Lemma line_eq x y : line_height s1 s2 a1 a2 x y = f_zm f + X x y * sb / cb.
Proof.
  change (line_height s1 s2 a1 a2 x y) with (a1 + map_foot s1 s2 x y * dz). rewrite map_foot_eq. destruct ZF. rewrite zf_zm0. rewrite zf_dz0. field. lra.
Qed.
(** on the line height the two ellipses agree *)
Lemma e3_line rr x y : e3 rr x y (line_height s1 s2 a1 a2 x y) = e2 rr x y.
Proof.
  rewrite line_eq. unfold e3, e2. destruct ZF. set (p := X x y). replace (f_zm f + p * sb / cb - f_zm f) with (p * sb / cb) by ring.
  replace (p * sb / cb * cb - p * sb) with 0 by (field; lra). replace (p * cb + p * sb / cb * sb) with (p * (cb * cb + sb * sb) / cb) by (field; lra). rewrite zf_b0. rewrite Rmult_0_l, Rplus_0_r. f_equal. field. lra.
Qed.
Lemma e3_mono r r' x y z : 0 < r <= r' -> e3 r' x y z <= e3 r x y z.
Proof.
  intros [A B]. unfold e3. apply Rplus_le_compat_l. unfold Rdiv. apply Rmult_le_compat_l; [assert (Q1 := sq_pos (Y x y)); assert (Q2 := sq_pos (V x y z)); lra|]. now apply Rinv_le_contravar.
Qed.
Lemma lower_ok x y rr : 0 < rr -> exists h, lower_height f x y rr = Ok h /\
  match h with None => forall z, 1 <= e3 rr x y z | Some h => forall z, z < h -> 1 < e3 rr x y z end.
Proof.
  intros R. destruct ZF. unfold lower_height. rewrite zf_half0.
  set (qa := sb * sb / (H * H) + cb * cb / rr).
  match goal with |- context [2 * ?e] => set (qb := 2 * e) end. match goal with |- context [?e - 1] => set (qc := e - 1) end.
  assert (Qa : 0 < qa).
  { unfold qa. assert (0 <= sb * sb / (H * H)) by (apply Rmult_le_pos; [apply sq_pos|left; apply Rinv_0_lt_compat, Rmult_lt_0_compat; lra]). assert (0 < cb * cb / rr) by (apply Rdiv_lt_0_compat; [apply Rmult_lt_0_compat|]; lra). lra. }
  assert (E : forall z, e3 rr x y z - 1 = qa * (z - f_zm f) * (z - f_zm f) + qb * (z - f_zm f) + qc).
  { intros z. unfold e3, qa, qb, qc. field. split; lra. }
  set (qd := qb * qb - 4 * qa * qc). destruct (rlt 0 qa) eqn:B; [|apply rlt_false in B; lra]. cbn [negb]. clear B. destruct (rle qd 0) eqn:B.
  - apply rle_true in B. exists None. split; [reflexivity|]. intros z. specialize (E z). set (t := z - f_zm f) in *. assert (S := sq_pos (2 * qa * t + qb)).
    assert (I : 4 * qa * (qa * t * t + qb * t + qc) = (2 * qa * t + qb) * (2 * qa * t + qb) - qd) by (unfold qd; ring). assert (J : 0 <= 4 * qa * (qa * t * t + qb * t + qc)) by lra.
    apply Rnot_lt_le. intros C. assert (K : 0 < qa * (- (qa * t * t + qb * t + qc))) by (apply Rmult_lt_0_compat; lra). lra.
  - apply rle_false in B. set (q := sqrt qd). assert (Q : 0 < q) by (now apply sqrt_lt_R0). assert (QQ : q * q = qd) by (apply sqrt_sqrt; lra).
    set (root := (- qb - q) / (2 * qa)).
    assert (S : exists h, (if rle 0 qb then Ok (Some (root + f_zm f)) else Ok (Some (2 * qc / (- qb + q) + f_zm f))) = Ok (Some (root + f_zm f)) /\ h = root + f_zm f).
    { eexists. split; [|reflexivity]. destruct (rle 0 qb) eqn:N; [reflexivity|]. apply rle_false in N. do 2 f_equal. f_equal. unfold root. apply Rmult_eq_reg_r with (2 * qa * (- qb + q)); [|apply Rmult_integral_contrapositive; split; lra].
      replace (2 * qc / (- qb + q) * (2 * qa * (- qb + q))) with (4 * qa * qc) by (field; lra). replace ((- qb - q) / (2 * qa) * (2 * qa * (- qb + q))) with (qb * qb - q * q) by (field; lra). rewrite QQ. unfold qd. ring. }
    destruct S as (h & -> & ->). eexists. split; [reflexivity|]. cbn iota beta. intros z Hz. specialize (E z). set (t := z - f_zm f) in *. assert (T : t < root) by (unfold t; lra).
    assert (R1 : 2 * qa * root + qb = - q) by (unfold root; field; lra). assert (R2 : qa * root * root + qb * root + qc = 0).
    { apply Rmult_eq_reg_l with (4 * qa); [|lra]. transitivity ((2 * qa * root + qb) * (2 * qa * root + qb) - qd); [unfold qd; ring|]. rewrite R1, <- QQ. ring. }
    assert (I : qa * t * t + qb * t + qc = qa * ((root - t) * (root - t)) + q * (root - t)). { transitivity (qa * ((root - t) * (root - t)) + (2 * qa * root + qb) * (t - root) + (qa * root * root + qb * root + qc)); [ring|]. rewrite R1, R2. ring. }
    assert (0 < q * (root - t)) by (apply Rmult_lt_0_compat; lra). assert (0 <= qa * ((root - t) * (root - t))) by (apply Rmult_le_pos; [lra|apply sq_pos]). lra.
Qed.
Lemma radius_2d_ok r x y : 0 < r <= rad -> (1 <= e2 (r * r) x y -> r <= max_radius_2d f x y) /\ 0 <= max_radius_2d f x y.
Proof.
  intros R. unfold max_radius_2d, e2. destruct ZF. rewrite zf_half_xy0, zf_outer0. set (p := X x y). replace (((x - f_xm f) * sa - (y - f_ym f) * ca) * ((x - f_xm f) * sa - (y - f_ym f) * ca)) with (Y x y * Y x y) by ring. set (q := Y x y).
  set (a := p * p / (H * H * (cb * cb))). destruct (rle 1 a) eqn:A; [split; lra|]. apply rle_false in A. split; [|apply sqrt_pos]. intros E. assert (P : 0 < r * r) by (apply Rmult_lt_0_compat; lra).
  rewrite <- (sqrt_square r) by lra. apply sqrt_le_1_alt. apply Rmult_le_reg_r with (1 - a); [lra|]. replace (q * q / (1 - a) * (1 - a)) with (q * q) by (field; lra).
  assert (K : (1 - a) * (r * r) <= q * q / (r * r) * (r * r)) by (apply Rmult_le_compat_r; lra). replace (q * q / (r * r) * (r * r)) with (q * q) in K by (field; lra). lra.
Qed.
Lemma radius_3d_ok r x y z : 0 < r <= rad -> (1 <= e3 (r * r) x y z -> r <= max_radius_3d f x y z) /\ 0 <= max_radius_3d f x y z.
Proof.
  intros R. unfold max_radius_3d, e3. destruct ZF. rewrite zf_half0, zf_outer0.
  replace ((x - f_xm f) * ca * cb + (y - f_ym f) * sa * cb + (z - f_zm f) * sb) with (W x y z) by ring. replace ((f_xm f - x) * ca * sb + (f_ym f - y) * sa * sb + (z - f_zm f) * cb) with (V x y z) by ring.
  set (w := W x y z). set (q := Y x y). set (v := V x y z). set (a := w * w / (H * H)). destruct (rle 1 a) eqn:A; [split; lra|]. apply rle_false in A. split; [|apply sqrt_pos]. intros E. assert (P : 0 < r * r) by (apply Rmult_lt_0_compat; lra).
  rewrite <- (sqrt_square r) by lra. apply sqrt_le_1_alt. apply Rmult_le_reg_r with (1 - a); [lra|]. replace ((q * q + v * v) / (1 - a) * (1 - a)) with (q * q + v * v) by (field; lra).
  assert (K : (1 - a) * (r * r) <= (q * q + v * v) / (r * r) * (r * r)) by (apply Rmult_le_compat_r; lra). replace ((q * q + v * v) / (r * r) * (r * r)) with (q * q + v * v) in K by (field; lra). lra.
Qed.

Notation inner_sq := (f_inner_sq f).
Notation thr := (rad * threshold).
Lemma max_ok p : exists m, max_fresnel_radius f p = Ok m /\ 0 <= m /\
  forall r, 0 < r <= rad -> (pz p < line_height s1 s2 a1 a2 (px p) (py p) -> 1 <= e3 (r * r) (px p) (py p) (pz p)) -> (line_height s1 s2 a1 a2 (px p) (py p) <= pz p -> 1 <= e2 (r * r) (px p) (py p)) -> r <= m.
Proof.
  destruct ZF. unfold max_fresnel_radius. rewrite zf_outer_sq0. assert (P : 0 < rad * rad) by (apply Rmult_lt_0_compat; lra). destruct (lower_ok (px p) (py p) (rad * rad) P) as (h & -> & Hh). cbn [rbind]. rewrite zf_plane0, zf_outer0.
  destruct (match h with None => true | Some h0 => rlt (pz p) h0 end); [exists rad; split; [reflexivity|]; split; intros; lra|].
  destruct (rle (line_height s1 s2 a1 a2 (px p) (py p)) (pz p)) eqn:L.
  - apply rle_true in L. eexists. split; [reflexivity|]. split; [apply (radius_2d_ok rad); lra|]. intros r R _ K. apply radius_2d_ok; auto.
  - apply rle_false in L. eexists. split; [reflexivity|]. split; [apply (radius_3d_ok rad); lra|]. intros r R K _. apply radius_3d_ok; auto.
Qed.
Lemma at_end_true x y : (req x x1 && req y y1 || req x (ls_x s2) && req y (ls_y s2))%bool = true <-> at_an_end s1 s2 x y.
Proof. unfold at_an_end. rewrite orb_true_iff, !andb_true_iff, !req_true. reflexivity. Qed.
Lemma at_end_e2 rr x y : 0 < rr -> at_an_end s1 s2 x y -> 1 <= e2 rr x y.
Proof.
  intros P A. unfold e2. destruct ZF. assert (Q : 0 <= Y x y * Y x y / rr) by (apply Rmult_le_pos; [apply sq_pos|left; now apply Rinv_0_lt_compat]).
  assert (E : X x y * X x y = H * H * (cb * cb)).
  { assert (E : X x y = H * cb * (ca * ca + sa * sa) \/ X x y = - (H * cb * (ca * ca + sa * sa))).
    { rewrite zf_xm0, zf_ym0. destruct A as [[-> ->]|[-> ->]]; [right|left].
      - replace (x1 - (x1 + dx / 2)) with (- (dx / 2)) by ring. replace (y1 - (y1 + dy / 2)) with (- (dy / 2)) by ring. rewrite zf_dx0, zf_dy0. field.
      - replace (ls_x s2 - (x1 + dx / 2)) with (dx / 2) by field. replace (ls_y s2 - (y1 + dy / 2)) with (dy / 2) by field. rewrite zf_dx0, zf_dy0. field. }
    rewrite zf_a0 in E. destruct E as [E|E]; rewrite E; ring. }
  rewrite E. replace (H * H * (cb * cb) / (H * H * (cb * cb))) with 1 by (field; lra). lra.
Qed.
Lemma inner_ok p : exists b, obstructs_inner threshold s1 s2 f p = Ok b /\
  (b = false -> 0 < threshold -> ~ at_an_end s1 s2 (px p) (py p) -> under_zone s1 s2 thr (px p) (py p) ->
     1 <= e3 (thr * thr) (px p) (py p) (pz p) /\ (line_height s1 s2 a1 a2 (px p) (py p) <= pz p -> 1 <= e2 (thr * thr) (px p) (py p))).
Proof.
  unfold obstructs_inner. destruct ((req (px p) x1 && req (py p) y1 || req (px p) (ls_x s2) && req (py p) (ls_y s2))%bool) eqn:A.
  { exists false. split; [reflexivity|]. intros _ _ X. destruct X. now apply at_end_true. }
  destruct (req threshold 0) eqn:T; [apply req_true in T; exists false; split; [reflexivity|]; intros; lra|]. apply req_false in T. assert (T0 : 0 < threshold) by lra. destruct ZF.
  assert (P : 0 < thr) by (apply Rmult_lt_0_compat; lra). assert (PP : 0 < thr * thr) by (apply Rmult_lt_0_compat; lra). rewrite zf_inner_sq0.
  destruct (in_ellipse f (thr * thr) (px p) (py p)) eqn:E.
  2:{ exists false. split; [reflexivity|]. intros _ _ _ U. apply under_iff in U; [|exact P]. apply in_ellipse_true in U. congruence. }
  cbn [negb]. apply in_ellipse_true in E. destruct (lower_ok (px p) (py p) _ PP) as (h & -> & Hh). cbn [rbind]. eexists. split; [reflexivity|]. intros B _ _ _. destruct h as [h|].
  - apply rle_false in B. split; [left; now apply Hh|]. intros L. assert (N := e3_line (thr * thr) (px p) (py p)). assert (K : line_height s1 s2 a1 a2 (px p) (py p) < h) by lra. specialize (Hh _ K). lra.
  - split; [apply Hh|]. intros _. rewrite <- e3_line. apply Hh.
Qed.
Lemma scan_zone_ok : forall l least, exists o, scan_zone threshold s1 s2 f l least = Ok o /\
  match o with
  | None => True
  | Some m => m <= least /\ (forall p, In p l -> obstructs_inner threshold s1 s2 f p = Ok false /\ exists m', max_fresnel_radius f p = Ok m' /\ m <= m') /\
      forall q, q <= least -> (forall p m', In p l -> max_fresnel_radius f p = Ok m' -> q <= m') -> q <= m
  end.
Proof.
  induction l as [|p l IH]; intros least; cbn [scan_zone].
  { exists (Some least). split; [reflexivity|]. split; [lra|]. split; [intros ? []|auto]. }
  destruct (inner_ok p) as (b & Eb & _). rewrite Eb. cbn [rbind]. destruct b; [exists None; auto|]. destruct (max_ok p) as (m & Em & _). rewrite Em. cbn [rbind].
  destruct (IH (Rmin m least)) as (o & -> & Ho). exists o. split; [reflexivity|]. destruct o as [k|]; [|exact I]. destruct Ho as (K1 & K2 & K3).
  assert (M1 := Rmin_l m least). assert (M2 := Rmin_r m least). split; [lra|]. split.
  - intros q [<-|Hq]; [split; [exact Eb|]; exists m; split; [exact Em|lra]|now apply K2].
  - intros q Q1 Q2. apply K3; [|intros p' m' Hp; apply Q2; now right]. apply Rmin_glb; [apply (Q2 p); [now left|exact Em]|exact Q1].
Qed.

(** ** level links *)
Section Level.
Hypothesis LV : a1 = a2.
Lemma level_sb : sb = 0.
Proof. destruct ZF. assert (E : 2 * H * sb = 0) by lra. apply Rmult_integral in E. destruct E as [E|E]; [|exact E]. lra. Qed.
Lemma level_cb : cb * cb = 1.
Proof. assert (B := level_sb). destruct ZF. rewrite B in zf_b0. lra. Qed.
Lemma level_e3 rr x y z : 0 < rr -> e3 rr x y z = e2 rr x y + (z - a1) * (z - a1) / rr.
Proof.
  intros P. assert (B := level_sb). assert (C := level_cb). unfold e3, e2. destruct ZF. rewrite B, C. replace (f_zm f) with a1 by (rewrite zf_zm0, LV; field). set (p := X x y). set (q := Y x y).
  replace ((p * cb + (z - a1) * 0) * (p * cb + (z - a1) * 0)) with (p * p * (cb * cb)) by ring. replace (((z - a1) * cb - p * 0) * ((z - a1) * cb - p * 0)) with ((z - a1) * (z - a1) * (cb * cb)) by ring. rewrite C. field. split; lra.
Qed.
Lemma level_le rr x y z : 0 < rr -> e2 rr x y <= e3 rr x y z.
Proof. intros P. rewrite level_e3 by exact P. assert (0 <= (z - a1) * (z - a1) / rr) by (apply Rmult_le_pos; [apply sq_pos|left; now apply Rinv_0_lt_compat]). lra. Qed.
Lemma level_no_blind r x y z : 0 < r -> ~ blind_spot s1 s2 a1 a2 r x y z.
Proof.
  intros P (I & _ & D). assert (PP : 0 < r * r) by (now apply Rmult_lt_0_compat). apply in_zone_iff in I; [|exact P]. assert (L := level_le (r * r) x y z PP). destruct D as [D|D].
  - apply (at_end_e2 (r * r)) in D; [lra|exact PP].
  - apply D. apply under_iff; [exact P|]. lra.
Qed.
Lemma level_line x y : line_height s1 s2 a1 a2 x y = a1.
Proof. unfold line_height. rewrite <- LV. ring. Qed.
Lemma div_mono q a b : 0 <= q -> 0 < a <= b -> q / b <= q / a.
Proof. intros Q [A B]. unfold Rdiv. apply Rmult_le_compat_l; [exact Q|]. now apply Rinv_le_contravar. Qed.
Lemma sq_mono a b : 0 < a <= b -> 0 < a * a <= b * b.
Proof. intros [A B]. split; [now apply Rmult_lt_0_compat|]. apply Rmult_le_compat; lra. Qed.
Lemma level_clear p m r z : max_fresnel_radius f p = Ok m -> 0 < r <= m -> r <= rad -> z <= pz p -> 1 <= e3 (r * r) (px p) (py p) z.
Proof.
  intros E [R1 R2] R3 Hz. assert (RR := sq_mono r rad (conj R1 R3)). unfold max_fresnel_radius in E. destruct ZF. rewrite zf_outer_sq0 in E. assert (P : 0 < rad * rad) by (apply Rmult_lt_0_compat; lra). destruct (lower_ok (px p) (py p) (rad * rad) P) as (h & Eh & Hh). rewrite Eh in E. cbn [rbind] in E. rewrite zf_plane0, level_line in E.
  assert (M := e3_mono (r * r) (rad * rad) (px p) (py p) z RR).
  destruct h as [h|]; [|specialize (Hh z); lra]. destruct (rlt (pz p) h) eqn:B; [apply rlt_true in B; specialize (Hh z); lra|]. clear Hh B Eh.
  assert (RR0 : 0 < r * r) by lra. assert (C := level_cb). destruct (rle a1 (pz p)) eqn:L.
  - injection E as <-. apply Rle_trans with (e2 (r * r) (px p) (py p)); [|now apply level_le]. unfold max_radius_2d in R2. unfold e2. rewrite zf_half_xy0, zf_outer0 in R2.
    set (a := X (px p) (py p) * X (px p) (py p) / (H * H * (cb * cb))) in *. replace (((px p - f_xm f) * sa - (py p - f_ym f) * ca) * ((px p - f_xm f) * sa - (py p - f_ym f) * ca)) with (Y (px p) (py p) * Y (px p) (py p)) in R2 by ring. set (q := Y (px p) (py p)) in *.
    assert (Q : 0 <= q * q / (r * r)) by (apply Rmult_le_pos; [apply sq_pos|left; now apply Rinv_0_lt_compat]). destruct (rle 1 a) eqn:A; [apply rle_true in A; lra|]. apply rle_false in A.
    assert (S : r * r <= q * q / (1 - a)). { assert (K := sq_mono _ _ (conj R1 R2)). rewrite sqrt_sqrt in K; [apply K|]. apply Rmult_le_pos; [apply sq_pos|left; apply Rinv_0_lt_compat; lra]. }
    assert (T : (1 - a) <= q * q / (r * r)). { apply Rmult_le_reg_r with (r * r); [exact RR0|]. replace (q * q / (r * r) * (r * r)) with (q * q) by (field; lra). apply (Rmult_le_compat_r (1 - a)) in S; [|lra]. replace (q * q / (1 - a) * (1 - a)) with (q * q) in S by (field; lra). lra. }
    lra.
  - apply rle_false in L. injection E as <-. apply Rle_trans with (e3 (r * r) (px p) (py p) (pz p)).
    2:{ rewrite !level_e3 by exact RR0. apply Rplus_le_compat_l. unfold Rdiv. apply Rmult_le_compat_r; [left; now apply Rinv_0_lt_compat|]. assert (K : 0 <= (pz p - z) * ((a1 - pz p) + (a1 - z))) by (apply Rmult_le_pos; lra). lra. }
    unfold max_radius_3d in R2. unfold e3. rewrite zf_half0, zf_outer0 in R2. set (x := px p) in *. set (y := py p) in *. set (z' := pz p) in *.
    replace ((x - f_xm f) * ca * cb + (y - f_ym f) * sa * cb + (z' - f_zm f) * sb) with (W x y z') in R2 by ring. replace ((f_xm f - x) * ca * sb + (f_ym f - y) * sa * sb + (z' - f_zm f) * cb) with (V x y z') in R2 by ring.
    set (w := W x y z') in *. set (q := Y x y) in *. set (v := V x y z') in *. set (a := w * w / (H * H)) in *. assert (Q : 0 <= q * q + v * v) by (assert (Q1 := sq_pos q); assert (Q2 := sq_pos v); lra).
    assert (Q' : 0 <= (q * q + v * v) / (r * r)) by (apply Rmult_le_pos; [exact Q|left; now apply Rinv_0_lt_compat]). destruct (rle 1 a) eqn:A; [apply rle_true in A; lra|]. apply rle_false in A.
    assert (S : r * r <= (q * q + v * v) / (1 - a)). { assert (K := sq_mono _ _ (conj R1 R2)). rewrite sqrt_sqrt in K; [apply K|]. apply Rmult_le_pos; [exact Q|left; apply Rinv_0_lt_compat; lra]. }
    assert (T : (1 - a) <= (q * q + v * v) / (r * r)). { apply Rmult_le_reg_r with (r * r); [exact RR0|]. replace ((q * q + v * v) / (r * r) * (r * r)) with (q * q + v * v) by (field; lra). apply (Rmult_le_compat_r (1 - a)) in S; [|lra]. replace ((q * q + v * v) / (1 - a) * (1 - a)) with (q * q + v * v) in S by (field; lra). lra. }
    lra.
Qed.
End Level.
Lemma under_beside r x y : 0 < r -> under_zone s1 s2 r x y -> beside s1 s2 r x y.
Proof.
  intros P U. apply under_iff in U; [|exact P]. destruct (split_u x y) as [Eu Ev]. assert (ML := map_length_sq). assert (MF := map_foot_eq x y). assert (PP : 0 < r * r) by (now apply Rmult_lt_0_compat). unfold e2 in U. destruct ZF. set (p := X x y) in *. set (q := Y x y) in *.
  assert (HC : 0 < H * cb) by (now apply Rmult_lt_0_compat). assert (HH : 0 < H * cb * (H * cb)) by (now apply Rmult_lt_0_compat).
  assert (U1 : 0 <= p * p / (H * H * (cb * cb))). { replace (H * H * (cb * cb)) with (H * cb * (H * cb)) by ring. apply Rmult_le_pos; [apply sq_pos|left; now apply Rinv_0_lt_compat]. }
  assert (U2 : 0 <= q * q / (r * r)) by (apply Rmult_le_pos; [apply sq_pos|left; now apply Rinv_0_lt_compat]).
  assert (B1 : p * p <= H * cb * (H * cb)). { assert (K : p * p / (H * H * (cb * cb)) <= 1) by lra. apply (Rmult_le_compat_r (H * cb * (H * cb))) in K; [|lra]. replace (p * p / (H * H * (cb * cb)) * (H * cb * (H * cb))) with (p * p) in K by (field; lra). lra. }
  assert (B2 : q * q <= r * r). { assert (K : q * q / (r * r) <= 1) by lra. apply (Rmult_le_compat_r (r * r)) in K; [|lra]. replace (q * q / (r * r) * (r * r)) with (q * q) in K by (field; lra). lra. }
  assert (C1 := Rsqr_neg_pos_le_0 p (H * cb) B1 ltac:(lra)). assert (C1' := Rsqr_incr_0_var p (H * cb) B1 ltac:(lra)). assert (C2 := Rsqr_neg_pos_le_0 q r B2 ltac:(lra)). assert (C2' := Rsqr_incr_0_var q r B2 ltac:(lra)).
  exists (map_foot s1 s2 x y), q. split; [|split; [lra|]].
  - rewrite MF. replace (2 * H * cb) with (2 * (H * cb)) by ring. set (K := H * cb) in *. assert (- 1 <= p / K <= 1). { split; [apply Rmult_le_reg_r with K|apply Rmult_le_reg_r with K]; auto; unfold Rdiv; rewrite Rmult_assoc, Rinv_l by lra; lra. } replace (p / (2 * K)) with (p / K / 2) by (field; lra). lra.
  - assert (SQ : sqrt (dx ^ 2 + dy ^ 2) = 2 * H * cb). { rewrite ML. replace (4 * H * H * (cb * cb)) with ((2 * H * cb) * (2 * H * cb)) by ring. apply sqrt_square. lra. }
    rewrite SQ, MF. split.
    + transitivity (f_xm f + (p * ca - q * sa)); [lra|]. rewrite zf_xm0, zf_dx0, zf_dy0. field. lra.
    + transitivity (f_ym f + (p * sa + q * ca)); [lra|]. rewrite zf_ym0, zf_dx0, zf_dy0. field. lra.
Qed.
End Facts.
End Zone.

Section Validator.
Variables max_los_distance min_los_distance max_el_dev threshold : R.
Variable zones : list zone.
Hypothesis VP : valid_params max_los_distance min_los_distance max_el_dev threshold.
Variable frequency_mhz : R.
Notation ell srf := (ellipsoidal_confidence srf max_los_distance min_los_distance max_el_dev threshold zones frequency_mhz).
Lemma ellipsoid_unusable srf s1 s2 : ~ usable_pair max_los_distance min_los_distance max_el_dev zones s1 s2 -> ell srf s1 s2 = Ok 0.
Proof. intros H. unfold ellipsoidal_confidence. destruct (passes_simple_checks _ _ _ _ s1 s2) eqn:E; [destruct H; now apply passes_iff|reflexivity]. Qed.
Lemma ellipsoid_no_surface s1 s2 : usable_pair max_los_distance min_los_distance max_el_dev zones s1 s2 -> ell None s1 s2 = Ok 1.
Proof. intros H. unfold ellipsoidal_confidence. apply passes_iff in H. now rewrite H. Qed.
Section Known.
Hypothesis FP : 0 < frequency_mhz.
Lemma TH : 0 <= threshold <= 1. Proof. apply VP. Qed.
Lemma ellipsoid_cases e s1 s2 a1 a2 : ls_alt s1 = Some a1 -> ls_alt s2 = Some a2 -> usable_pair max_los_distance min_los_distance max_el_dev zones s1 s2 ->
  exists f H o, new_fresnel threshold frequency_mhz s1 s2 = Ok f /\ zone_facts threshold frequency_mhz s1 s2 a1 a2 f H /\ scan_zone threshold s1 s2 f (ellipsoid_obstructions e s1 s2 f) (f_outer f) = Ok o /\
    ell (Some e) s1 s2 = match o with None => Ok 0 | Some m => Ok (m / f_outer f) end.
Proof.
  intros A1 A2 U. assert (AP := up_apart _ _ _ _ _ _ U). destruct (new_fresnel_ok threshold frequency_mhz TH FP s1 s2 a1 a2 A1 A2 AP) as (f & H & Ef & F).
  destruct (scan_zone_ok threshold frequency_mhz TH s1 s2 a1 a2 f H F (ellipsoid_obstructions e s1 s2 f) (f_outer f)) as (o & Eo & _). exists f, H, o. split; [exact Ef|]. split; [exact F|]. split; [exact Eo|].
  unfold ellipsoidal_confidence. apply passes_iff in U. rewrite U. cbn [negb]. rewrite Ef. cbn [rbind]. rewrite Eo. reflexivity.
Qed.
Lemma div_le r a b : 0 < r -> a * r <= b -> a <= b / r.
Proof. intros P H. apply Rmult_le_reg_r with r; [exact P|]. unfold Rdiv. rewrite Rmult_assoc, Rinv_l by lra. lra. Qed.
Lemma div_ge r a b : 0 < r -> b <= a * r -> b / r <= a.
Proof. intros P H. apply Rmult_le_reg_r with r; [exact P|]. unfold Rdiv. rewrite Rmult_assoc, Rinv_l by lra. lra. Qed.
Lemma ellipsoid_range srf s1 s2 : (srf = None \/ (ls_alt s1 <> None /\ ls_alt s2 <> None)) -> exists c, ell srf s1 s2 = Ok c /\ 0 <= c <= 1.
Proof.
  intros K. destruct (passes_simple_checks max_los_distance min_los_distance max_el_dev zones s1 s2) eqn:E.
  2:{ exists 0. split; [|lra]. unfold ellipsoidal_confidence. now rewrite E. }
  apply passes_iff in E. destruct srf as [e|]; [|exists 1; split; [now apply ellipsoid_no_surface|lra]].
  destruct K as [K|[K1 K2]]; [discriminate|]. destruct (ls_alt s1) as [a1|] eqn:A1; [|congruence]. destruct (ls_alt s2) as [a2|] eqn:A2; [|congruence].
  destruct (ellipsoid_cases e s1 s2 a1 a2 A1 A2 E) as (f & H & o & _ & F & Eo & ->). destruct o as [m|]; [|exists 0; split; [reflexivity|lra]]. exists (m / f_outer f). split; [reflexivity|].
  destruct (scan_zone_ok threshold frequency_mhz TH s1 s2 a1 a2 f H F (ellipsoid_obstructions e s1 s2 f) (f_outer f)) as (o' & Eo' & S). rewrite Eo in Eo'. injection Eo' as <-. destruct S as (S1 & _ & S3).
  assert (P : 0 < f_outer f) by (rewrite (zf_outer _ _ _ _ _ _ _ _ F); apply (zf_pos _ _ _ _ _ _ _ _ F)). split; [apply div_le; auto|apply div_ge; auto; lra]. rewrite Rmult_0_l. apply S3; [lra|].
  intros p m' _ Em. destruct (max_ok threshold frequency_mhz s1 s2 a1 a2 f H F p) as (m'' & Em' & B & _). rewrite Em in Em'. injection Em' as <-. exact B.
Qed.
(** an obstruction considered is a cell *)
Lemma ellipsoid_cell e s1 s2 f p : raster e -> In p (ellipsoid_obstructions e s1 s2 f) -> in_ellipse f (f_outer_sq f) (px p) (py p) = true /\
  exists ix iy, cell e ix iy /\ p = mkPt3 (centre_x e ix) (centre_y e iy) (e_data e iy ix).
Proof. intros We. unfold ellipsoid_obstructions. destruct (four_corners _ _ _ _ _) as [[[a b] c] d]. intros I. apply obstructions_sound in I; [|exact We]. destruct I as (ix & iy & A & B & C). split; eauto. Qed.
Lemma ellipsoid_threshold e s1 s2 a1 a2 : raster e -> ls_alt s1 = Some a1 -> ls_alt s2 = Some a2 ->
  (forall ix iy, cell e ix iy -> ~ blind_spot s1 s2 a1 a2 (zone_radius frequency_mhz s1 s2 * threshold) (centre_x e ix) (centre_y e iy) (e_data e iy ix)) ->
  exists c, ell (Some e) s1 s2 = Ok c /\ (c = 0 \/ threshold <= c <= 1).
Proof.
  intros We A1 A2 N. destruct (passes_simple_checks max_los_distance min_los_distance max_el_dev zones s1 s2) eqn:E.
  2:{ exists 0. split; [|now left]. unfold ellipsoidal_confidence. now rewrite E. }
  apply passes_iff in E. destruct (ellipsoid_cases e s1 s2 a1 a2 A1 A2 E) as (f & H & o & _ & F & Eo & EQ). assert (T := TH).
  destruct (ellipsoid_range (Some e) s1 s2) as (c & Ec & C); [right; split; congruence|]. exists c. split; [exact Ec|]. rewrite Ec in EQ. destruct o as [m|]; [|injection EQ as ->; now left]. injection EQ as ->. right. split; [|apply C].
  destruct (Req_dec threshold 0) as [Z|Z]; [lra|].
  destruct (scan_zone_ok threshold frequency_mhz TH s1 s2 a1 a2 f H F (ellipsoid_obstructions e s1 s2 f) (f_outer f)) as (o' & Eo' & S). rewrite Eo in Eo'. injection Eo' as <-. destruct S as (S1 & S2 & S3).
  assert (Er := zf_outer _ _ _ _ _ _ _ _ F). assert (P := zf_pos _ _ _ _ _ _ _ _ F). rewrite Er in *. set (rad := zone_radius frequency_mhz s1 s2) in *. apply div_le; [exact P|]. rewrite (Rmult_comm threshold).
  assert (Q : 0 < rad * threshold) by (apply Rmult_lt_0_compat; lra). assert (Q' : rad * threshold <= rad) by (assert (0 <= rad * (1 - threshold)) by (apply Rmult_le_pos; lra); lra).
  apply S3; [exact Q'|]. intros p m' I Em. destruct (max_ok threshold frequency_mhz s1 s2 a1 a2 f H F p) as (m'' & Em' & _ & B). rewrite Em in Em'. injection Em' as <-. 
  destruct (inner_ok threshold frequency_mhz TH s1 s2 a1 a2 f H F p) as (b & Eb & G). destruct (S2 p I) as [Ob _]. rewrite Ob in Eb. injection Eb as <-. fold rad in G.
  destruct (ellipsoid_cell e s1 s2 f p We I) as (_ & ix & iy & HC & Ep). specialize (N ix iy HC). replace (centre_x e ix) with (px p) in N by now rewrite Ep. replace (centre_y e iy) with (py p) in N by now rewrite Ep. replace (e_data e iy ix) with (pz p) in N by now rewrite Ep.
  assert (PP : 0 < rad * threshold * (rad * threshold)) by (apply Rmult_lt_0_compat; lra).
  destruct (Rle_dec (e2 f H (rad * threshold * (rad * threshold)) (px p) (py p)) 1) as [U|U].
  - assert (U' : under_zone s1 s2 (rad * threshold) (px p) (py p)) by (eapply under_iff; eauto).
    assert (D : at_an_end s1 s2 (px p) (py p) \/ ~ at_an_end s1 s2 (px p) (py p)) by (rewrite <- at_end_true; match goal with |- ?b = true \/ _ => destruct b end; auto).
    destruct D as [D|D]; [|assert (T0 : 0 < threshold) by lra; destruct (G eq_refl T0 D U') as [G1 G2]; apply B; auto; lra]. apply B; [split; assumption| |].
    + intros L. destruct (Rle_dec 1 (e3 f H (rad * threshold * (rad * threshold)) (px p) (py p) (pz p))) as [K|K]; [exact K|]. exfalso. apply N. split; [eapply in_zone_iff; eauto; lra|]. auto.
    + intros _. eapply at_end_e2; eauto.
  - apply B; [split; assumption| |].
    + intros L. destruct (Rle_dec 1 (e3 f H (rad * threshold * (rad * threshold)) (px p) (py p) (pz p))) as [K|K]; [exact K|]. exfalso. apply N. split; [eapply in_zone_iff; eauto; lra|]. split; [exact L|]. right. intros V. apply U. eapply under_iff; eauto.
    + intros _. lra.
Qed.

Lemma ellipsoid_level e s1 s2 a : raster e -> ls_alt s1 = Some a -> ls_alt s2 = Some a -> exists c, ell (Some e) s1 s2 = Ok c /\ (c = 0 \/ threshold <= c <= 1).
Proof.
  intros We A1 A2. assert (T := TH). destruct (Req_dec threshold 0) as [Z|Z].
  { destruct (ellipsoid_range (Some e) s1 s2) as (c & Ec & C); [right; split; congruence|]. exists c. split; [exact Ec|]. right. lra. }
  destruct (passes_simple_checks max_los_distance min_los_distance max_el_dev zones s1 s2) eqn:E.
  2:{ exists 0. split; [|now left]. unfold ellipsoidal_confidence. now rewrite E. }
  apply passes_iff in E. assert (AP := up_apart _ _ _ _ _ _ E). destruct (new_fresnel_ok threshold frequency_mhz TH FP s1 s2 a a A1 A2 AP) as (f & H & _ & F). apply (ellipsoid_threshold e s1 s2 a a We A1 A2). intros ix iy _. eapply level_no_blind; [exact F|reflexivity|].
  apply Rmult_lt_0_compat; [apply (zf_pos _ _ _ _ _ _ _ _ F)|lra].
Qed.
Lemma ellipsoid_clear e s1 s2 a c : raster e -> ls_alt s1 = Some a -> ls_alt s2 = Some a -> ell (Some e) s1 s2 = Ok c -> 0 < c ->
  forall ix iy, cell e ix iy -> in_area e (centre_x e ix) (centre_y e iy) -> under_zone s1 s2 (zone_radius frequency_mhz s1 s2) (centre_x e ix) (centre_y e iy) ->
    forall z, z <= e_data e iy ix -> ~ in_zone s1 s2 a a (c * zone_radius frequency_mhz s1 s2) (centre_x e ix) (centre_y e iy) z.
Proof.
  intros We A1 A2 Ec Cp ix iy HC HA HU z Hz. destruct (passes_simple_checks max_los_distance min_los_distance max_el_dev zones s1 s2) eqn:E.
  2:{ unfold ellipsoidal_confidence in Ec. rewrite E in Ec. injection Ec as <-. lra. }
  apply passes_iff in E. assert (AP := up_apart _ _ _ _ _ _ E). destruct (ellipsoid_cases e s1 s2 a a A1 A2 E) as (f & H & o & _ & F & Eo & EQ). rewrite Ec in EQ. destruct o as [m|]; [|injection EQ as ->; lra]. injection EQ as ->.
  destruct (scan_zone_ok threshold frequency_mhz TH s1 s2 a a f H F (ellipsoid_obstructions e s1 s2 f) (f_outer f)) as (o' & Eo' & S). rewrite Eo in Eo'. injection Eo' as <-. destruct S as (S1 & S2 & _).
  assert (Er := zf_outer _ _ _ _ _ _ _ _ F). assert (P := zf_pos _ _ _ _ _ _ _ _ F). rewrite Er in *. set (rad := zone_radius frequency_mhz s1 s2) in *. replace (m / rad * rad) with m by (field; lra).
  assert (Mp : 0 < m). { apply (Rmult_lt_compat_r rad) in Cp; [|exact P]. replace (m / rad * rad) with m in Cp by (field; lra). lra. }
  set (p := mkPt3 (centre_x e ix) (centre_y e iy) (e_data e iy ix)).
  assert (I : In p (ellipsoid_obstructions e s1 s2 f)).
  { unfold ellipsoid_obstructions. rewrite Er. assert (B := beside_box s1 s2 rad _ _ AP P (under_beside _ _ _ _ _ _ _ _ F _ _ _ P HU)). destruct (four_corners _ _ _ _ rad) as [[[p' q] r'] s]. destruct B as [_ B2]. apply obstructions_complete; auto.
    apply (in_ellipse_true _ _ _ _ _ _ _ _ F). rewrite (zf_outer_sq _ _ _ _ _ _ _ _ F). fold rad. eapply under_iff; eauto. }
  destruct (S2 p I) as (_ & m' & Em & L). intros Z. eapply in_zone_iff in Z; [|exact F|exact Mp]. assert (K := level_clear threshold frequency_mhz s1 s2 a a f H F eq_refl p m' m z Em (conj Mp L)). fold rad in K. cbn [px py pz p] in K. specialize (K S1 Hz). lra.
Qed.
End Known.

(** ** direction *)
Definition mirror (f : fresnel) : fresnel :=
  mkFresnel (- f_cos_a f) (- f_sin_a f) (f_cos_b f) (- f_sin_b f) (f_outer f) (f_outer_sq f) (f_inner_sq f) (f_xm f) (f_ym f) (f_zm f) (f_half_sq f) (f_half_xy_sq f) (f_a_over_c f) (f_b_over_c f) (f_d_over_c f).
Lemma new_fresnel_swap s1 s2 : ~ (ls_x s1 = ls_x s2 /\ ls_y s1 = ls_y s2) ->
  new_fresnel threshold frequency_mhz s2 s1 = match new_fresnel threshold frequency_mhz s1 s2 with Ok f => Ok (mirror f) | Err e => Err e end.
Proof.
  intros AP. assert (P := l2_pos s1 s2 AP). unfold new_fresnel. destruct (negb (rle 0 threshold && rle threshold 1)); [reflexivity|].
  assert (S1 : same_xy s1 s2 = false) by (destruct (same_xy s1 s2) eqn:S; [destruct AP; now apply same_xy_true|reflexivity]). assert (S2 : same_xy s2 s1 = false) by (destruct (same_xy s2 s1) eqn:S; [destruct AP; apply same_xy_true in S; destruct S; auto|reflexivity]).
  rewrite S1, S2. destruct (ls_alt s1) as [a1|], (ls_alt s2) as [a2|]; try reflexivity. set (x1 := ls_x s1) in *. set (y1 := ls_y s1) in *. set (x2 := ls_x s2) in *. set (y2 := ls_y s2) in *.
  set (L := (x2 - x1) * (x2 - x1) + (y2 - y1) * (y2 - y1)) in *. replace ((x1 - x2) * (x1 - x2) + (y1 - y2) * (y1 - y2)) with L by (unfold L; ring). set (Z := (a2 - a1) * (a2 - a1)). replace ((a1 - a2) * (a1 - a2)) with Z by (unfold Z; ring). assert (PZ := sq_pos (a2 - a1)). fold Z in PZ.
  set (d := sqrt (L + Z)). assert (Pd : 0 < d) by (apply sqrt_lt_R0; lra). set (l := sqrt L). assert (Pl : 0 < l) by (now apply sqrt_lt_R0). destruct (req frequency_mhz 0); [reflexivity|]. destruct (rlt (d / frequency_mhz) 0); [reflexivity|].
  f_equal. unfold mirror. cbn [f_cos_a f_sin_a f_cos_b f_sin_b f_outer f_outer_sq f_inner_sq f_xm f_ym f_zm f_half_sq f_half_xy_sq f_a_over_c f_b_over_c f_d_over_c].
  replace (req (x1 - x2) 0) with (req (x2 - x1) 0) by (apply bool_iff; rewrite !req_true; lra). destruct (req (x2 - x1) 0) eqn:X; cbn [negb fst snd].
  - apply req_true in X. assert (Y : y2 - y1 <> 0) by (intros C; unfold L in P; rewrite X, C in P; lra). assert (Ex : x2 = x1) by lra. unfold L in *. clear L. rewrite Ex in *. f_equal; field; lra.
  - apply req_false in X. assert (L0 : L <> 0) by lra. f_equal; try (field; lra).
    + unfold L in L0. field. repeat match goal with |- _ /\ _ => split end; lra.
    + unfold L in L0. field. repeat match goal with |- _ /\ _ => split end; lra.
    + unfold L in L0. field. repeat match goal with |- _ /\ _ => split end; lra.
Qed.

Ltac unmirror := cbn [mirror f_cos_a f_sin_a f_cos_b f_sin_b f_outer f_outer_sq f_inner_sq f_xm f_ym f_zm f_half_sq f_half_xy_sq f_a_over_c f_b_over_c f_d_over_c].
Lemma mirror_ellipse f r x y : in_ellipse (mirror f) r x y = in_ellipse f r x y.
Proof. unfold in_ellipse. unmirror. f_equal. f_equal; f_equal; ring. Qed.
Lemma mirror_lower f x y r : lower_height (mirror f) x y r = lower_height f x y r.
Proof.
  unfold lower_height. unmirror.
  replace ((x - f_xm f) * - f_cos_a f * f_cos_b f + (y - f_ym f) * - f_sin_a f * f_cos_b f) with (- ((x - f_xm f) * f_cos_a f * f_cos_b f + (y - f_ym f) * f_sin_a f * f_cos_b f)) by ring. set (t1 := (x - f_xm f) * f_cos_a f * f_cos_b f + (y - f_ym f) * f_sin_a f * f_cos_b f).
  replace ((f_xm f - x) * - f_cos_a f * - f_sin_b f + (f_ym f - y) * - f_sin_a f * - f_sin_b f) with ((f_xm f - x) * f_cos_a f * f_sin_b f + (f_ym f - y) * f_sin_a f * f_sin_b f) by ring. set (t2 := (f_xm f - x) * f_cos_a f * f_sin_b f + (f_ym f - y) * f_sin_a f * f_sin_b f).
  replace ((f_xm f - x) * - f_sin_a f + (y - f_ym f) * - f_cos_a f) with (- ((f_xm f - x) * f_sin_a f + (y - f_ym f) * f_cos_a f)) by ring. set (sd := (f_xm f - x) * f_sin_a f + (y - f_ym f) * f_cos_a f).
  replace (- f_sin_b f * - f_sin_b f) with (f_sin_b f * f_sin_b f) by ring. replace (- t1 * - f_sin_b f) with (t1 * f_sin_b f) by ring. replace (- t1 * - t1) with (t1 * t1) by ring. replace (- sd * - sd) with (sd * sd) by ring. reflexivity.
Qed.
Lemma mirror_inner s1 s2 f p : obstructs_inner threshold s2 s1 (mirror f) p = obstructs_inner threshold s1 s2 f p.
Proof. unfold obstructs_inner. rewrite orb_comm. rewrite mirror_ellipse, mirror_lower. reflexivity. Qed.
Lemma mirror_max f p : max_fresnel_radius (mirror f) p = max_fresnel_radius f p.
Proof.
  unfold max_fresnel_radius. rewrite mirror_lower. change (f_outer_sq (mirror f)) with (f_outer_sq f). destruct (lower_height f (px p) (py p) (f_outer_sq f)) as [h|x]; [|reflexivity]. cbn [rbind]. unmirror.
  assert (E2 : max_radius_2d (mirror f) (px p) (py p) = max_radius_2d f (px p) (py p)).
  { unfold max_radius_2d. unmirror. set (x := px p). set (y := py p). replace ((x - f_xm f) * - f_cos_a f + (y - f_ym f) * - f_sin_a f) with (- ((x - f_xm f) * f_cos_a f + (y - f_ym f) * f_sin_a f)) by ring. replace ((x - f_xm f) * - f_sin_a f - (y - f_ym f) * - f_cos_a f) with (- ((x - f_xm f) * f_sin_a f - (y - f_ym f) * f_cos_a f)) by ring. rewrite !Rmult_opp_opp. reflexivity. }
  assert (E3 : max_radius_3d (mirror f) (px p) (py p) (pz p) = max_radius_3d f (px p) (py p) (pz p)).
  { unfold max_radius_3d. unmirror. set (x := px p). set (y := py p). set (z := pz p). replace ((x - f_xm f) * - f_cos_a f * f_cos_b f + (y - f_ym f) * - f_sin_a f * f_cos_b f + (z - f_zm f) * - f_sin_b f) with (- ((x - f_xm f) * f_cos_a f * f_cos_b f + (y - f_ym f) * f_sin_a f * f_cos_b f + (z - f_zm f) * f_sin_b f)) by ring.
    replace ((f_xm f - x) * - f_sin_a f + (y - f_ym f) * - f_cos_a f) with (- ((f_xm f - x) * f_sin_a f + (y - f_ym f) * f_cos_a f)) by ring. replace ((f_xm f - x) * - f_cos_a f * - f_sin_b f + (f_ym f - y) * - f_sin_a f * - f_sin_b f) with ((f_xm f - x) * f_cos_a f * f_sin_b f + (f_ym f - y) * f_sin_a f * f_sin_b f) by ring. rewrite !Rmult_opp_opp. reflexivity. }
  rewrite E2, E3. reflexivity.
Qed.
Lemma mirror_scan s1 s2 f : forall l m, scan_zone threshold s2 s1 (mirror f) l m = scan_zone threshold s1 s2 f l m.
Proof.
  induction l as [|p l IH]; intros m; cbn [scan_zone]; [reflexivity|]. rewrite mirror_inner, mirror_max. destruct (obstructs_inner threshold s1 s2 f p) as [[|]|x]; [reflexivity| |reflexivity]. cbn [rbind]. destruct (max_fresnel_radius f p); [|reflexivity]. apply IH.
Qed.
Lemma mirror_obstructions e s1 s2 f : ~ (ls_x s1 = ls_x s2 /\ ls_y s1 = ls_y s2) -> ellipsoid_obstructions e s2 s1 (mirror f) = ellipsoid_obstructions e s1 s2 f.
Proof.
  intros AP. unfold ellipsoid_obstructions. unmirror. rewrite (corners_swapped _ _ _ AP). destruct (four_corners (ls_x s1) (ls_y s1) (ls_x s2) (ls_y s2) (f_outer f)) as [[[p q] r'] s]. rewrite (min4_swap (fst p)), (min4_swap (snd p)), (max4_swap (fst p)), (max4_swap (snd p)).
  apply obstructions_ext. intros x y. apply mirror_ellipse.
Qed.
Lemma ellipsoid_symmetric srf s1 s2 : undirected zones -> ell srf s1 s2 = ell srf s2 s1.
Proof.
  intros U. unfold ellipsoidal_confidence. rewrite (passes_swap max_los_distance min_los_distance max_el_dev zones s2 s1 U). destruct (passes_simple_checks max_los_distance min_los_distance max_el_dev zones s1 s2) eqn:E; [|reflexivity]. cbn [negb]. destruct srf as [e|]; [|reflexivity].
  apply passes_iff in E. assert (AP := up_apart _ _ _ _ _ _ E). rewrite (new_fresnel_swap s1 s2 AP). destruct (new_fresnel threshold frequency_mhz s1 s2) as [f|x]; [|reflexivity]. cbn [rbind]. rewrite (mirror_obstructions e s1 s2 f AP), mirror_scan. reflexivity.
Qed.
End Validator.
