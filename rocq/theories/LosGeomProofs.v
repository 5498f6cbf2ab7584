(** Proofs of C27, C28 and C56: the checks and the cylinder. *)
From Coq Require Import Reals Lra Psatz Permutation.
From Verif Require Import Base MonadLib ElevModel ElevSpec ElevProofs LosGeomModel LosGeomSpec.
Local Open Scope R_scope.

(** ** tests on reals *)
Lemma rle_true a b : rle a b = true <-> a <= b.
Proof. unfold rle. destruct (Rle_dec a b); split; auto; discriminate. Qed.
Lemma rle_false a b : rle a b = false <-> b < a.
Proof. unfold rle. destruct (Rle_dec a b); split; intros; try discriminate; lra. Qed.
Lemma rlt_true a b : rlt a b = true <-> a < b.
Proof. unfold rlt. destruct (Rlt_dec a b); split; auto; discriminate. Qed.
Lemma rlt_false a b : rlt a b = false <-> b <= a.
Proof. unfold rlt. destruct (Rlt_dec a b); split; intros; try discriminate; lra. Qed.
Lemma req_true a b : req a b = true <-> a = b.
Proof. unfold req. destruct (Req_EM_T a b); split; auto; discriminate. Qed.
Lemma req_false a b : req a b = false <-> a <> b.
Proof. unfold req. destruct (Req_EM_T a b); split; auto; try discriminate; contradiction. Qed.
Lemma req_sym a b : req a b = req b a.
Proof. unfold req. destruct (Req_EM_T a b), (Req_EM_T b a); congruence. Qed.
Lemma bool_iff (a b : bool) : (a = true <-> b = true) -> a = b.
Proof. intros [H K]. destruct a; [symmetry; now apply H|]. destruct b; [now apply K|reflexivity]. Qed.

Section Validator.
Variables max_los_distance min_los_distance max_el_dev threshold : R.
Variable zones : list zone.
Hypothesis VP : valid_params max_los_distance min_los_distance max_el_dev threshold.

Lemma new_ok : new_validator max_los_distance min_los_distance max_el_dev threshold = Ok tt.
Proof.
  destruct VP as ((A & B) & (C & D) & E & F). unfold new_validator. apply rlt_true in A. apply rlt_true in B. apply rle_true in C. apply rle_true in D. apply rle_true in E. apply rle_true in F. now rewrite A, B, C, D, E, F.
Qed.
Lemma distance_eq s1 s2 : comp_los_distance s1 s2 = los_length s1 s2.
Proof. unfold comp_los_distance, los_length, rise. f_equal. destruct (ls_alt s1), (ls_alt s2); ring. Qed.
Lemma same_xy_true s1 s2 : same_xy s1 s2 = true <-> ls_x s1 = ls_x s2 /\ ls_y s1 = ls_y s2.
Proof. unfold same_xy. now rewrite andb_true_iff, !req_true. Qed.
Lemma building_true s1 s2 : on_the_same_building s1 s2 = true <-> ls_rooftop s1 = true /\ ls_rooftop s2 = true /\ ls_building s1 = ls_building s2.
Proof.
  unfold on_the_same_building. rewrite !andb_true_iff. destruct (ls_building s1), (ls_building s2).
  - rewrite Z.eqb_eq. split; [intros [[A B] ->]; auto|intros (A & B & C); injection C; auto].
  - split; [intros [_ X]; discriminate|intros (_ & _ & X); discriminate].
  - split; [intros [_ X]; discriminate|intros (_ & _ & X); discriminate].
  - tauto.
Qed.
Lemma passes_iff s1 s2 : passes_simple_checks max_los_distance min_los_distance max_el_dev zones s1 s2 = true <-> usable_pair max_los_distance min_los_distance max_el_dev zones s1 s2.
Proof.
  unfold passes_simple_checks. destruct (same_xy s1 s2) eqn:E1; [apply same_xy_true in E1; split; [discriminate|intros H; destruct (up_apart _ _ _ _ _ _ H E1)]|].
  destruct (on_the_same_building s1 s2) eqn:E2; [apply building_true in E2; split; [discriminate|intros H; destruct (up_buildings _ _ _ _ _ _ H E2)]|].
  rewrite distance_eq. unfold out_of_distance_range. destruct (rle min_los_distance (los_length s1 s2) && rle (los_length s1 s2) max_los_distance) eqn:E3; cbn [negb].
  2:{ split; [discriminate|intros H]. assert (X := up_range _ _ _ _ _ _ H). rewrite andb_false_iff, !rle_false in E3. lra. }
  rewrite andb_true_iff, !rle_true in E3.
  destruct (exceed_max_el_dev _ _ _ _) eqn:E4.
  { split; [discriminate|intros H]. assert (X := up_angle _ _ _ _ _ _ H). unfold exceed_max_el_dev, los_angle, rise in *. destruct (ls_alt s1), (ls_alt s2); try discriminate. apply rlt_true in E4. unfold degrees in E4. rewrite Rabs_minus_sym in E4. specialize (X ltac:(discriminate) ltac:(discriminate)). lra. }
  unfold intersects_with_exclusion_zones. destruct (existsb _ zones) eqn:E5.
  { split; [discriminate|intros H]. apply existsb_exists in E5. destruct E5 as (z & Hz & X). rewrite (up_zones _ _ _ _ _ _ H z Hz) in X. discriminate. }
  split; [intros _|reflexivity]. constructor.
  - intros X. apply same_xy_true in X. congruence.
  - intros X. apply building_true in X. congruence.
  - exact E3.
  - intros A B. unfold exceed_max_el_dev, los_angle, rise in *. destruct (ls_alt s1); [|congruence]. destruct (ls_alt s2); [|congruence]. apply rlt_false in E4. unfold degrees in E4. rewrite Rabs_minus_sym in E4. exact E4.
  - intros z Hz. destruct (z _ _) eqn:Z; [|reflexivity]. exfalso. assert (X : existsb (fun z => z (ls_x s1, ls_y s1) (ls_x s2, ls_y s2)) zones = true) by (apply existsb_exists; eauto). congruence.
Qed.

(** ** the rectangle *)
Section Pair.
Variables s1 s2 : lsite.
Hypothesis AP : ~ (ls_x s1 = ls_x s2 /\ ls_y s1 = ls_y s2).
Notation dx := (ls_x s2 - ls_x s1).
Notation dy := (ls_y s2 - ls_y s1).
Notation l2 := (dx * dx + dy * dy).
Lemma sq_pos x : 0 <= x * x. Proof. apply Rle_0_sqr. Qed.
Lemma l2_pos : 0 < l2.
Proof.
  assert (A := sq_pos dx). assert (B := sq_pos dy). destruct (Req_dec dx 0) as [X|X].
  - destruct (Req_dec dy 0) as [Y|Y]; [exfalso; apply AP; split; lra|]. apply Rsqr_pos_lt in Y. unfold Rsqr in Y. lra.
  - apply Rsqr_pos_lt in X. unfold Rsqr in X. lra.
Qed.
Lemma slope_sq u v : u <> 0 -> sqrt (1 + v / u * (v / u)) <> 0 /\ sqrt (1 + v / u * (v / u)) * sqrt (1 + v / u * (v / u)) * (u * u) = u * u + v * v.
Proof.
  intros U. assert (A := sq_pos (v / u)). rewrite sqrt_sqrt by lra. split; [apply Rgt_not_eq, sqrt_lt_R0; lra|]. field. exact U.
Qed.
Lemma corners_k r : exists k, corner_offsets (ls_x s1) (ls_y s1) (ls_x s2) (ls_y s2) r = (k * dy, k * dx) /\ k * k * l2 = r * r.
Proof.
  assert (P := l2_pos). unfold corner_offsets. destruct (rle (Rabs dy) (Rabs dx)) eqn:B.
  - apply rle_true in B. assert (X : dx <> 0).
    { intros X. rewrite X, Rabs_R0 in B. assert (Y := Rabs_pos dy). assert (Z : Rabs dy = 0) by lra. destruct (Req_dec dy 0) as [W|W]; [rewrite X, W in P; lra|]. now apply Rabs_no_R0 in W. }
    destruct (slope_sq dx dy X) as [N Q]. exists (r / sqrt (1 + dy / dx * (dy / dx)) / dx). set (q := sqrt _) in *. split; [f_equal; field; auto|]. rewrite <- Q. field. auto.
  - apply rle_false in B. assert (X : dy <> 0).
    { intros X. rewrite X, Rabs_R0 in B. assert (Y := Rabs_pos dx). lra. }
    destruct (slope_sq dy dx X) as [N Q]. rewrite (Rplus_comm (dy * dy)) in Q. exists (r / sqrt (1 + dx / dy * (dx / dy)) / dy). set (q := sqrt _) in *. split; [f_equal; field; auto|]. rewrite <- Q. field. auto.
Qed.
Lemma corners_swap r : corner_offsets (ls_x s2) (ls_y s2) (ls_x s1) (ls_y s1) r = corner_offsets (ls_x s1) (ls_y s1) (ls_x s2) (ls_y s2) r.
Proof.
  assert (P := l2_pos). unfold corner_offsets. rewrite (Rabs_minus_sym (ls_y s1)), (Rabs_minus_sym (ls_x s1)). destruct (rle (Rabs dy) (Rabs dx)) eqn:B.
  - apply rle_true in B. assert (X : dx <> 0).
    { intros X. rewrite X, Rabs_R0 in B. assert (Y := Rabs_pos dy). assert (Z : Rabs dy = 0) by lra. destruct (Req_dec dy 0) as [W|W]; [rewrite X, W in P; lra|]. now apply Rabs_no_R0 in W. }
    replace ((ls_y s1 - ls_y s2) / (ls_x s1 - ls_x s2)) with (dy / dx) by (field; lra). reflexivity.
  - apply rle_false in B. assert (X : dy <> 0).
    { intros X. rewrite X, Rabs_R0 in B. assert (Y := Rabs_pos dx). lra. }
    replace ((ls_x s1 - ls_x s2) / (ls_y s1 - ls_y s2)) with (dx / dy) by (field; lra). reflexivity.
Qed.

(** ** distances *)
Section Line.
Variables a1 a2 : R.
Notation dz := (a2 - a1).
Notation D g := (distance_to_center_line g (ls_x s1) (ls_y s1) a1 dx dy dz).
Lemma gap_sq t x y z : gap s1 s2 a1 a2 t x y z = sqrt ((ls_x s1 + t * dx - x)^2 + (ls_y s1 + t * dy - y)^2 + (a1 + t * dz - z)^2).
Proof. reflexivity. Qed.
Lemma distance_least g d : D g = Some d -> 0 <= d /\ forall t z, z <= pz g -> d <= gap s1 s2 a1 a2 t (px g) (py g) z.
Proof.
  assert (P := l2_pos). unfold distance_to_center_line. set (vx := px g - ls_x s1). set (vy := py g - ls_y s1). set (vz := pz g - a1). set (p := (vx * dx + vy * dy) / l2).
  assert (Hp : p * l2 = vx * dx + vy * dy) by (unfold p; field; lra).
  assert (G : forall t z, gap s1 s2 a1 a2 t (px g) (py g) z = sqrt ((t * dx - vx)^2 + (t * dy - vy)^2 + (t * dz - (z - a1))^2)) by (intros; rewrite gap_sq; f_equal; unfold vx, vy; ring).
  destruct (rlt 0 (vz - p * dz)) eqn:Q.
  - destruct (rle 0 p && rle p 1); [|discriminate]. intros E. injection E as <-. assert (S := sqrt_lt_R0 _ P). split; [apply Rmult_le_pos; [apply Rabs_pos|]; left; now apply Rinv_0_lt_compat|].
    intros t z _. rewrite G. set (c := - vx * dy + vy * dx). replace (Rabs c / sqrt l2) with (sqrt (c * c / l2)).
    + apply sqrt_le_1_alt. assert (A := sq_pos (t * dz - (z - a1))). apply Rle_trans with ((t * dx - vx)^2 + (t * dy - vy)^2); [|simpl; lra].
      assert (I : ((t * dx - vx)^2 + (t * dy - vy)^2) * l2 = c * c + (t * l2 - (vx * dx + vy * dy))^2) by (unfold c; ring).
      apply Rmult_le_reg_r with l2; [exact P|]. rewrite I. unfold Rdiv. rewrite Rmult_assoc, Rinv_l by lra. assert (B := sq_pos (t * l2 - (vx * dx + vy * dy))). simpl. lra.
    + rewrite sqrt_div_alt by exact P. f_equal. change (c * c) with (Rsqr c). apply sqrt_Rsqr_abs.
  - apply rlt_false in Q. set (t0 := (vx * dx + vy * dy + vz * dz) / (l2 + dz * dz)). destruct (rlt t0 0 || rlt 1 t0); [discriminate|]. intros E. injection E as <-. split; [apply sqrt_pos|].
    intros t z Hz. rewrite G. apply sqrt_le_1_alt. assert (B := sq_pos dz). set (L := l2 + dz * dz) in *. assert (PL : 0 < L) by (unfold L; lra).
    set (w := z - a1). assert (Hw : w <= vz) by (unfold w, vz; lra).
    assert (T0 : t0 * L = vx * dx + vy * dy + vz * dz) by (unfold t0; field; lra).
    set (cz := (vx * dy - vy * dx)^2).
    assert (I1 : ((t0 * dx - vx) * (t0 * dx - vx) + (t0 * dy - vy) * (t0 * dy - vy) + (t0 * dz - vz) * (t0 * dz - vz)) * L = (vy * dz - vz * dy)^2 + (vz * dx - vx * dz)^2 + cz + (t0 * L - (vx * dx + vy * dy + vz * dz))^2) by (unfold L, cz; ring).
    assert (I2 : ((t * dx - vx)^2 + (t * dy - vy)^2 + (t * dz - w)^2) * L = (vy * dz - w * dy)^2 + (w * dx - vx * dz)^2 + cz + (t * L - (vx * dx + vy * dy + w * dz))^2) by (unfold L, cz; ring).
    apply Rmult_le_reg_r with L; [exact PL|]. rewrite I1, I2, T0.
    assert (I3 : (vy * dz - w * dy)^2 + (w * dx - vx * dz)^2 - ((vy * dz - vz * dy)^2 + (vz * dx - vx * dz)^2) = 2 * (vz - w) * (dz * (p * l2) - vz * l2) + (vz - w)^2 * l2) by (rewrite Hp; ring).
    assert (H1 : 0 <= (vz - w) * (l2 * (p * dz - vz))) by (apply Rmult_le_pos; [lra|]; apply Rmult_le_pos; lra).
    assert (H2 : 0 <= (vz - w) * (vz - w) * l2) by (apply Rmult_le_pos; [apply sq_pos|lra]).
    assert (H3 := sq_pos (t * L - (vx * dx + vy * dy + w * dz))). simpl in *. lra.
Qed.
Lemma distance_none g : D g = None ->
  let s := ((px g - ls_x s1) * dx + (py g - ls_y s1) * dy) / l2 in ~ (0 <= s <= 1) \/ past_an_end s1 s2 a1 a2 (px g) (py g) (pz g).
Proof.
  assert (P := l2_pos). cbn zeta. unfold distance_to_center_line. set (vx := px g - ls_x s1). set (vy := py g - ls_y s1). set (vz := pz g - a1). set (p := (vx * dx + vy * dy) / l2).
  destruct (rlt 0 (vz - p * dz)).
  - destruct (rle 0 p && rle p 1) eqn:E; [discriminate|]. intros _. left. rewrite andb_false_iff, !rle_false in E. lra.
  - set (t0 := (vx * dx + vy * dy + vz * dz) / (l2 + dz * dz)). destruct (rlt t0 0 || rlt 1 t0) eqn:E; [|discriminate]. intros _. right. exists t0. split; [rewrite orb_true_iff, !rlt_true in E; exact E|].
    intros t. rewrite !gap_sq. apply sqrt_le_1_alt. assert (B := sq_pos dz). set (L := l2 + dz * dz) in *. assert (PL : 0 < L) by (unfold L; lra).
    assert (T0 : t0 * L = vx * dx + vy * dy + vz * dz) by (unfold t0; field; lra).
    assert (I : forall u, ((ls_x s1 + u * dx - px g)^2 + (ls_y s1 + u * dy - py g)^2 + (a1 + u * dz - pz g)^2) * L = (vy * dz - vz * dy)^2 + (vz * dx - vx * dz)^2 + (vx * dy - vy * dx)^2 + (u * L - (vx * dx + vy * dy + vz * dz))^2) by (intros; unfold L, vx, vy, vz; ring).
    apply Rmult_le_reg_r with L; [exact PL|]. rewrite !I, T0. assert (H := sq_pos (t * L - (vx * dx + vy * dy + vz * dz))). simpl. lra.
Qed.
End Line.

(** ** the scan *)
Section Scan.
Variable r : R.
Hypothesis Rp : 0 < r.
Lemma scan_ok ax ay az bx by_ bz hi : forall l least, r * threshold <= least <= r ->
  match scan threshold r ax ay az bx by_ bz hi l least with
  | None => True
  | Some d => r * threshold <= d <= least /\ forall g d', In g l -> distance_to_center_line g ax ay az bx by_ bz = Some d' -> d <= d'
  end.
Proof.
  induction l as [|g l IH]; intros least H; cbn [scan]; [split; [lra|intros ? ? []]|]. destruct (req threshold 1 && rlt hi (pz g)); [exact I|].
  destruct (distance_to_center_line g ax ay az bx by_ bz) as [d|] eqn:E.
  - destruct (rlt d (r * threshold)) eqn:B; [exact I|]. apply rlt_false in B. specialize (IH (Rmin least d)). destruct (scan threshold r ax ay az bx by_ bz hi l (Rmin least d)) as [m|]; [|exact I].
    assert (M1 := Rmin_l least d). assert (M2 := Rmin_r least d). assert (M3 : r * threshold <= Rmin least d) by (apply Rmin_glb; lra). destruct IH as [A C]; [lra|]. split; [lra|]. intros g' d' [<-|Hg] Ed; [rewrite E in Ed; injection Ed as <-; lra|eauto].
  - specialize (IH least H). destruct (scan threshold r ax ay az bx by_ bz hi l least) as [m|]; [|exact I]. destruct IH as [A C]. split; [exact A|]. intros g' d' [<-|Hg] Ed; [congruence|eauto].
Qed.
Lemma insert_perm p l : Permutation (p :: l) (insert_high p l).
Proof. induction l as [|q l IH]; cbn; [reflexivity|]. destruct (rle (pz q) (pz p)); [reflexivity|]. rewrite perm_swap. now constructor. Qed.
Lemma sort_perm l : Permutation l (sort_high l).
Proof. induction l as [|p l IH]; [reflexivity|]. change (sort_high (p :: l)) with (insert_high p (sort_high l)). rewrite <- insert_perm. now constructor. Qed.
End Scan.
End Pair.

(** ** the cylinder *)
Lemma min4_le a b c d : min4 a b c d <= a /\ min4 a b c d <= b /\ min4 a b c d <= c /\ min4 a b c d <= d.
Proof.
  unfold min4. assert (A := Rmin_l (Rmin (Rmin a b) c) d). assert (B := Rmin_r (Rmin (Rmin a b) c) d). assert (C := Rmin_l (Rmin a b) c). assert (D := Rmin_r (Rmin a b) c). assert (E := Rmin_l a b). assert (F := Rmin_r a b). lra.
Qed.
Lemma max4_ge a b c d : a <= max4 a b c d /\ b <= max4 a b c d /\ c <= max4 a b c d /\ d <= max4 a b c d.
Proof.
  unfold max4. assert (A := Rmax_l (Rmax (Rmax a b) c) d). assert (B := Rmax_r (Rmax (Rmax a b) c) d). assert (C := Rmax_l (Rmax a b) c). assert (D := Rmax_r (Rmax a b) c). assert (E := Rmax_l a b). assert (F := Rmax_r a b). lra.
Qed.

Lemma obstructions_ext e x1 y1 x2 y2 f g : (forall x y, f x y = g x y) -> get_all_obstructions e x1 y1 x2 y2 f = get_all_obstructions e x1 y1 x2 y2 g.
Proof. intros H. unfold get_all_obstructions. apply flat_map_ext. intros iy. apply flat_map_ext. intros ix. now rewrite H. Qed.
Lemma min4_swap a b c d : min4 c d a b = min4 a b c d.
Proof. unfold min4. rewrite <- (Rmin_assoc (Rmin c d)), (Rmin_comm (Rmin c d)), !Rmin_assoc. reflexivity. Qed.
Lemma max4_swap a b c d : max4 c d a b = max4 a b c d.
Proof. unfold max4. rewrite <- (Rmax_assoc (Rmax c d)), (Rmax_comm (Rmax c d)), !Rmax_assoc. reflexivity. Qed.
Lemma between s lo hi a b : 0 <= s <= 1 -> lo <= a <= hi -> lo <= b <= hi -> lo <= (1 - s) * a + s * b <= hi.
Proof. intros S A B. assert (H1 : 0 <= (1 - s) * (a - lo)) by (apply Rmult_le_pos; lra). assert (H2 : 0 <= s * (b - lo)) by (apply Rmult_le_pos; lra). assert (H3 : 0 <= (1 - s) * (hi - a)) by (apply Rmult_le_pos; lra). assert (H4 : 0 <= s * (hi - b)) by (apply Rmult_le_pos; lra). lra. Qed.
Lemma beside_box s1 s2 r x y : ~ (ls_x s1 = ls_x s2 /\ ls_y s1 = ls_y s2) -> 0 < r -> beside s1 s2 r x y ->
  match four_corners (ls_x s1) (ls_y s1) (ls_x s2) (ls_y s2) r with
  | (p, q, r', s) => in_rectangle p (fst q - fst p, snd q - snd p) (fst r' - fst p, snd r' - snd p) x y = true /\
      in_box (min4 (fst p) (fst q) (fst r') (fst s)) (max4 (snd p) (snd q) (snd r') (snd s)) (max4 (fst p) (fst q) (fst r') (fst s)) (min4 (snd p) (snd q) (snd r') (snd s)) x y
  end.
Proof.
  intros AP R (t & w & T & W & X & Y). assert (P := l2_pos s1 s2 AP). destruct (corners_k s1 s2 AP r) as (k & E & K). unfold four_corners. rewrite E. cbn [fst snd].
  set (x1 := ls_x s1) in *. set (y1 := ls_y s1) in *. set (dx := ls_x s2 - x1) in *. set (dy := ls_y s2 - y1) in *. replace (ls_x s2) with (x1 + dx) by (unfold dx; ring). replace (ls_y s2) with (y1 + dy) by (unfold dy; ring).
  set (L := sqrt (dx^2 + dy^2)) in *. assert (PL : 0 < L) by (apply sqrt_lt_R0; simpl; lra). assert (LL : L * L = dx * dx + dy * dy) by (unfold L; rewrite sqrt_sqrt by (simpl; lra); ring).
  assert (K0 : k <> 0) by (intros ->; assert (0 < r * r) by (now apply Rmult_lt_0_compat); lra).
  set (m := w / (k * L)). assert (Em : w / L = m * k) by (unfold m; field; split; auto; lra).
  assert (M : - 1 <= m <= 1).
  { assert (S : m * m <= 1). { unfold m. replace (w / (k * L) * (w / (k * L))) with (w * w / (k * k * (L * L))) by (field; split; auto; lra). rewrite LL, K. assert (0 < r * r) by (now apply Rmult_lt_0_compat). apply Rmult_le_reg_r with (r * r); [assumption|]. unfold Rdiv. rewrite Rmult_assoc, Rinv_l by lra. assert (0 <= (r - w) * (r + w)) by (apply Rmult_le_pos; lra). lra. }
    split; apply Rnot_lt_le; intros H. { assert (0 < (- 1 - m) * (1 - m)) by (apply Rmult_lt_0_compat; lra). lra. } { assert (0 < (m - 1) * (m + 1)) by (apply Rmult_lt_0_compat; lra). lra. } }
  assert (X' : x = x1 + t * dx - m * k * dy) by (rewrite X, <- Em; field; lra). assert (Y' : y = y1 + t * dy + m * k * dx) by (rewrite Y, <- Em; field; lra).
  assert (Q : 0 < k * k) by (apply Rsqr_pos_lt in K0; exact K0). split.
  - unfold in_rectangle. cbn [fst snd]. rewrite X', Y'. set (kk := k * k) in *.
    rewrite !andb_true_iff, !rle_true.
    assert (I1 : (x1 + t * dx - m * k * dy - (x1 + k * dy)) * (x1 - k * dy - (x1 + k * dy)) + (y1 + t * dy + m * k * dx - (y1 - k * dx)) * (y1 + k * dx - (y1 - k * dx)) = 2 * (1 + m) * (kk * (dx * dx + dy * dy))) by (unfold kk; ring).
    assert (I2 : (x1 + t * dx - m * k * dy - (x1 + k * dy)) * (x1 + dx + k * dy - (x1 + k * dy)) + (y1 + t * dy + m * k * dx - (y1 - k * dx)) * (y1 + dy - k * dx - (y1 - k * dx)) = t * (dx * dx + dy * dy)) by ring.
    assert (I3 : (x1 - k * dy - (x1 + k * dy)) * (x1 - k * dy - (x1 + k * dy)) + (y1 + k * dx - (y1 - k * dx)) * (y1 + k * dx - (y1 - k * dx)) = 4 * (kk * (dx * dx + dy * dy))) by (unfold kk; ring).
    assert (I4 : (x1 + dx + k * dy - (x1 + k * dy)) * (x1 + dx + k * dy - (x1 + k * dy)) + (y1 + dy - k * dx - (y1 - k * dx)) * (y1 + dy - k * dx - (y1 - k * dx)) = dx * dx + dy * dy) by ring.
    rewrite I1, I2, I3, I4. assert (G : 0 < kk * (dx * dx + dy * dy)) by (apply Rmult_lt_0_compat; assumption). set (G' := kk * (dx * dx + dy * dy)) in *. set (D := dx * dx + dy * dy) in *.
    assert (0 <= (1 + m) * G') by (apply Rmult_le_pos; lra). assert (0 <= (1 - m) * G') by (apply Rmult_le_pos; lra). assert (0 <= t * D) by (apply Rmult_le_pos; lra). assert (0 <= (1 - t) * D) by (apply Rmult_le_pos; lra).
    split; [split; [split|]|]; lra.
  - unfold in_box. destruct (min4_le (x1 + k * dy) (x1 - k * dy) (x1 + dx + k * dy) (x1 + dx - k * dy)) as (a1 & a2 & a3 & a4). destruct (max4_ge (x1 + k * dy) (x1 - k * dy) (x1 + dx + k * dy) (x1 + dx - k * dy)) as (b1 & b2 & b3 & b4).
    destruct (min4_le (y1 - k * dx) (y1 + k * dx) (y1 + dy - k * dx) (y1 + dy + k * dx)) as (c1 & c2 & c3 & c4). destruct (max4_ge (y1 - k * dx) (y1 + k * dx) (y1 + dy - k * dx) (y1 + dy + k * dx)) as (d1 & d2 & d3 & d4).
    rewrite Rmin_left by lra. rewrite Rmax_right by lra. rewrite Rmin_right by lra. rewrite Rmax_left by lra.
    assert (U : 0 <= (1 + m) / 2 <= 1) by lra.
    assert (Ex : x = (1 - t) * ((1 - (1 + m) / 2) * (x1 + k * dy) + (1 + m) / 2 * (x1 - k * dy)) + t * ((1 - (1 + m) / 2) * (x1 + dx + k * dy) + (1 + m) / 2 * (x1 + dx - k * dy))) by (rewrite X'; field).
    assert (Ey : y = (1 - t) * ((1 - (1 + m) / 2) * (y1 - k * dx) + (1 + m) / 2 * (y1 + k * dx)) + t * ((1 - (1 + m) / 2) * (y1 + dy - k * dx) + (1 + m) / 2 * (y1 + dy + k * dx))) by (rewrite Y'; field).
    split; [rewrite Ex|rewrite Ey]; apply between; auto; apply between; auto; lra.
Qed.

Section Cylinder.
Variable r : R.
Hypothesis Rp : 0 < r.
Notation cyl srf := (cylindrical_confidence srf max_los_distance min_los_distance max_el_dev threshold zones r).
Lemma cylinder_unusable srf s1 s2 : ~ usable_pair max_los_distance min_los_distance max_el_dev zones s1 s2 -> cyl srf s1 s2 = Ok 0.
Proof. intros H. unfold cylindrical_confidence. destruct (passes_simple_checks _ _ _ _ s1 s2) eqn:E; [destruct H; now apply passes_iff|reflexivity]. Qed.
Lemma cylinder_no_surface s1 s2 : usable_pair max_los_distance min_los_distance max_el_dev zones s1 s2 -> cyl None s1 s2 = Ok 1.
Proof. intros H. unfold cylindrical_confidence. apply passes_iff in H. now rewrite H. Qed.
Lemma cylinder_by_radius srf e s1 s2 a1 a2 : usable_pair max_los_distance min_los_distance max_el_dev zones s1 s2 -> srf = Some e -> ls_alt s1 = Some a1 -> ls_alt s2 = Some a2 ->
  cyl srf s1 s2 = match scan threshold r (ls_x s1) (ls_y s1) a1 (ls_x s2 - ls_x s1) (ls_y s2 - ls_y s1) (a2 - a1) (Rmax a1 a2) (sort_high (cylinder_obstructions r e s1 s2)) r with None => Ok 0 | Some d => Ok (d / r) end.
Proof.
  intros H -> A1 A2. unfold cylindrical_confidence. apply passes_iff in H. rewrite H. cbn [negb]. unfold confidence_by_radius. rewrite A1, A2. destruct (scan _ _ _ _ _ _ _ _ _ _ _); [|reflexivity].
  destruct (req r 0) eqn:E; [apply req_true in E; lra|reflexivity].
Qed.
Lemma start_ok : r * threshold <= r <= r.
Proof. destruct VP as (_ & _ & T). assert (0 <= r * (1 - threshold)) by (apply Rmult_le_pos; lra). lra. Qed.
Lemma div_range d : r * threshold <= d <= r -> threshold <= d / r <= 1.
Proof. intros [A B]. split; [apply Rmult_le_reg_r with r|apply Rmult_le_reg_r with r]; auto; unfold Rdiv; rewrite Rmult_assoc, Rinv_l by lra; lra. Qed.
Lemma cylinder_range srf s1 s2 : (srf = None \/ (ls_alt s1 <> None /\ ls_alt s2 <> None)) ->
  exists c, cyl srf s1 s2 = Ok c /\ (c = 0 \/ threshold <= c <= 1).
Proof.
  intros K. destruct (passes_simple_checks max_los_distance min_los_distance max_el_dev zones s1 s2) eqn:E.
  2:{ exists 0. split; [|now left]. unfold cylindrical_confidence. now rewrite E. }
  apply passes_iff in E. destruct srf as [e|]; [|exists 1; split; [now apply cylinder_no_surface|right; destruct VP as (_ & _ & T); lra]].
  destruct K as [K|[K1 K2]]; [discriminate|]. destruct (ls_alt s1) as [a1|] eqn:A1; [|congruence]. destruct (ls_alt s2) as [a2|] eqn:A2; [|congruence].
  rewrite (cylinder_by_radius _ _ _ _ _ _ E eq_refl A1 A2).
  assert (S := scan_ok r (ls_x s1) (ls_y s1) a1 (ls_x s2 - ls_x s1) (ls_y s2 - ls_y s1) (a2 - a1) (Rmax a1 a2) (sort_high (cylinder_obstructions r e s1 s2)) r start_ok).
  destruct (scan _ _ _ _ _ _ _ _ _ _ _) as [d|]; [|eauto]. exists (d / r). split; [reflexivity|]. right. apply div_range, S.
Qed.
Lemma cylinder_clear e s1 s2 a1 a2 c : raster e -> ls_alt s1 = Some a1 -> ls_alt s2 = Some a2 -> cyl (Some e) s1 s2 = Ok c -> 0 < c ->
  forall ix iy, cell e ix iy -> in_area e (centre_x e ix) (centre_y e iy) -> beside s1 s2 r (centre_x e ix) (centre_y e iy) ->
    past_an_end s1 s2 a1 a2 (centre_x e ix) (centre_y e iy) (e_data e iy ix) \/
    forall t z, z <= e_data e iy ix -> c * r <= gap s1 s2 a1 a2 t (centre_x e ix) (centre_y e iy) z.
Proof.
  intros We A1 A2 C Cp ix iy HC HA HB. destruct (passes_simple_checks max_los_distance min_los_distance max_el_dev zones s1 s2) eqn:E.
  2:{ unfold cylindrical_confidence in C. rewrite E in C. injection C as <-. lra. }
  apply passes_iff in E. rewrite (cylinder_by_radius _ _ _ _ _ _ E eq_refl A1 A2) in C. assert (AP := up_apart _ _ _ _ _ _ E).
  assert (S := scan_ok r (ls_x s1) (ls_y s1) a1 (ls_x s2 - ls_x s1) (ls_y s2 - ls_y s1) (a2 - a1) (Rmax a1 a2) (sort_high (cylinder_obstructions r e s1 s2)) r start_ok).
  destruct (scan _ _ _ _ _ _ _ _ _ _ _) as [d|]; [|injection C as <-; lra]. injection C as <-. destruct S as [_ S].
  assert (I : In (mkPt3 (centre_x e ix) (centre_y e iy) (e_data e iy ix)) (sort_high (cylinder_obstructions r e s1 s2))).
  { apply (Permutation_in _ (sort_perm _)). unfold cylinder_obstructions. assert (B := beside_box s1 s2 r _ _ AP Rp HB). destruct (four_corners _ _ _ _ r) as [[[p q] r'] s]. destruct B as [B1 B2]. now apply obstructions_complete. }
  destruct (distance_to_center_line (mkPt3 (centre_x e ix) (centre_y e iy) (e_data e iy ix)) (ls_x s1) (ls_y s1) a1 (ls_x s2 - ls_x s1) (ls_y s2 - ls_y s1) (a2 - a1)) as [d'|] eqn:D.
  - right. intros t z Hz. specialize (S _ _ I D). apply (distance_least s1 s2 AP) in D. destruct D as [_ D]. specialize (D t z Hz). cbn [px py pz] in D. replace (d / r * r) with d by (field; lra). lra.
  - apply (distance_none s1 s2 AP) in D. cbn [px py pz] in D. destruct D as [D|D]; [|now left]. destruct D. destruct HB as (t & w & T & _ & X & Y).
    assert (P := l2_pos s1 s2 AP). rewrite X, Y. set (L := sqrt _). assert (PL : 0 < L) by (apply sqrt_lt_R0; simpl; lra). match goal with |- _ <= ?q <= _ => replace q with t; [exact T|] end. field. split; lra.
Qed.
Lemma passes_swap s1 s2 : undirected zones -> passes_simple_checks max_los_distance min_los_distance max_el_dev zones s1 s2 = passes_simple_checks max_los_distance min_los_distance max_el_dev zones s2 s1.
Proof.
  intros U. apply bool_iff. rewrite !passes_iff. assert (H : forall a b, usable_pair max_los_distance min_los_distance max_el_dev zones a b -> usable_pair max_los_distance min_los_distance max_el_dev zones b a); [|now split; apply H].
  intros a b H. assert (Hl : los_length b a = los_length a b).
  { unfold los_length. f_equal. assert (Q : rise b a ^ 2 = rise a b ^ 2) by (unfold rise; destruct (ls_alt a), (ls_alt b); ring). rewrite Q. ring. }
  assert (Ha : los_angle b a = los_angle a b).
  { unfold los_angle. rewrite Hl. do 3 f_equal. assert (Q : rise b a = - rise a b) by (unfold rise; destruct (ls_alt a), (ls_alt b); ring). rewrite Q, Rabs_Ropp. reflexivity. }
  constructor.
  - intros [X Y]. apply (up_apart _ _ _ _ _ _ H). auto.
  - intros (X & Y & Z). apply (up_buildings _ _ _ _ _ _ H). auto.
  - rewrite Hl. apply (up_range _ _ _ _ _ _ H).
  - intros X Y. rewrite Ha. now apply (up_angle _ _ _ _ _ _ H).
  - intros z Hz. rewrite (U z _ _ Hz). now apply (up_zones _ _ _ _ _ _ H).
Qed.
Lemma corners_swapped s1 s2 q : ~ (ls_x s1 = ls_x s2 /\ ls_y s1 = ls_y s2) ->
  four_corners (ls_x s2) (ls_y s2) (ls_x s1) (ls_y s1) q = match four_corners (ls_x s1) (ls_y s1) (ls_x s2) (ls_y s2) q with (a, b, c, d) => (c, d, a, b) end.
Proof. intros AP. unfold four_corners. rewrite (corners_swap s1 s2 AP). destruct (corner_offsets _ _ _ _ q). reflexivity. Qed.
Lemma cylinder_obstructions_swap e s1 s2 : ~ (ls_x s1 = ls_x s2 /\ ls_y s1 = ls_y s2) -> cylinder_obstructions r e s2 s1 = cylinder_obstructions r e s1 s2.
Proof.
  intros AP. unfold cylinder_obstructions. rewrite (corners_swapped _ _ _ AP). destruct (corners_k s1 s2 AP r) as (k & E & _).
  destruct (four_corners (ls_x s1) (ls_y s1) (ls_x s2) (ls_y s2) r) as [[[p q] r'] s] eqn:F. rewrite (min4_swap (fst p)), (min4_swap (snd p)), (max4_swap (fst p)), (max4_swap (snd p)).
  unfold four_corners in F. rewrite E in F. injection F as <- <- <- <-.
  apply obstructions_ext. intros x y. apply bool_iff. unfold in_rectangle. cbn [fst snd]. rewrite !andb_true_iff, !rle_true.
  set (x1 := ls_x s1). set (y1 := ls_y s1). set (x2 := ls_x s2). set (y2 := ls_y s2).
  match goal with |- ((0 <= ?A <= ?B /\ _) /\ ?C <= ?D) <-> ((0 <= ?A' <= ?B' /\ _) /\ ?C' <= ?D') => idtac | |- (((0 <= ?A /\ ?A <= ?B) /\ 0 <= ?C) /\ ?C <= ?D) <-> (((0 <= ?A' /\ ?A' <= ?B') /\ 0 <= ?C') /\ ?C' <= ?D') =>
    replace A' with A by ring; replace B' with B by ring; replace C' with (D - C) by ring; replace D' with D by ring end. split; intros [[[? ?] ?] ?]; (split; [split; [split|]|]); lra.
Qed.
Lemma distance_swap s1 s2 a1 a2 g : ~ (ls_x s1 = ls_x s2 /\ ls_y s1 = ls_y s2) ->
  distance_to_center_line g (ls_x s2) (ls_y s2) a2 (ls_x s1 - ls_x s2) (ls_y s1 - ls_y s2) (a1 - a2) = distance_to_center_line g (ls_x s1) (ls_y s1) a1 (ls_x s2 - ls_x s1) (ls_y s2 - ls_y s1) (a2 - a1).
Proof.
  intros AP. assert (P := l2_pos s1 s2 AP). unfold distance_to_center_line. set (x1 := ls_x s1) in *. set (y1 := ls_y s1) in *. set (x2 := ls_x s2) in *. set (y2 := ls_y s2) in *.
  set (L := (x2 - x1) * (x2 - x1) + (y2 - y1) * (y2 - y1)) in *. replace ((x1 - x2) * (x1 - x2) + (y1 - y2) * (y1 - y2)) with L by (unfold L; ring).
  set (p := ((px g - x1) * (x2 - x1) + (py g - y1) * (y2 - y1)) / L). replace (((px g - x2) * (x1 - x2) + (py g - y2) * (y1 - y2)) / L) with (1 - p) by (unfold p; unfold L; field; fold L; lra).
  replace (pz g - a2 - (1 - p) * (a1 - a2)) with (pz g - a1 - p * (a2 - a1)) by ring. destruct (rlt 0 (pz g - a1 - p * (a2 - a1))).
  - replace (rle 0 (1 - p) && rle (1 - p) 1)%bool with (rle 0 p && rle p 1)%bool by (apply bool_iff; rewrite !andb_true_iff, !rle_true; lra). destruct (rle 0 p && rle p 1)%bool; [|reflexivity]. do 2 f_equal.
    replace (- (px g - x2) * (y1 - y2) + (py g - y2) * (x1 - x2)) with (- (- (px g - x1) * (y2 - y1) + (py g - y1) * (x2 - x1))) by ring. apply Rabs_Ropp.
  - set (Z := (a2 - a1) * (a2 - a1)). replace ((a1 - a2) * (a1 - a2)) with Z by (unfold Z; ring). assert (PZ := sq_pos (a2 - a1)). fold Z in PZ.
    set (t := ((px g - x1) * (x2 - x1) + (py g - y1) * (y2 - y1) + (pz g - a1) * (a2 - a1)) / (L + Z)). replace (((px g - x2) * (x1 - x2) + (py g - y2) * (y1 - y2) + (pz g - a2) * (a1 - a2)) / (L + Z)) with (1 - t) by (unfold t, L, Z; field; fold L; fold Z; lra).
    replace (rlt (1 - t) 0 || rlt 1 (1 - t))%bool with (rlt t 0 || rlt 1 t)%bool by (apply bool_iff; rewrite !orb_true_iff, !rlt_true; lra). destruct (rlt t 0 || rlt 1 t)%bool; [reflexivity|]. do 2 f_equal. ring.
Qed.
Lemma scan_ext ax ay az bx by_ bz hi ax' ay' az' bx' by' bz' hi' : hi = hi' -> (forall g, distance_to_center_line g ax ay az bx by_ bz = distance_to_center_line g ax' ay' az' bx' by' bz') ->
  forall l m, scan threshold r ax ay az bx by_ bz hi l m = scan threshold r ax' ay' az' bx' by' bz' hi' l m.
Proof. intros <- H. induction l as [|g l IH]; intros m; cbn [scan]; [reflexivity|]. rewrite H. destruct (req threshold 1 && rlt hi (pz g)); [reflexivity|]. destruct (distance_to_center_line g ax' ay' az' bx' by' bz'); [|apply IH]. destruct (rlt _ _); auto. Qed.
Lemma cylinder_symmetric srf s1 s2 : undirected zones -> cyl srf s1 s2 = cyl srf s2 s1.
Proof.
  intros U. unfold cylindrical_confidence. rewrite (passes_swap s2 s1 U). destruct (passes_simple_checks max_los_distance min_los_distance max_el_dev zones s1 s2) eqn:E; [|reflexivity]. cbn [negb]. destruct srf as [e|]; [|reflexivity].
  apply passes_iff in E. assert (AP := up_apart _ _ _ _ _ _ E). unfold confidence_by_radius. rewrite (cylinder_obstructions_swap e s1 s2 AP). destruct (ls_alt s1) as [a1|], (ls_alt s2) as [a2|]; try reflexivity.
  rewrite (scan_ext (ls_x s2) (ls_y s2) a2 (ls_x s1 - ls_x s2) (ls_y s1 - ls_y s2) (a1 - a2) (Rmax a2 a1) (ls_x s1) (ls_y s1) a1 (ls_x s2 - ls_x s1) (ls_y s2 - ls_y s1) (a2 - a1) (Rmax a1 a2)); [reflexivity|apply Rmax_comm|]. intros g. now apply distance_swap.
Qed.
End Cylinder.
End Validator.
