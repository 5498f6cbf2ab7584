(** Proofs of C37, C54 and C55. *)
From Coq Require Import Reals Lra Lia Sorted.
From Verif Require Import Base MonadLib LosRangeModel LosPickProofs ElevModel ElevSpec.
Local Open Scope R_scope.

(** ** rounding *)
Lemma rfloor_bounds x : IZR (rfloor x) <= x < IZR (rfloor x) + 1.
Proof. unfold rfloor. destruct (base_Int_part x). lra. Qed.
Lemma le_rfloor n x : IZR n <= x <-> (n <= rfloor x)%Z.
Proof.
  destruct (rfloor_bounds x) as [A B]. split; intros H.
  - apply Z.lt_succ_r, lt_IZR. rewrite succ_IZR. lra.
  - apply IZR_le in H. lra.
Qed.
Lemma rceil_le n x : x <= IZR n <-> (rceil x <= n)%Z.
Proof.
  unfold rceil. change (Int_part (- x)) with (rfloor (- x)). split; intros H.
  - assert (IZR (- n) <= - x) by (rewrite opp_IZR; lra). apply le_rfloor in H0. lia.
  - assert (K : (- n <= rfloor (- x))%Z) by lia. apply le_rfloor in K. rewrite opp_IZR in K. lra.
Qed.
Lemma rround_near x : Rabs (x - IZR (rround x)) <= 1/2.
Proof.
  unfold rround. destruct (rfloor_bounds x) as [A B]. destruct (Rlt_dec _ _); [apply Rabs_le; lra|]. destruct (Rlt_dec _ _); [rewrite plus_IZR; apply Rabs_le; lra|].
  destruct (Z.even _); [|rewrite plus_IZR]; apply Rabs_le; lra.
Qed.
Lemma rround_bounds x : IZR (rround x) - 1/2 <= x <= IZR (rround x) + 1/2.
Proof. assert (H := rround_near x). assert (A := Rle_abs (x - IZR (rround x))). assert (B := Rle_abs (- (x - IZR (rround x)))). rewrite Rabs_Ropp in B. lra. Qed.
Lemma int_gap a b : IZR a < IZR b + 1 -> (a <= b)%Z.
Proof. intros H. apply Z.lt_succ_r, lt_IZR. rewrite succ_IZR. lra. Qed.
Lemma rround_below n x : x <= IZR n -> (rround x <= n)%Z.
Proof. intros H. apply int_gap. assert (B := rround_bounds x). lra. Qed.
Lemma rround_above n x : IZR n <= x -> (n <= rround x)%Z.
Proof. intros H. apply int_gap. assert (B := rround_bounds x). lra. Qed.
Lemma rround_int n : rround (IZR n) = n.
Proof. apply Z.le_antisymm; [apply rround_below|apply rround_above]; lra. Qed.
Lemma rround_nearest x k : Rabs (x - IZR (rround x)) <= Rabs (x - IZR k).
Proof.
  destruct (Z.eq_dec k (rround x)) as [->|N]; [lra|]. assert (B := rround_bounds x). apply Rle_trans with (1/2); [apply rround_near|].
  destruct (Z.lt_ge_cases k (rround x)) as [L|L].
  - assert (K : (k + 1 <= rround x)%Z) by lia. apply IZR_le in K. rewrite plus_IZR in K. rewrite Rabs_right; lra.
  - assert (K : (rround x + 1 <= k)%Z) by lia. apply IZR_le in K. rewrite plus_IZR in K. rewrite Rabs_left1; lra.
Qed.
Definition idx (v : R) (n : Z) : Z := Z.min (Z.max (rround v) 0) (n - 1).
Lemma idx_range v n : (0 < n)%Z -> (0 <= idx v n < n)%Z.
Proof. unfold idx. lia. Qed.
Lemma idx_nearest v n k : (0 <= k < n)%Z -> Rabs (v - IZR (idx v n)) <= Rabs (v - IZR k).
Proof.
  intros H. unfold idx. assert (B := rround_bounds v). destruct (Z.lt_ge_cases (rround v) 0) as [L|L].
  - replace (Z.min (Z.max (rround v) 0) (n - 1)) with 0%Z by lia. assert (K : (rround v + 1 <= 0)%Z) by lia. apply IZR_le in K. rewrite plus_IZR in K.
    destruct H as [H _]. apply IZR_le in H. rewrite !Rabs_left1; lra.
  - destruct (Z.le_gt_cases (rround v) (n - 1)) as [M|M].
    + replace (Z.min (Z.max (rround v) 0) (n - 1)) with (rround v) by lia. apply rround_nearest.
    + replace (Z.min (Z.max (rround v) 0) (n - 1)) with (n - 1)%Z by lia. assert (K : (n - 1 + 1 <= rround v)%Z) by lia. apply IZR_le in K. rewrite plus_IZR in K.
      assert (K' : (k <= n - 1)%Z) by lia. apply IZR_le in K'. rewrite !Rabs_right; lra.
Qed.
Lemma idx_mono_low v n k : (0 <= k < n)%Z -> v <= IZR k -> (idx v n <= k)%Z.
Proof. intros H L. apply rround_below in L. unfold idx. lia. Qed.
Lemma idx_mono_high v n k : (0 <= k < n)%Z -> IZR k <= v -> (k <= idx v n)%Z.
Proof. intros H L. apply rround_above in L. unfold idx. lia. Qed.
Lemma idx_half v n : (0 < n)%Z -> - (1/2) <= v <= IZR (n - 1) + 1/2 -> Rabs (v - IZR (idx v n)) <= 1/2.
Proof.
  intros N H. destruct (Z.lt_ge_cases (rround v) 0) as [L|L].
  - unfold idx. replace (Z.min (Z.max (rround v) 0) (n - 1)) with 0%Z by lia. assert (B := rround_bounds v). assert (K : (rround v + 1 <= 0)%Z) by lia. apply IZR_le in K. rewrite plus_IZR in K. apply Rabs_le. lra.
  - destruct (Z.le_gt_cases (rround v) (n - 1)) as [M|M].
    + unfold idx. replace (Z.min (Z.max (rround v) 0) (n - 1)) with (rround v) by lia. apply rround_near.
    + unfold idx. replace (Z.min (Z.max (rround v) 0) (n - 1)) with (n - 1)%Z by lia. assert (B := rround_bounds v). assert (K : (n - 1 + 1 <= rround v)%Z) by lia. apply IZR_le in K. rewrite plus_IZR in K. apply Rabs_le. lra.
Qed.
Lemma zrange_In a b k : In k (zrange a b) <-> (a <= k < b)%Z.
Proof.
  unfold zrange. rewrite in_map_iff. split.
  - intros (m & <- & H). apply in_seq in H. lia.
  - intros H. exists (Z.to_nat (k - a)). split; [lia|]. apply in_seq. lia.
Qed.
Lemma zrange_NoDup a b : NoDup (zrange a b).
Proof. unfold zrange. apply FinFun.Injective_map_NoDup; [intros x y H; lia|apply seq_NoDup]. Qed.
Lemma zrange_length a b : List.length (zrange a b) = Z.to_nat (b - a).
Proof. unfold zrange. now rewrite map_length, seq_length. Qed.

(** ** cells *)
Section Raster.
Variable e : elev.
Hypothesis W : raster e.
Lemma xres_pos : 0 < e_xres e. Proof. apply W. Qed.
Lemma yres_pos : 0 < e_yres e. Proof. apply W. Qed.
Lemma off_x x k : x - centre_x e k = e_xres e * ((x - e_left e) / e_xres e - IZR k).
Proof. unfold centre_x. assert (P := xres_pos). field. lra. Qed.
Lemma off_y y k : y - centre_y e k = - (e_yres e * ((e_top e - y) / e_yres e - IZR k)).
Proof. unfold centre_y. assert (P := yres_pos). field. lra. Qed.
Lemma utm_idx x y : utm_to_idx e x y = (idx ((x - e_left e) / e_xres e) (e_nx e), idx ((e_top e - y) / e_yres e) (e_ny e)).
Proof. reflexivity. Qed.
Lemma utm_cell x y : cell e (fst (utm_to_idx e x y)) (snd (utm_to_idx e x y)).
Proof. rewrite utm_idx. cbn [fst snd]. destruct W as (A & B & _). split; now apply idx_range. Qed.
Lemma abs_x x k : Rabs (x - centre_x e k) = e_xres e * Rabs ((x - e_left e) / e_xres e - IZR k).
Proof. rewrite off_x, Rabs_mult, (Rabs_right (e_xres e)); [reflexivity|]. assert (P := xres_pos). lra. Qed.
Lemma abs_y y k : Rabs (y - centre_y e k) = e_yres e * Rabs ((e_top e - y) / e_yres e - IZR k).
Proof. rewrite off_y, Rabs_Ropp, Rabs_mult, (Rabs_right (e_yres e)); [reflexivity|]. assert (P := yres_pos). lra. Qed.
Lemma utm_nearest x y : nearest e x y (fst (utm_to_idx e x y)) (snd (utm_to_idx e x y)).
Proof.
  split; [apply utm_cell|]. intros jx jy [Hx Hy]. rewrite utm_idx. cbn [fst snd]. assert (P := xres_pos). assert (Q := yres_pos). rewrite !abs_x, !abs_y.
  split; (apply Rmult_le_compat_l; [lra|]); now apply idx_nearest.
Qed.
Lemma utm_half x y : in_raster e x y ->
  Rabs (x - centre_x e (fst (utm_to_idx e x y))) <= e_xres e / 2 /\ Rabs (y - centre_y e (snd (utm_to_idx e x y))) <= e_yres e / 2.
Proof.
  intros [Hx Hy]. rewrite utm_idx. cbn [fst snd]. assert (P := xres_pos). assert (Q := yres_pos). destruct W as (A & B & _). rewrite abs_x, abs_y. unfold centre_x, centre_y in *.
  split; (match goal with |- ?r * _ <= _ => apply Rle_trans with (r * (1/2)); [apply Rmult_le_compat_l; [lra|]|lra] end); apply idx_half; try assumption.
  - split; [apply Rmult_le_reg_r with (e_xres e); [exact P|]|apply Rmult_le_reg_r with (e_xres e); [exact P|]]; unfold Rdiv; rewrite Rmult_assoc, Rinv_l by lra; lra.
  - split; [apply Rmult_le_reg_r with (e_yres e); [exact Q|]|apply Rmult_le_reg_r with (e_yres e); [exact Q|]]; unfold Rdiv; rewrite Rmult_assoc, Rinv_l by lra; lra.
Qed.
Lemma idx_utm ix iy : cell e ix iy -> utm_to_idx e (fst (idx_to_utm e ix iy)) (snd (idx_to_utm e ix iy)) = (ix, iy).
Proof.
  intros [Hx Hy]. rewrite utm_idx. unfold idx_to_utm. cbn [fst snd]. assert (P := xres_pos). assert (Q := yres_pos).
  replace ((e_left e + e_xres e * IZR ix - e_left e) / e_xres e) with (IZR ix) by (field; lra).
  replace ((e_top e - (e_top e - e_yres e * IZR iy)) / e_yres e) with (IZR iy) by (field; lra).
  unfold idx. rewrite !rround_int. f_equal; lia.
Qed.
Lemma idx_centre ix iy : idx_to_utm e ix iy = (centre_x e ix, centre_y e iy).
Proof. unfold idx_to_utm, centre_x, centre_y. f_equal; ring. Qed.
Lemma col_low x ix : (0 <= ix < e_nx e)%Z -> x <= centre_x e ix -> (idx ((x - e_left e) / e_xres e) (e_nx e) <= ix)%Z.
Proof. intros H L. apply idx_mono_low; [exact H|]. assert (P := xres_pos). unfold centre_x in L. apply Rmult_le_reg_r with (e_xres e); [exact P|]. unfold Rdiv. rewrite Rmult_assoc, Rinv_l by lra. lra. Qed.
Lemma col_high x ix : (0 <= ix < e_nx e)%Z -> centre_x e ix <= x -> (ix <= idx ((x - e_left e) / e_xres e) (e_nx e))%Z.
Proof. intros H L. apply idx_mono_high; [exact H|]. assert (P := xres_pos). unfold centre_x in L. apply Rmult_le_reg_r with (e_xres e); [exact P|]. unfold Rdiv. rewrite Rmult_assoc, Rinv_l by lra. lra. Qed.
Lemma row_low y iy : (0 <= iy < e_ny e)%Z -> centre_y e iy <= y -> (idx ((e_top e - y) / e_yres e) (e_ny e) <= iy)%Z.
Proof. intros H L. apply idx_mono_low; [exact H|]. assert (P := yres_pos). unfold centre_y in L. apply Rmult_le_reg_r with (e_yres e); [exact P|]. unfold Rdiv. rewrite Rmult_assoc, Rinv_l by lra. lra. Qed.
Lemma row_high y iy : (0 <= iy < e_ny e)%Z -> y <= centre_y e iy -> (iy <= idx ((e_top e - y) / e_yres e) (e_ny e))%Z.
Proof. intros H L. apply idx_mono_high; [exact H|]. assert (P := yres_pos). unfold centre_y in L. apply Rmult_le_reg_r with (e_yres e); [exact P|]. unfold Rdiv. rewrite Rmult_assoc, Rinv_l by lra. lra. Qed.
Lemma clamp_le lo hi a x : lo <= x <= hi -> a <= x -> clamp lo hi a <= x.
Proof. intros H L. unfold clamp. apply Rle_trans with (Rmax a lo); [apply Rmin_l|]. apply Rmax_lub; lra. Qed.
Lemma clamp_ge lo hi a x : lo <= x <= hi -> x <= a -> x <= clamp lo hi a.
Proof. intros H L. unfold clamp. apply Rmin_glb; [|lra]. apply Rle_trans with a; [exact L|apply Rmax_l]. Qed.
Lemma clamp_between lo hi a b x : lo <= x <= hi -> Rmin a b <= x <= Rmax a b -> Rmin (clamp lo hi a) (clamp lo hi b) <= x <= Rmax (clamp lo hi a) (clamp lo hi b).
Proof.
  intros H [A B]. split.
  - unfold Rmin in A. destruct (Rle_dec a b); [apply Rle_trans with (clamp lo hi a); [apply Rmin_l|now apply clamp_le]|apply Rle_trans with (clamp lo hi b); [apply Rmin_r|now apply clamp_le]].
  - unfold Rmax in B. destruct (Rle_dec a b); [apply Rle_trans with (clamp lo hi b); [now apply clamp_ge|apply Rmax_r]|apply Rle_trans with (clamp lo hi a); [now apply clamp_ge|apply Rmax_l]].
Qed.
Lemma obstructions_sound x1 y1 x2 y2 f p : In p (get_all_obstructions e x1 y1 x2 y2 f) ->
  exists ix iy, cell e ix iy /\ p = mkPt3 (centre_x e ix) (centre_y e iy) (e_data e iy ix) /\ f (px p) (py p) = true.
Proof.
  unfold get_all_obstructions. rewrite in_flat_map. intros (iy & Hy & H). apply in_flat_map in H. destruct H as (ix & Hx & H). apply zrange_In in Hx. apply zrange_In in Hy.
  rewrite idx_centre in H. cbn [fst snd] in H. destruct (f (centre_x e ix) (centre_y e iy)) eqn:F; [|destruct H]. destruct H as [<-|[]]. exists ix, iy.
  rewrite !utm_idx in Hx, Hy. cbn [fst snd] in Hx, Hy. destruct W as (A & B & _).
  assert (R1 := idx_range ((Rmin (clamp (e_min_x e) (e_max_x e) x1) (clamp (e_min_x e) (e_max_x e) x2) - e_left e) / e_xres e) _ A).
  assert (R2 := idx_range ((Rmax (clamp (e_min_x e) (e_max_x e) x1) (clamp (e_min_x e) (e_max_x e) x2) - e_left e) / e_xres e) _ A).
  assert (R3 := idx_range ((e_top e - Rmax (clamp (e_min_y e) (e_max_y e) y1) (clamp (e_min_y e) (e_max_y e) y2)) / e_yres e) _ B).
  assert (R4 := idx_range ((e_top e - Rmin (clamp (e_min_y e) (e_max_y e) y1) (clamp (e_min_y e) (e_max_y e) y2)) / e_yres e) _ B).
  split; [split; lia|]. split; [reflexivity|exact F].
Qed.
Lemma obstructions_complete x1 y1 x2 y2 f ix iy : cell e ix iy -> in_area e (centre_x e ix) (centre_y e iy) -> in_box x1 y1 x2 y2 (centre_x e ix) (centre_y e iy) ->
  f (centre_x e ix) (centre_y e iy) = true -> In (mkPt3 (centre_x e ix) (centre_y e iy) (e_data e iy ix)) (get_all_obstructions e x1 y1 x2 y2 f).
Proof.
  intros [Hx Hy] [Ax Ay] [Bx By] F. unfold get_all_obstructions. apply in_flat_map. exists iy. rewrite !utm_idx. cbn [fst snd].
  destruct (clamp_between _ _ _ _ _ Ax Bx) as [Cx Cx']. destruct (clamp_between _ _ _ _ _ Ay By) as [Cy Cy'].
  assert (Q1 := col_low _ _ Hx Cx). assert (Q2 := col_high _ _ Hx Cx'). assert (Q3 := row_high _ _ Hy Cy). assert (Q4 := row_low _ _ Hy Cy').
  split; [apply zrange_In; lia|]. apply in_flat_map. exists ix. split; [apply zrange_In; lia|]. rewrite idx_centre. cbn [fst snd]. rewrite F. now left.
Qed.
Lemma obstructions_once x1 y1 x2 y2 f : NoDup (get_all_obstructions e x1 y1 x2 y2 f).
Proof.
  assert (P := xres_pos). assert (Q := yres_pos). unfold get_all_obstructions. apply NoDup_flat; [apply zrange_NoDup| |].
  - intros iy _. apply NoDup_flat; [apply zrange_NoDup| |].
    + intros ix _. destruct (f _ _); repeat constructor. intros [].
    + intros a b p _ _ Ha Hb. destruct (f _ _) in Ha; [|destruct Ha]. destruct (f _ _) in Hb; [|destruct Hb]. destruct Ha as [<-|[]]. destruct Hb as [Hb|[]]. rewrite !idx_centre in Hb. apply (f_equal px) in Hb. cbn [px fst] in Hb. unfold centre_x in Hb.
      apply eq_IZR. apply Rmult_eq_reg_r with (e_xres e); lra.
  - intros a b p _ _ Ha Hb. apply in_flat_map in Ha. apply in_flat_map in Hb. destruct Ha as (u & _ & Ha). destruct Hb as (v & _ & Hb).
    destruct (f _ _) in Ha; [|destruct Ha]. destruct (f _ _) in Hb; [|destruct Hb]. destruct Ha as [<-|[]]. destruct Hb as [Hb|[]]. rewrite !idx_centre in Hb. apply (f_equal py) in Hb. cbn [py snd] in Hb. unfold centre_y in Hb.
    apply eq_IZR. apply Rmult_eq_reg_r with (e_yres e); lra.
Qed.

(** ** values *)
Variable closest : elev -> R -> R -> result R.
Hypothesis V : no_gaps e.
Definition value_at (x y : R) : R := let i := utm_to_idx e x y in e_data e (snd i) (fst i).
Lemma get_value_ok x y : get_value closest e x y = Ok (value_at x y, e).
Proof.
  unfold get_value, value_at. assert (C := utm_cell x y). destruct (utm_to_idx e x y) as [ix iy]. cbn [fst snd] in *.
  destruct C as [Cx Cy]. replace ((0 <=? ix) && (ix <? e_nx e) && (0 <=? iy) && (iy <? e_ny e))%Z%bool with true.
  - destruct (Req_EM_T _ _) as [E|_]; [|reflexivity]. exfalso. apply (V ix iy); [split; assumption|exact E].
  - symmetry. rewrite !andb_true_iff, !Z.leb_le, !Z.ltb_lt. lia.
Qed.
Lemma value_nearest x y : exists ix iy, nearest e x y ix iy /\ value_at x y = e_data e iy ix.
Proof. exists (fst (utm_to_idx e x y)), (snd (utm_to_idx e x y)). split; [apply utm_nearest|reflexivity]. Qed.
Lemma value_centre ix iy : cell e ix iy -> value_at (centre_x e ix) (centre_y e iy) = e_data e iy ix.
Proof. intros H. unfold value_at. assert (E := idx_utm ix iy H). rewrite idx_centre in E. cbn [fst snd] in E. rewrite E. reflexivity. Qed.
Lemma list_fold l : forall acc, foldM (list_step closest) (acc, e) l = Ok (acc ++ map (fun u => mkPt3 (fst u) (snd u) (value_at (fst u) (snd u))) l, e).
Proof.
  induction l as [|u l IH]; intros acc; cbn [foldM map]; [now rewrite app_nil_r|]. unfold list_step at 1. cbn [fst snd]. rewrite get_value_ok. cbn [rbind fst snd]. rewrite IH, <- app_assoc. reflexivity.
Qed.
Lemma col_window a b ix : (rceil ((a - e_left e) / e_xres e) <= ix < rfloor ((b - e_left e) / e_xres e) + 1)%Z <-> a <= centre_x e ix <= b.
Proof.
  assert (P := xres_pos). rewrite Z.add_1_r, Z.lt_succ_r, <- rceil_le, <- le_rfloor. unfold centre_x.
  assert (E : forall z, z = (z - e_left e) / e_xres e * e_xres e + e_left e) by (intros; field; lra). split; intros [A B].
  - apply (Rmult_le_compat_r (e_xres e)) in A; [|lra]. apply (Rmult_le_compat_r (e_xres e)) in B; [|lra]. rewrite (E a), (E b). lra.
  - rewrite (E a) in A. rewrite (E b) in B. split; (apply Rmult_le_reg_r with (e_xres e); [exact P|lra]).
Qed.
Lemma row_window a b iy : (rceil ((e_top e - b) / e_yres e) <= iy < rfloor ((e_top e - a) / e_yres e) + 1)%Z <-> a <= centre_y e iy <= b.
Proof.
  assert (P := yres_pos). rewrite Z.add_1_r, Z.lt_succ_r, <- rceil_le, <- le_rfloor. unfold centre_y.
  assert (E : forall z, z = e_top e - (e_top e - z) / e_yres e * e_yres e) by (intros; field; lra). split; intros [A B].
  - apply (Rmult_le_compat_r (e_yres e)) in A; [|lra]. apply (Rmult_le_compat_r (e_yres e)) in B; [|lra]. rewrite (E a), (E b). lra.
  - rewrite (E b) in B. rewrite (E a) in A. split; (apply Rmult_le_reg_r with (e_yres e); [exact P|lra]).
Qed.
Lemma window_list x1 y1 x2 y2 : exists l, get_value_list_within_bound closest e x1 y1 x2 y2 = Ok (l, e) /\ NoDup l /\
  (forall p, window_point e x1 y1 x2 y2 p -> In p l) /\
  (forall p, In p l -> x1 <= px p <= x2 /\ y1 <= py p <= y2 /\ exists ix iy, nearest e (px p) (py p) ix iy /\ pz p = e_data e iy ix) /\
  (window_inside e x1 y1 x2 y2 -> forall p, In p l -> window_point e x1 y1 x2 y2 p).
Proof.
  unfold get_value_list_within_bound. rewrite list_fold. cbn [app]. eexists. split; [reflexivity|].
  set (xs := map _ (zrange _ _)). set (ys := map _ (zrange _ _)).
  assert (X : forall x, In x xs <-> exists ix, x = centre_x e ix /\ x1 <= x <= x2).
  { intros x. unfold xs. rewrite in_map_iff. split; [intros (i & <- & H); exists i; apply zrange_In, col_window in H; split; [reflexivity|exact H]|intros (i & -> & H); exists i; split; [reflexivity|apply zrange_In, col_window; exact H]]. }
  assert (Y : forall y, In y ys <-> exists iy, y = centre_y e iy /\ y1 <= y <= y2).
  { intros y. unfold ys. rewrite in_map_iff. split; [intros (i & <- & H); exists i; apply zrange_In, row_window in H; split; [reflexivity|exact H]|intros (i & -> & H); exists i; split; [reflexivity|apply zrange_In, row_window; exact H]]. }
  assert (NX : NoDup xs). { apply FinFun.Injective_map_NoDup; [|apply zrange_NoDup]. intros a b E. assert (P := xres_pos). apply eq_IZR, Rmult_eq_reg_r with (e_xres e); lra. }
  assert (NY : NoDup ys). { apply FinFun.Injective_map_NoDup; [|apply zrange_NoDup]. intros a b E. assert (P := yres_pos). apply eq_IZR, Rmult_eq_reg_r with (e_yres e); lra. }
  split; [|split; [|split]].
  - apply FinFun.Injective_map_NoDup; [intros [a b] [c d] E; injection E; intros; congruence|].
    clear - NX NY. induction xs as [|x l IH]; cbn; [constructor|]. inversion NX; subst. apply NoDup_app_iff_local.
    + apply FinFun.Injective_map_NoDup; [intros a b E; congruence|exact NY].
    + now apply IH.
    + intros [a b] H K. apply in_map_iff in H. destruct H as (z & H & _). apply in_prod_iff in K. destruct K as [K _]. congruence.
  - intros p (ix & iy & C & -> & Hx & Hy). cbn [px py] in *. apply in_map_iff. exists (centre_x e ix, centre_y e iy). split; [cbn [fst snd]; now rewrite value_centre|]. apply in_prod; [apply X|apply Y]; eauto.
  - intros p H. apply in_map_iff in H. destruct H as ([x y] & <- & H). apply in_prod_iff in H. destruct H as [Hx Hy]. apply X in Hx. apply Y in Hy. destruct Hx as (ix & -> & Hx). destruct Hy as (iy & -> & Hy). cbn [px py pz fst snd]. split; [exact Hx|]. split; [exact Hy|]. apply value_nearest.
  - intros I p H. apply in_map_iff in H. destruct H as ([x y] & <- & H). apply in_prod_iff in H. destruct H as [Hx Hy]. apply X in Hx. apply Y in Hy. destruct Hx as (ix & -> & Hx). destruct Hy as (iy & -> & Hy).
    assert (C : cell e ix iy).
    { destruct I as (I1 & I2 & I3 & I4). assert (P := xres_pos). assert (Q := yres_pos). unfold centre_x, centre_y in *.
      split; split.
      - apply int_gap. apply Rmult_lt_reg_r with (e_xres e); lra.
      - apply lt_IZR. apply Rmult_lt_reg_r with (e_xres e); lra.
      - apply int_gap. apply Rmult_lt_reg_r with (e_yres e); lra.
      - apply lt_IZR. apply Rmult_lt_reg_r with (e_yres e); lra. }
    exists ix, iy. split; [exact C|]. cbn [fst snd px py]. rewrite value_centre by exact C. auto.
Qed.
Lemma zrange_sorted a b : StronglySorted Z.lt (zrange a b).
Proof.
  unfold zrange. generalize (Z.to_nat (b - a)). generalize 0%nat. intros m n. revert m. induction n as [|n IH]; intros m; cbn; constructor; [apply IH|].
  apply Forall_forall. intros z H. apply in_map_iff in H. destruct H as (k & <- & H). apply in_seq in H. lia.
Qed.
Lemma window_matrix x1 y1 x2 y2 : window_inside e x1 y1 x2 y2 -> (exists ix iy, cell e ix iy /\ x1 <= centre_x e ix <= x2 /\ y1 <= centre_y e iy <= y2) ->
  exists rows cols, get_value_matrix_within_bound closest e x1 y1 x2 y2 = Ok (map (fun iy => map (fun ix => e_data e iy ix) cols) rows, e) /\
  StronglySorted Z.lt rows /\ StronglySorted Z.lt cols /\
  (forall iy, In iy rows <-> (0 <= iy < e_ny e)%Z /\ y1 <= centre_y e iy <= y2) /\ (forall ix, In ix cols <-> (0 <= ix < e_nx e)%Z /\ x1 <= centre_x e ix <= x2).
Proof.
  intros I (ix & iy & [Cx Cy] & Hx & Hy). unfold get_value_matrix_within_bound.
  assert (Kx : forall k, x1 <= centre_x e k <= x2 -> (0 <= k < e_nx e)%Z).
  { intros k Hk. destruct I as (I1 & I2 & _). assert (P := xres_pos). unfold centre_x in *. split; [apply int_gap|apply lt_IZR]; apply Rmult_lt_reg_r with (e_xres e); lra. }
  assert (Ky : forall k, y1 <= centre_y e k <= y2 -> (0 <= k < e_ny e)%Z).
  { intros k Hk. destruct I as (_ & _ & I3 & I4). assert (P := yres_pos). unfold centre_y in *. split; [apply int_gap|apply lt_IZR]; apply Rmult_lt_reg_r with (e_yres e); lra. }
  assert (S : forall n a b k, (0 <= a)%Z -> (b <= n)%Z -> (a <= k < b)%Z -> slice n a b = zrange a b).
  { intros n a b k A B C. unfold slice, slice_bound. destruct (Z.ltb_spec a 0); [lia|]. destruct (Z.ltb_spec b 0); [lia|]. f_equal; lia. }
  assert (Wx := proj2 (col_window x1 x2 ix) Hx). assert (Wy := proj2 (row_window y1 y2 iy) Hy).
  assert (Kx' := fun k H => Kx k (proj1 (col_window x1 x2 k) H)). assert (Ky' := fun k H => Ky k (proj1 (row_window y1 y2 k) H)).
  assert (A1 := Kx' (rceil ((x1 - e_left e) / e_xres e))). assert (A2 := Kx' (rfloor ((x2 - e_left e) / e_xres e))).
  assert (A3 := Ky' (rceil ((e_top e - y2) / e_yres e))). assert (A4 := Ky' (rfloor ((e_top e - y1) / e_yres e))).
  rewrite (S _ _ _ iy) by lia. rewrite (S _ _ _ ix) by lia. eexists. eexists. split.
  - destruct (Nat.eqb_spec (List.length (zrange (rceil ((e_top e - y2) / e_yres e)) (rfloor ((e_top e - y1) / e_yres e) + 1)) * List.length (zrange (rceil ((x1 - e_left e) / e_xres e)) (rfloor ((x2 - e_left e) / e_xres e) + 1))) 0) as [E|_]; [|reflexivity].
    exfalso. rewrite !zrange_length in E. apply Nat.eq_mul_0 in E. lia.
  - split; [apply zrange_sorted|]. split; [apply zrange_sorted|]. split.
    + intros k. rewrite zrange_In, row_window. split; [intros H; split; [now apply Ky|exact H]|tauto].
    + intros k. rewrite zrange_In, col_window. split; [intros H; split; [now apply Kx|exact H]|tauto].
Qed.
Lemma resample_fold xres yres l : forall acc, foldM (resample_step closest xres yres) (acc, e) l = Ok (acc ++ map (fun p => value_at (e_left e + xres * IZR (snd p)) (e_top e - yres * IZR (fst p))) l, e).
Proof.
  induction l as [|u l IH]; intros acc; cbn [foldM map]; [now rewrite app_nil_r|]. unfold resample_step at 1. cbn [fst snd]. rewrite get_value_ok. cbn [rbind fst snd]. rewrite IH, <- app_assoc. reflexivity.
Qed.
Lemma nth_prod {A B C} (f : A * B -> C) (l : list A) (m : list B) d i j a b : nth_error l i = Some a -> nth_error m j = Some b -> nth (i * List.length m + j) (map f (list_prod l m)) d = f (a, b).
Proof.
  revert i. induction l as [|x l IH]; intros i Hi Hj; [destruct i; discriminate|]. cbn [list_prod]. rewrite map_app, map_map. assert (Lj : (j < List.length m)%nat) by (apply nth_error_Some; congruence). destruct i as [|i]; cbn in Hi.
  - injection Hi as ->. rewrite app_nth1 by (rewrite map_length; cbn; lia). cbn [Nat.mul Nat.add]. apply nth_error_nth. now rewrite nth_error_map, Hj.
  - rewrite app_nth2 by (rewrite map_length; cbn; lia). rewrite map_length. replace (S i * List.length m + j - List.length m)%nat with (i * List.length m + j)%nat by (cbn; lia). now apply IH.
Qed.
Lemma zrange_nth n k : (0 <= k < n)%Z -> nth_error (zrange 0 n) (Z.to_nat k) = Some k.
Proof.
  intros H. unfold zrange. rewrite nth_error_map, (nth_error_nth' _ 0%nat) by (rewrite seq_length; lia). rewrite seq_nth by lia. cbn. f_equal. lia.
Qed.
Lemma set_resolution_ok xres yres : 0 < xres -> 0 < yres -> exists e', set_resolution closest e xres yres = Ok e' /\
  e_xres e' = xres /\ e_yres e' = yres /\ e_left e' = e_left e /\ e_top e' = e_top e /\
  (forall ix iy, cell e' ix iy -> exists jx jy, nearest e (centre_x e' ix) (centre_y e' iy) jx jy /\ e_data e' iy ix = e_data e jy jx).
Proof.
  intros Px Py.
  assert (Q : exists e', resample closest e xres yres = Ok e' /\ e_xres e' = xres /\ e_yres e' = yres /\ e_left e' = e_left e /\ e_top e' = e_top e /\
    (forall ix iy, cell e' ix iy -> exists jx jy, nearest e (centre_x e' ix) (centre_y e' iy) jx jy /\ e_data e' iy ix = e_data e jy jx)).
  { unfold resample. rewrite resample_fold. cbn [rbind app fst]. eexists. split; [reflexivity|]. cbn [e_xres e_yres e_left e_top]. do 4 (split; [reflexivity|]).
    intros ix iy [Hx Hy]. cbn [e_nx e_ny] in Hx, Hy. cbn [e_data].
    set (nx := rceil _) in *. set (ny := rceil _) in *.
    replace (Z.to_nat (iy * nx + ix)) with (Z.to_nat iy * List.length (zrange 0 nx) + Z.to_nat ix)%nat by (rewrite zrange_length; nia).
    erewrite nth_prod; [|apply zrange_nth; exact Hy|apply zrange_nth; exact Hx]. cbn [fst snd]. unfold centre_x, centre_y. cbn [e_left e_top e_xres e_yres].
    rewrite (Rmult_comm xres), (Rmult_comm yres). apply value_nearest. }
  unfold set_resolution. destruct (Req_EM_T xres (e_xres e)) as [->|]; [|exact Q]. destruct (Req_EM_T yres (e_yres e)) as [->|]; [|exact Q].
  exists e. do 5 (split; [reflexivity|]). intros ix iy C. exists ix, iy. split; [|reflexivity]. split; [exact C|]. intros jx jy _. unfold Rminus. rewrite !Rplus_opp_r, Rabs_R0. split; apply Rabs_pos.
Qed.
End Raster.
