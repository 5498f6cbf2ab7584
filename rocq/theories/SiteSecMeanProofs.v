(** Proofs for C74: the circular mean of a node. *)
From Coq Require Import QArith Permutation Lia Reals Qreals Lra.
From Verif Require Import Base SecLinkSpec SecPlaceSpec SiteSecSpec.
Local Open Scope R_scope.

Lemma turns_cos x (z : Z) : cos (x + 2 * IZR z * PI) = cos x /\ sin (x + 2 * IZR z * PI) = sin x.
Proof.
  destruct (Z_le_gt_dec 0 z) as [H|H].
  - rewrite <- (Z2Nat.id z H), <- INR_IZR_INZ. split; [apply cos_period|apply sin_period].
  - assert (E : IZR z = - INR (Z.to_nat (- z))) by (rewrite INR_IZR_INZ, Z2Nat.id, opp_IZR by lia; ring).
    rewrite <- (cos_period (x + 2 * IZR z * PI) (Z.to_nat (- z))), <- (sin_period (x + 2 * IZR z * PI) (Z.to_nat (- z))).
    rewrite E. split; f_equal; ring.
Qed.
Lemma product_cos x h : 2 * sin (h / 2) * cos x = sin (x + h / 2) - sin (x - h / 2).
Proof. rewrite sin_plus, sin_minus. ring. Qed.
Lemma product_sin x h : 2 * sin (h / 2) * sin x = cos (x - h / 2) - cos (x + h / 2).
Proof. rewrite cos_plus, cos_minus. ring. Qed.
Lemma telescope h f : forall t, (forall i a, nth_error f i = Some a -> exists z, radians a = t + INR i * h + 2 * IZR z * PI) ->
  2 * sin (h / 2) * sum_of cos f = sin (t + INR (List.length f) * h - h / 2) - sin (t - h / 2) /\
  2 * sin (h / 2) * sum_of sin f = cos (t - h / 2) - cos (t + INR (List.length f) * h - h / 2).
Proof.
  induction f as [|a f IH]; intros t H.
  - cbn [sum_of fold_right List.length]. change (INR 0) with 0. replace (t + 0 * h - h / 2) with (t - h / 2) by ring. split; ring.
  - destruct (H 0%nat a eq_refl) as [z E]. change (INR 0) with 0 in E. destruct (IH (t + h)) as [I1 I2].
    { intros i b Hb. destruct (H (S i) b Hb) as [z' E']. exists z'. rewrite E', S_INR. ring. }
    cbn [sum_of fold_right]. change (fold_right (fun a s => cos (radians a) + s) 0 f) with (sum_of cos f). change (fold_right (fun a s => sin (radians a) + s) 0 f) with (sum_of sin f).
    rewrite !Rmult_plus_distr_l, I1, I2, E. destruct (turns_cos (t + 0 * h) z) as [-> ->]. replace (t + 0 * h) with t by ring. rewrite product_cos, product_sin.
    cbn [List.length]. rewrite S_INR. replace (t + h - h / 2) with (t + h / 2) by field. replace (t + h + INR (List.length f) * h - h / 2) with (t + (INR (List.length f) + 1) * h - h / 2) by ring. split; ring.
Qed.
Lemma qnat_INR i : Q2R (qnat i) = INR i.
Proof. unfold qnat, Q2R, inject_Z. cbn. rewrite INR_IZR_INZ. field. Qed.
Lemma sum_perm g l f : Permutation l f -> sum_of g l = sum_of g f.
Proof. unfold sum_of. induction 1; cbn; lra. Qed.
Lemma mean_centre c h n f l : fan c h n f -> (0 < h)%Q -> (1 <= n)%nat -> (h * qnat n < 360)%Q -> Permutation l f ->
  exists r, 0 < r /\ sum_of cos l = r * cos (radians c) /\ sum_of sin l = r * sin (radians c).
Proof.
  intros [L G] Hh Hn Hw P.
  rewrite !(sum_perm _ _ _ P). clear P l. set (H := radians h). set (C := radians c). set (t := C - (INR n - 1) / 2 * H).
  destruct (telescope H f t) as [T1 T2].
  { intros i a Ha. destruct (G i a Ha) as [_ [z E]]. exists z. apply Qeq_eqR in E. unfold t, C, H, radians. rewrite E.
    rewrite !Q2R_plus, !Q2R_mult, !Q2R_minus. unfold Qdiv. rewrite Q2R_mult, Q2R_minus, !qnat_INR.
    replace (Q2R 1) with 1 by (unfold Q2R; cbn; field). replace (Q2R (/ 2)) with (/ 2) by (unfold Q2R; cbn; field). replace (Q2R 360) with 360 by (unfold Q2R; cbn; field).
    replace (Q2R (inject_Z z)) with (IZR z) by (unfold Q2R, inject_Z; cbn; field). field. }
  rewrite L in T1, T2.
  replace (t + INR n * H - H / 2) with (C + INR n * H / 2) in T1, T2 by (unfold t; field). replace (t - H / 2) with (C - INR n * H / 2) in T1, T2 by (unfold t; field).
  assert (PI0 := PI_RGT_0). apply Qlt_Rlt in Hh, Hw. rewrite Q2R_mult, qnat_INR in Hw. replace (Q2R 0) with 0 in Hh by (unfold Q2R; cbn; field). replace (Q2R 360) with 360 in Hw by (unfold Q2R; cbn; field).
  assert (N1 : 1 <= INR n) by (apply (le_INR 1 n); lia).
  assert (H0 : 0 < H) by (unfold H, radians; apply Rmult_lt_0_compat; [apply Rmult_lt_0_compat; assumption|lra]).
  assert (HN : INR n * H / 2 < PI).
  { unfold H, radians. replace (INR n * (Q2R h * PI / 180) / 2) with (PI * (Q2R h * INR n / 360)) by field. rewrite <- (Rmult_1_r PI) at 2. apply Rmult_lt_compat_l; [exact PI0|]. lra. }
  assert (HN0 : H <= INR n * H) by nra.
  assert (S1 : 0 < sin (H / 2)) by (apply sin_gt_0; lra). assert (S2 : 0 < sin (INR n * H / 2)) by (apply sin_gt_0; lra).
  exists (sin (INR n * H / 2) / sin (H / 2)). split; [now apply Rdiv_lt_0_compat|].
  split; apply (Rmult_eq_reg_l (2 * sin (H / 2))); try lra.
  - rewrite T1, sin_plus, sin_minus. field. lra.
  - rewrite T2, cos_plus, cos_minus. field. lra.
Qed.
