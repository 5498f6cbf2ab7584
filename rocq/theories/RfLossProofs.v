(** The losses of a link grow with its length. *)
From Coq Require Import Reals List Lra Lia.
From Verif Require Import Base TopologyModel LosGeomModel RfLossModel MonadLib.
Import ListNotations.
Local Open Scope R_scope.

Lemma rle_true a b : rle a b = true <-> a <= b. Proof. unfold rle. destruct (Rle_dec a b); split; intros; try discriminate; try contradiction; auto. Qed.
Lemma rle_false a b : rle a b = false <-> b < a. Proof. unfold rle. destruct (Rle_dec a b); split; intros; try discriminate; try lra; auto. Qed.
Lemma rlt_true a b : rlt a b = true <-> a < b. Proof. unfold rlt. destruct (Rlt_dec a b); split; intros; try discriminate; try contradiction; auto. Qed.
Lemma rlt_false a b : rlt a b = false <-> b <= a. Proof. unfold rlt. destruct (Rlt_dec a b); split; intros; try discriminate; try lra; auto. Qed.
Lemma req_true a b : req a b = true <-> a = b. Proof. unfold req. destruct (Req_EM_T a b); split; intros; try discriminate; try contradiction; auto. Qed.
Lemma req_false a b : req a b = false <-> a <> b. Proof. unfold req. destruct (Req_EM_T a b); split; intros; try discriminate; try contradiction; auto. Qed.

(** ** logarithms and powers *)
Lemma log_pos x : 0 < x -> py_log10 x = Ok (ln x / ln 10). Proof. intros H. unfold py_log10. now rewrite (proj2 (rlt_true 0 x) H). Qed.
Lemma log_bad x : x <= 0 -> py_log10 x = Err PyValueError. Proof. intros H. unfold py_log10. now rewrite (proj2 (rlt_false 0 x) H). Qed.
Lemma pow_pos x y : 0 < x -> py_pow x y = Ok (Rpower x y). Proof. intros H. unfold py_pow. now rewrite (proj2 (rlt_true 0 x) H). Qed.
Lemma pow_zero y : 0 < y -> py_pow 0 y = Ok 0.
Proof. intros H. unfold py_pow. rewrite (proj2 (rlt_false 0 0)) by lra. rewrite (proj2 (req_true 0 0) eq_refl). now rewrite (proj2 (rlt_true 0 y) H). Qed.
Lemma power_pos x y : 0 < Rpower x y. Proof. unfold Rpower. apply exp_pos. Qed.
Lemma ln10_pos : 0 < ln 10. Proof. rewrite <- ln_1. apply ln_increasing; lra. Qed.
Lemma exp_le a b : a <= b -> exp a <= exp b. Proof. intros [H| ->]; [left; now apply exp_increasing|lra]. Qed.
Lemma ln_le' a b : 0 < a -> a <= b -> ln a <= ln b. Proof. intros Ha [H| ->]; [left; now apply ln_increasing|lra]. Qed.
Lemma exp_ge1 x : 1 + x <= exp x. Proof. destruct (Req_dec x 0) as [->|H]; [rewrite exp_0; lra|]. left. now apply exp_ineq1. Qed.
Lemma ln_le_pred x : 0 < x -> ln x <= x - 1. Proof. intros H. pose proof (exp_ge1 (ln x)) as E. rewrite exp_ln in E by exact H. lra. Qed.
Lemma ln_div' a b : 0 < a -> 0 < b -> ln (a / b) = ln a - ln b.
Proof. intros Ha Hb. unfold Rdiv. rewrite ln_mult, ln_Rinv by (try apply Rinv_0_lt_compat; assumption). ring. Qed.
Lemma power_base a b y : 0 < a -> a <= b -> 0 <= y -> Rpower a y <= Rpower b y.
Proof. intros Ha Hab Hy. unfold Rpower. apply exp_le. apply Rmult_le_compat_l; [exact Hy|now apply ln_le']. Qed.
Lemma power_exp a y z : 1 <= a -> y <= z -> Rpower a y <= Rpower a z.
Proof. intros Ha Hyz. unfold Rpower. apply exp_le. apply Rmult_le_compat_r; [|exact Hyz]. rewrite <- ln_1. apply ln_le'; lra. Qed.
Lemma fourth : Rpower 10 (1/4) < 185/100.
Proof.
  destruct (Rlt_le_dec (Rpower 10 (1/4)) (185/100)) as [H|H]; [exact H|exfalso].
  assert (E : Rpower 10 (1/4) * Rpower 10 (1/4) * (Rpower 10 (1/4) * Rpower 10 (1/4)) = 10). { rewrite <- !Rpower_plus. replace (1/4 + 1/4 + (1/4 + 1/4)) with 1 by lra. apply Rpower_1. lra. }
  assert (H2 : 185/100 * (185/100) <= Rpower 10 (1/4) * Rpower 10 (1/4)) by (apply Rmult_le_compat; lra).
  assert (H4 : 185/100 * (185/100) * (185/100 * (185/100)) <= 10) by (rewrite <- E; apply Rmult_le_compat; lra). lra.
Qed.

(** ** free-space loss *)
Lemma fspl_total d f : 0 < f -> exists l, fspl d f = Ok l /\ l = Rmax 0 (if rlt 0 d then 20 * (ln d / ln 10 + ln f / ln 10) + fspl_margin else 0).
Proof.
  intros Hf. unfold fspl. rewrite (log_pos f Hf). cbn [rbind]. set (tol := Rpower 10 (- fspl_margin / 20 - ln f / ln 10)). assert (Ht : 0 < tol) by apply power_pos. pose proof ln10_pos as L.
  assert (Hlt : ln tol = (- fspl_margin / 20 - ln f / ln 10) * ln 10). { unfold tol, Rpower. apply ln_exp. }
  assert (Hz : 20 * (ln tol / ln 10 + ln f / ln 10) + fspl_margin = 0). { rewrite Hlt. field. lra. }
  destruct (rle d tol) eqn:Ed.
  - apply rle_true in Ed. exists 0. split; [reflexivity|]. destruct (rlt 0 d) eqn:E0; [|now rewrite Rmax_left by lra]. apply rlt_true in E0. rewrite Rmax_left; [reflexivity|].
    rewrite <- Hz. apply Rplus_le_compat_r. apply Rmult_le_compat_l; [lra|]. apply Rplus_le_compat_r. unfold Rdiv. apply Rmult_le_compat_r; [left; now apply Rinv_0_lt_compat|]. now apply ln_le'.
  - apply rle_false in Ed. assert (Hd : 0 < d) by lra. rewrite (log_pos d Hd). cbn [rbind]. eexists. split; [reflexivity|]. rewrite (proj2 (rlt_true 0 d) Hd). rewrite Rmax_right; [reflexivity|].
    rewrite <- Hz. apply Rplus_le_compat_r. apply Rmult_le_compat_l; [lra|]. apply Rplus_le_compat_r. unfold Rdiv. apply Rmult_le_compat_r; [left; now apply Rinv_0_lt_compat|]. apply ln_le'; lra.
Qed.
Lemma fspl_mono d1 d2 f : 0 < f -> d1 <= d2 -> exists l1 l2, fspl d1 f = Ok l1 /\ fspl d2 f = Ok l2 /\ 0 <= l1 <= l2.
Proof.
  intros Hf Hd. destruct (fspl_total d1 f Hf) as (l1 & E1 & ->). destruct (fspl_total d2 f Hf) as (l2 & E2 & ->). eexists. eexists. split; [exact E1|]. split; [exact E2|]. split; [apply Rmax_l|].
  pose proof ln10_pos as L. destruct (rlt 0 d1) eqn:H1; [|apply Rmax_lub; [apply Rmax_l|apply Rmax_l]]. apply rlt_true in H1. rewrite (proj2 (rlt_true 0 d2)) by lra.
  apply Rmax_lub; [apply Rmax_l|]. eapply Rle_trans; [|apply Rmax_r]. apply Rplus_le_compat_r. apply Rmult_le_compat_l; [lra|]. apply Rplus_le_compat_r. unfold Rdiv. apply Rmult_le_compat_r; [left; now apply Rinv_0_lt_compat|]. now apply ln_le'.
Qed.

(** ** oxygen *)
Definition rising (l : list (R * R)) : Prop := match l with [] => True | p :: l => (fix go (p : R * R) (l : list (R * R)) : Prop := match l with [] => True | q :: l => fst p < fst q /\ go q l end) p l end.
Lemma between_range x l b : rising l -> (forall p, In p l -> 0 <= snd p <= b) -> (forall p, nth_error l 0 = Some p -> fst p <= x) -> 0 <= b -> 0 <= between x l <= b.
Proof.
  induction l as [|[x1 y1] l IH]; intros Hr Hb H0 Hbb; [cbn; lra|]. pose proof (Hb (x1, y1) (or_introl eq_refl)) as B1. pose proof (H0 (x1, y1) eq_refl) as X1. cbn [fst snd] in *. cbn [between]. destruct l as [|[x2 y2] l].
  - destruct (req x x1); lra.
  - pose proof (Hb (x2, y2) (or_intror (or_introl eq_refl))) as B2. cbn [snd] in B2. destruct Hr as [H12 Hr]. cbn [fst] in H12. destruct (rlt x x2) eqn:Ex.
    + apply rlt_true in Ex. set (t := (x - x1) / (x2 - x1)). assert (Ht : 0 <= t <= 1). { unfold t. split; [apply Rmult_le_pos; [lra|left; apply Rinv_0_lt_compat; lra]|]. apply Rmult_le_reg_r with (x2 - x1); [lra|]. unfold Rdiv. rewrite Rmult_assoc, Rinv_l by lra. lra. }
      replace ((y2 - y1) / (x2 - x1) * (x - x1) + y1) with (y1 * (1 - t) + y2 * t) by (unfold t; field; lra). split.
      * apply Rplus_le_le_0_compat; apply Rmult_le_pos; lra.
      * replace b with (b * (1 - t) + b * t) by ring. apply Rplus_le_compat; apply Rmult_le_compat_r; lra.
    + apply rlt_false in Ex. apply IH; [exact Hr|intros p Hp; apply Hb; now right|intros p [= <-]; exact Ex|exact Hbb].
Qed.
Lemma oxygen_rate f : 0 <= interp f oxygen_map <= 15.
Proof.
  unfold interp, oxygen_map. destruct (rlt f 52) eqn:E; [lra|]. apply rlt_false in E. apply between_range; [cbn; repeat split; lra| |intros p [= <-]; exact E|lra].
  intros p Hp. repeat (destruct Hp as [<-|Hp]; [cbn; lra|]). contradiction.
Qed.
Lemma oxygen_mono d1 d2 f : 0 <= d1 -> d1 <= d2 -> 0 <= compute_oxygen_loss d1 f <= compute_oxygen_loss d2 f.
Proof. intros H1 H2. unfold compute_oxygen_loss. pose proof (oxygen_rate (mhz_to_ghz f)) as [B _]. split; [now apply Rmult_le_pos|now apply Rmult_le_compat_l]. Qed.

(** ** rain *)
Definition denom (A d : R) : R := A * Rpower d (633/1000) - 10579/1000 * (1 - exp (- (24/1000) * d)).
Lemma power_split d y : 0 < d -> Rpower d y = d * Rpower d (y - 1).
Proof. intros H. rewrite <- (Rpower_1 d H) at 2. rewrite <- Rpower_plus. f_equal. ring. Qed.
Lemma power_neg d d' y : 0 < d -> d <= d' -> 0 <= y -> Rpower d' (- y) <= Rpower d (- y).
Proof. intros H1 H2 Hy. unfold Rpower. apply exp_le. pose proof (ln_le' d d' H1 H2). nra. Qed.
Definition A0 : R := 477/1000 * Rpower 10 (123/1000).
Lemma A0_pos : 0 < A0. Proof. unfold A0. pose proof (power_pos 10 (123/1000)). lra. Qed.
Lemma A0_first : 10579/1000 * (24/1000) < A0 * Rpower 10 (-(367/1000)).
Proof.
  unfold A0. rewrite Rmult_assoc, <- Rpower_plus. replace (123/1000 + - (367/1000)) with (- (244/1000)) by lra. rewrite Rpower_Ropp.
  pose proof (power_exp 10 (244/1000) (1/4) ltac:(lra) ltac:(lra)) as H. pose proof fourth as F. pose proof (power_pos 10 (244/1000)) as P.
  assert (G : / (185/100) <= / Rpower 10 (244/1000)) by (apply Rinv_le_contravar; lra). lra.
Qed.
Lemma A0_second : 10579/1000 * (24/1000) * (24/1000) <= 367/1000 * A0 * Rpower 10 (-(1367/1000)).
Proof.
  unfold A0. replace (367/1000 * (477/1000 * Rpower 10 (123/1000)) * Rpower 10 (- (1367/1000))) with (367/1000 * (477/1000) * (Rpower 10 (123/1000) * Rpower 10 (- (1367/1000)))) by ring.
  rewrite <- Rpower_plus. replace (123/1000 + - (1367/1000)) with (- (1244/1000)) by lra. rewrite Rpower_Ropp.
  pose proof (power_exp 10 (1244/1000) (1 + 1/4) ltac:(lra) ltac:(lra)) as H. rewrite Rpower_plus, Rpower_1 in H by lra. pose proof fourth as F. pose proof (power_pos 10 (1244/1000)) as P.
  assert (G : / (185/10) <= / Rpower 10 (1244/1000)) by (apply Rinv_le_contravar; lra). lra.
Qed.
Lemma denom_pos A d : A0 <= A -> 0 < d -> d <= 10 -> 0 < denom A d.
Proof.
  intros HA Hd Hd'. unfold denom. rewrite (power_split d _ Hd). replace (633/1000 - 1) with (- (367/1000)) by lra. pose proof (power_neg d 10 (367/1000) Hd Hd' ltac:(lra)) as H. pose proof A0_first as F. pose proof A0_pos as P0.
  pose proof (exp_ge1 (- (24/1000) * d)) as E. pose proof (power_pos 10 (-(367/1000))) as P.
  assert (G : A0 * Rpower 10 (-(367/1000)) <= A * Rpower d (-(367/1000))) by (apply Rmult_le_compat; lra).
  assert (G2 : 10579/1000 * (24/1000) * d < A * Rpower d (-(367/1000)) * d) by (apply Rmult_lt_compat_r; lra). lra.
Qed.
(** the second-order bound on the exponential *)
Lemma exp_gap x t : 0 <= x -> 0 <= t -> (x + t) * (1 - exp (- x)) - x * (1 - exp (- (x + t))) <= x * (x + t) * t.
Proof.
  intros Hx Ht. replace (- (x + t)) with (- x + - t) by ring. rewrite exp_plus. set (E := exp (- x)). set (T := exp (- t)).
  assert (HE : 0 < E <= 1). { split; [apply exp_pos|]. unfold E. rewrite <- exp_0. apply exp_le. lra. }
  assert (HE1 : 1 - x <= E). { pose proof (exp_ge1 (- x)). fold E in H. lra. }
  assert (HT : T * (1 + t) <= 1). { unfold T. rewrite exp_Ropp. pose proof (exp_ge1 t) as H. pose proof (exp_pos t) as P. apply Rmult_le_reg_l with (exp t); [exact P|]. rewrite <- Rmult_assoc, Rinv_r by lra. lra. }
  assert (HT2 : T <= 1 - t + t * t). { assert (0 < T) by apply exp_pos. assert ((1 - t + t * t) * (1 + t) >= 1) by nra. nra. }
  assert (H1 : E * T <= E * (1 - t + t * t)) by (apply Rmult_le_compat_l; lra).
  assert (H2 : x * (E * T) <= x * (E * (1 - t + t * t))) by (apply Rmult_le_compat_l; lra).
  assert (H3 : 0 <= t * (x * x - 1 + E + x * E)). { apply Rmult_le_pos; [exact Ht|]. nra. }
  assert (H4 : 0 <= x * (t * t) * (1 - E)). { apply Rmult_le_pos; [apply Rmult_le_pos; [exact Hx|nra]|lra]. }
  nra.
Qed.
Lemma denom_mono A d1 d2 : A0 <= A -> 0 < d1 -> d1 <= d2 -> d2 <= 10 -> d1 * denom A d2 <= d2 * denom A d1.
Proof.
  intros HA H1 H2 H3. unfold denom. rewrite (power_split d1 _ H1), (power_split d2 _ ltac:(lra)). replace (633/1000 - 1) with (- (367/1000)) by lra.
  set (h1 := Rpower d1 (-(367/1000))). set (h2 := Rpower d2 (-(367/1000))). set (c := 24/1000). set (B := 10579/1000). pose proof A0_pos as P0. pose proof A0_second as S2. fold c in S2. fold B in S2.
  assert (Hh : 367/1000 * Rpower d2 (-(1367/1000)) * (d2 - d1) <= h1 - h2).
  { unfold h1, h2, Rpower. set (u := - (367/1000) * ln d1). set (v := - (367/1000) * ln d2). assert (Hexp : exp v * (u - v) <= exp u - exp v). { pose proof (exp_ge1 (u - v)) as E. replace u with (v + (u - v)) at 2 by ring. rewrite exp_plus. pose proof (exp_pos v). nra. }
    assert (Hln : (d2 - d1) / d2 <= ln d2 - ln d1). { pose proof (ln_le_pred (d1 / d2) ltac:(apply Rdiv_lt_0_compat; lra)) as L. rewrite ln_div' in L by lra. assert ((d2 - d1) / d2 = 1 - d1 / d2) by (field; lra). lra. }
    eapply Rle_trans; [|exact Hexp]. replace (- (1367/1000) * ln d2) with (v + - ln d2) by (unfold v; lra). rewrite exp_plus, exp_Ropp, exp_ln by lra. unfold u, v.
    replace (367/1000 * (exp (- (367/1000) * ln d2) * / d2) * (d2 - d1)) with (exp (- (367/1000) * ln d2) * (367/1000 * ((d2 - d1) / d2))) by (unfold Rdiv; ring).
    apply Rmult_le_compat_l; [left; apply exp_pos|]. lra. }
  assert (Hg : B * c * c * (d2 - d1) <= A * (h1 - h2)).
  { pose proof (power_neg d2 10 (1367/1000) ltac:(lra) H3 ltac:(lra)) as N. pose proof (power_pos d2 (-(1367/1000))) as P. pose proof (power_pos 10 (-(1367/1000))) as P10.
    assert (K : 367/1000 * A0 * Rpower 10 (-(1367/1000)) <= 367/1000 * A * Rpower d2 (-(1367/1000))) by (apply Rmult_le_compat; lra).
    assert (0 <= d2 - d1) by lra. assert (B * c * c * (d2 - d1) <= 367/1000 * A * Rpower d2 (-(1367/1000)) * (d2 - d1)) by (apply Rmult_le_compat_r; lra).
    assert (A * (367/1000 * Rpower d2 (-(1367/1000)) * (d2 - d1)) <= A * (h1 - h2)) by (apply Rmult_le_compat_l; lra). lra. }
  pose proof (exp_gap (c * d1) (c * (d2 - d1)) ltac:(unfold c; lra) ltac:(unfold c; nra)) as G. replace (c * d1 + c * (d2 - d1)) with (c * d2) in G by ring.
  assert (G' : B * (d2 * (1 - exp (- (c * d1))) - d1 * (1 - exp (- (c * d2)))) <= B * c * c * (d1 * d2 * (d2 - d1))).
  { apply Rmult_le_reg_l with c; [unfold c; lra|]. assert (0 < B) by (unfold B; lra). replace (c * (B * (d2 * (1 - exp (- (c * d1))) - d1 * (1 - exp (- (c * d2)))))) with (B * (c * d2 * (1 - exp (- (c * d1))) - c * d1 * (1 - exp (- (c * d2))))) by ring.
    replace (c * (B * c * c * (d1 * d2 * (d2 - d1)))) with (B * (c * d1 * (c * d2) * (c * (d2 - d1)))) by ring. apply Rmult_le_compat_l; lra. }
  assert (Hdd : 0 < d1 * d2) by (apply Rmult_lt_0_compat; lra).
  assert (Hfin : B * c * c * (d1 * d2 * (d2 - d1)) <= A * (d1 * d2 * (h1 - h2))).
  { replace (B * c * c * (d1 * d2 * (d2 - d1))) with (d1 * d2 * (B * c * c * (d2 - d1))) by ring. replace (A * (d1 * d2 * (h1 - h2))) with (d1 * d2 * (A * (h1 - h2))) by ring. apply Rmult_le_compat_l; lra. }
  replace (- c * d1) with (- (c * d1)) by ring. replace (- c * d2) with (- (c * d2)) by ring. nra.
Qed.
