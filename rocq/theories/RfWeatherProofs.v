(** Heavier rain and higher availability raise the rain loss. *)
From Coq Require Import Reals List Lra Lia.
From Verif Require Import Base TopologyModel LosGeomModel RfLossModel MonadLib RfLossProofs RfRainProofs.
Import ListNotations.
Local Open Scope R_scope.

(** ** rain rate *)
Lemma fourth' : Rpower 10 (1/4) < 1779/1000.
Proof.
  destruct (Rlt_le_dec (Rpower 10 (1/4)) (1779/1000)) as [H|H]; [exact H|exfalso].
  assert (E : Rpower 10 (1/4) * Rpower 10 (1/4) * (Rpower 10 (1/4) * Rpower 10 (1/4)) = 10). { rewrite <- !Rpower_plus. replace (1/4 + 1/4 + (1/4 + 1/4)) with 1 by lra. apply Rpower_1. lra. }
  assert (H2 : 1779/1000 * (1779/1000) <= Rpower 10 (1/4) * Rpower 10 (1/4)) by (apply Rmult_le_compat; lra).
  assert (H4 : 1779/1000 * (1779/1000) * (1779/1000 * (1779/1000)) <= 10) by (rewrite <- E; apply Rmult_le_compat; lra). lra.
Qed.
Lemma A0_low : 477/1000 / (1779/1000) <= A0 * Rpower 10 (-(367/1000)).
Proof.
  unfold A0. rewrite Rmult_assoc, <- Rpower_plus. replace (123/1000 + - (367/1000)) with (- (244/1000)) by lra. rewrite Rpower_Ropp.
  pose proof (power_exp 10 (244/1000) (1/4) ltac:(lra) ltac:(lra)) as H. pose proof fourth' as F. pose proof (power_pos 10 (244/1000)) as P.
  assert (G : / (1779/1000) <= / Rpower 10 (244/1000)) by (apply Rinv_le_contravar; lra). lra.
Qed.
(** the subtracted term is at most 12/13 of the other one *)
Lemma dry_small A d : A0 <= A -> 0 < d -> d <= 10 -> 13 * dry d <= 12 * (A * Rpower d (633/1000)).
Proof.
  intros HA Hd Hd'. rewrite (power_split d _ Hd). replace (633/1000 - 1) with (- (367/1000)) by lra. pose proof A0_low as L. pose proof A0_pos as P0. unfold dry. pose proof (power_pos d (-(367/1000))) as Pd.
  destruct (Rle_lt_dec d 9) as [H9|H9].
  - pose proof (power_neg d 9 (367/1000) Hd H9 ltac:(lra)) as N. assert (N9 : 10367/10000 * Rpower 10 (-(367/1000)) <= Rpower 9 (-(367/1000))).
    { replace 10 with (9 * (10/9)) at 1 by lra. unfold Rpower. rewrite ln_mult by lra. rewrite Rmult_plus_distr_l, exp_plus. pose proof (exp_pos (-(367/1000) * ln 9)) as P9. rewrite <- (Rmult_1_r (exp (-(367/1000) * ln 9))) at 2. rewrite (Rmult_comm (exp _) (exp _)), <- Rmult_assoc, (Rmult_comm _ 1). apply Rmult_le_compat_r; [lra|].
      replace (-(367/1000) * ln (10/9)) with (- (367/1000 * ln (10/9))) by ring. rewrite exp_Ropp. pose proof (ln_le_pred (9/10) ltac:(lra)) as L9. replace (9/10) with (/ (10/9)) in L9 at 1 by field. rewrite ln_Rinv in L9 by lra. pose proof (exp_ge1 (367/1000 * ln (10/9))) as E. pose proof (exp_pos (367/1000 * ln (10/9))) as PE.
      apply Rmult_le_reg_r with (exp (367/1000 * ln (10/9))); [exact PE|]. rewrite Rmult_assoc, Rinv_l by lra. lra. }
    pose proof (exp_ge1 (-(24/1000) * d)) as E. assert (G : A0 * Rpower 10 (-(367/1000)) * (10367/10000) <= A * Rpower d (-(367/1000))).
    { rewrite Rmult_assoc. pose proof (power_pos 10 (-(367/1000))). apply Rmult_le_compat; lra. }
    assert (G2 : 13/12 * (10579/1000 * (24/1000)) * d <= A * Rpower d (-(367/1000)) * d) by (apply Rmult_le_compat_r; lra). lra.
  - pose proof (power_neg d 10 (367/1000) Hd Hd' ltac:(lra)) as N. set (x := 24/1000 * d). assert (Ex : (1 - x/2) * (1 - x/2) <= exp (-(24/1000) * d)).
    { replace (-(24/1000) * d) with (- (x/2) + - (x/2)) by (unfold x; lra). rewrite exp_plus. pose proof (exp_ge1 (-(x/2))) as E. assert (0 <= 1 - x/2) by (unfold x; lra). apply Rmult_le_compat; lra. }
    assert (Hx : 1 - exp (-(24/1000) * d) <= x * (1 - 54/1000)). { assert (x * (1 - x/4) <= x * (1 - 54/1000)) by (apply Rmult_le_compat_l; unfold x; lra). nra. }
    assert (G : A0 * Rpower 10 (-(367/1000)) <= A * Rpower d (-(367/1000))). { pose proof (power_pos 10 (-(367/1000))). apply Rmult_le_compat; lra. }
    assert (G2 : 13/12 * (10579/1000 * (24/1000) * (1 - 54/1000)) * d <= A * Rpower d (-(367/1000)) * d) by (apply Rmult_le_compat_r; lra). unfold x in Hx. lra.
Qed.
Lemma power_one x : Rpower x 0 = 1. Proof. unfold Rpower. now rewrite Rmult_0_l, exp_0. Qed.
(** the attenuation at 0.01 percent as a function of the rain rate *)
Lemma rain_rate_ratio k b r1 r2 : 0 <= k -> 0 <= b -> 1 <= r1 -> r1 <= r2 -> 13 * b <= 12 * k -> 0 < k ->
  let e := 73/1000 * (7486/10000) in
  Rpower r1 (7486/10000) * (k * Rpower r2 e - b) <= Rpower r2 (7486/10000) * (k * Rpower r1 e - b).
Proof.
  intros Hk Hb H1 H12 H13 Hk' e. set (u := Rpower r1 e). assert (Hu : 1 <= u). { unfold u. rewrite <- (power_one r1). apply power_exp; [exact H1|unfold e; lra]. }
  set (s := Rpower (r2 / r1) e). assert (Hr : 1 <= r2 / r1). { apply Rmult_le_reg_r with r1; [lra|]. unfold Rdiv. rewrite Rmult_assoc, Rinv_l by lra. lra. }
  assert (Hs : 1 <= s). { unfold s. rewrite <- (power_one (r2/r1)). apply power_exp; [exact Hr|unfold e; lra]. }
  assert (E2 : forall y, Rpower r2 y = Rpower r1 y * Rpower (r2/r1) y). { intros y. rewrite Rpower_mult_distr by lra. f_equal. field. lra. }
  rewrite !E2. fold s. fold u. set (p := Rpower r1 (7486/10000)). assert (Hp : 0 < p) by apply power_pos.
  assert (Hm : 1 + 13 * (s - 1) <= Rpower (r2/r1) (7486/10000)).
  { apply Rle_trans with (Rpower (r2/r1) (INR 13 * e)).
    - rewrite (Rmult_comm (INR 13)). rewrite <- Rpower_mult. fold s. rewrite Rpower_pow by lra. destruct (Rle_lt_or_eq_dec 1 s Hs) as [L|E].
      + pose proof (poly 13 (s - 1) ltac:(lra)) as B. replace (1 + (s - 1)) with s in B by ring. replace (INR 13) with 13 in B by (cbn; lra). lra.
      + rewrite <- E, pow1. lra.
    - apply power_exp; [exact Hr|]. replace (INR 13) with 13 by (cbn; lra). unfold e. lra. }
  rewrite Rmult_assoc. apply Rmult_le_compat_l; [lra|]. assert (K : 0 <= k * u - b) by nra.
  apply Rle_trans with ((1 + 13 * (s - 1)) * (k * u - b)); [|apply Rmult_le_compat_r; lra].
  assert (Q : 0 <= (s - 1) * (12 * (k * u) - 13 * b)). { apply Rmult_le_pos; [lra|]. nra. } nra.
Qed.
Lemma rain_value d rain avail carrier : 1 <= rain -> avail < 100 -> 10000 <= carrier -> 0 < d -> d <= 10 ->
  compute_rain_loss d rain avail carrier = Ok (8515/10000 * d * share (carrier/1000) * (Rpower rain (7486/10000) * Rmin (1 / denom (amount rain (carrier/1000)) d) (5/2)) * outage (carrier/1000) (100 - avail)).
Proof.
  intros Hr Ha Hc Hd Hd'. pose proof (amount_big rain (carrier/1000) Hr ltac:(lra)) as HA. pose proof (denom_pos _ d HA Hd Hd') as P. rewrite rain_form by lra. cbn zeta. rewrite (proj2 (req_false _ 0)) by lra. rewrite (proj2 (rlt_true avail 100) Ha). f_equal. rewrite Rmax_left; [ring|].
  assert (0 < Rmin (1 / denom (amount rain (carrier/1000)) d) (5/2)). { apply Rmin_glb_lt; [apply Rdiv_lt_0_compat; lra|lra]. }
  left. repeat apply Rmult_lt_0_compat; try apply power_pos; try lra.
Qed.
Lemma attenuation_mono d f r1 r2 : 10 <= f -> 0 < d -> d <= 10 -> 1 <= r1 -> r1 <= r2 ->
  0 < Rpower r1 (7486/10000) * Rmin (1 / denom (amount r1 f) d) (5/2) <= Rpower r2 (7486/10000) * Rmin (1 / denom (amount r2 f) d) (5/2).
Proof.
  intros Hf Hd Hd' H1 H12. pose proof (denom_pos _ d (amount_big r1 f H1 Hf) Hd Hd') as P1. pose proof (denom_pos _ d (amount_big r2 f ltac:(lra) Hf) Hd Hd') as P2.
  assert (I1 : 0 < 1 / denom (amount r1 f) d) by (apply Rdiv_lt_0_compat; lra). assert (I2 : 0 < 1 / denom (amount r2 f) d) by (apply Rdiv_lt_0_compat; lra). pose proof (power_pos r1 (7486/10000)) as Q1. pose proof (power_pos r2 (7486/10000)) as Q2.
  split; [apply Rmult_lt_0_compat; [exact Q1|apply Rmin_glb_lt; lra]|].
  set (k := 477/1000 * Rpower f (123/1000) * Rpower d (633/1000)). assert (Hk : 0 < k). { unfold k. repeat apply Rmult_lt_0_compat; try apply power_pos; lra. }
  assert (D : forall r, denom (amount r f) d = k * Rpower r (73/1000 * (7486/10000)) - dry d). { intros r. unfold denom, amount, k, dry. ring. }
  assert (Hb : 13 * dry d <= 12 * k). { pose proof (dry_small (amount 1 f) d (amount_big 1 f ltac:(lra) Hf) Hd Hd') as S. unfold amount in S. replace (Rpower 1 (73/1000 * (7486/10000))) with 1 in S by (unfold Rpower; rewrite ln_1, Rmult_0_r, exp_0; reflexivity). unfold k. lra. }
  pose proof (rain_rate_ratio k (dry d) r1 r2 ltac:(lra) ltac:(left; now apply dry_pos) H1 H12 Hb Hk) as M. cbv zeta in M. rewrite <- !D in M.
  assert (Q : Rpower r1 (7486/10000) * (1 / denom (amount r1 f) d) <= Rpower r2 (7486/10000) * (1 / denom (amount r2 f) d)).
  { apply Rmult_le_reg_r with (denom (amount r1 f) d * denom (amount r2 f) d); [now apply Rmult_lt_0_compat|].
    replace (Rpower r1 (7486/10000) * (1 / denom (amount r1 f) d) * (denom (amount r1 f) d * denom (amount r2 f) d)) with (Rpower r1 (7486/10000) * denom (amount r2 f) d) by (field; lra).
    replace (Rpower r2 (7486/10000) * (1 / denom (amount r2 f) d) * (denom (amount r1 f) d * denom (amount r2 f) d)) with (Rpower r2 (7486/10000) * denom (amount r1 f) d) by (field; lra). exact M. }
  pose proof (power_base r1 r2 (7486/10000) ltac:(lra) H12 ltac:(lra)) as PB.
  unfold Rmin at 2. destruct (Rle_dec (1 / denom (amount r2 f) d) (5/2)) as [L|L].
  - eapply Rle_trans; [|exact Q]. apply Rmult_le_compat_l; [lra|apply Rmin_l].
  - apply Rmult_le_compat; [lra|apply Rmin_glb; lra|exact PB|apply Rmin_r].
Qed.
Lemma rain_rate_mono d r1 r2 avail carrier : (r1 = 0 \/ 1 <= r1) -> (r2 = 0 \/ 1 <= r2) -> r1 <= r2 -> avail < 100 -> 10000 <= carrier -> d <= 10 ->
  exists l1 l2, compute_rain_loss d r1 avail carrier = Ok l1 /\ compute_rain_loss d r2 avail carrier = Ok l2 /\ 0 <= l1 <= l2.
Proof.
  intros H1 H2 H12 Ha Hc Hd. destruct (Rle_lt_dec d 0) as [H0|H0]; [exists 0, 0; rewrite !near_zero by exact H0; repeat split; lra|].
  destruct H1 as [-> |H1].
  - exists 0. rewrite no_rain by lra. destruct (rain_mono r2 avail carrier d d H2 Ha Hc ltac:(lra) Hd) as (l & _ & E & _ & L & _). exists l. repeat split; try assumption; lra.
  - destruct H2 as [-> |H2]; [lra|]. rewrite !rain_value by lra. eexists. eexists. split; [reflexivity|]. split; [reflexivity|].
    pose proof (attenuation_mono d (carrier/1000) r1 r2 ltac:(lra) H0 Hd H1 H12) as [P M]. pose proof (power_pos (100 - avail) (- (c2_of (carrier/1000) + c3_of (carrier/1000) * (ln (100 - avail) / ln 10)))) as O. fold (outage (carrier/1000) (100 - avail)) in O. pose proof (share_pos (carrier/1000)) as S.
    assert (K : 0 < 8515/10000 * d * share (carrier/1000)) by (apply Rmult_lt_0_compat; [apply Rmult_lt_0_compat; [lra|exact H0]|exact S]). split; [left; apply Rmult_lt_0_compat; [apply Rmult_lt_0_compat|]; lra|].
    apply Rmult_le_compat_r; [lra|]. apply Rmult_le_compat_l; lra.
Qed.

(** ** availability *)
Lemma c0_range f : 10 <= f -> f <= 1000 -> 12/100 <= c0_of f <= 76/100.
Proof.
  intros H1 H2. unfold c0_of, Rpower. rewrite ln_exp. pose proof ln10_pos as L. assert (B : 0 <= ln (f/10) <= 2 * ln 10).
  { split; [rewrite <- ln_1; apply ln_le'; lra|]. replace (2 * ln 10) with (ln 100). { apply ln_le'; lra. } replace 100 with (10 * 10) by lra. rewrite ln_mult by lra. ring. }
  set (t := ln (f/10) / ln 10). assert (T : 0 <= t <= 2). { unfold t. split; [apply Rmult_le_pos; [lra|left; now apply Rinv_0_lt_compat]|]. apply Rmult_le_reg_r with (ln 10); [exact L|]. unfold Rdiv. rewrite Rmult_assoc, Rinv_l by lra. lra. }
  replace (8/10 * ln (f/10) / ln 10) with (8/10 * t) by (unfold t, Rdiv; ring). lra.
Qed.
Lemma outage_mono f p1 p2 : 10 <= f -> f <= 1000 -> 1/1000 <= p1 -> p1 <= p2 -> outage f p2 <= outage f p1.
Proof.
  intros H1 H2 Hp1 Hp12. pose proof (c0_range f H1 H2) as C. pose proof ln10_pos as L. unfold outage, Rpower. apply exp_le. set (t1 := ln p1 / ln 10). set (t2 := ln p2 / ln 10).
  assert (E1 : ln p1 = t1 * ln 10) by (unfold t1; field; lra). assert (E2 : ln p2 = t2 * ln 10) by (unfold t2; field; lra). assert (T12 : t1 <= t2). { unfold t1, t2, Rdiv. apply Rmult_le_compat_r; [left; now apply Rinv_0_lt_compat|]. apply ln_le'; lra. }
  assert (T1 : -3 <= t1). { unfold t1. apply Rmult_le_reg_r with (ln 10); [exact L|]. unfold Rdiv. rewrite Rmult_assoc, Rinv_l by lra. rewrite Rmult_1_r. replace (-3 * ln 10) with (ln (1/1000)). { apply ln_le'; lra. } unfold Rdiv. rewrite Rmult_1_l, ln_Rinv by lra. replace 1000 with (10 * 10 * 10) by lra. rewrite !ln_mult by lra. ring. }
  rewrite E1, E2. assert (C2 : 58/100 <= c2_of f) by (unfold c2_of; lra). assert (C3 : 0 <= c3_of f <= 12/100 /\ 6 * c3_of f <= c2_of f) by (unfold c2_of, c3_of; lra). destruct C3 as [C3 C4]. set (c2 := c2_of f) in *. set (c3 := c3_of f) in *.
  assert (G : 0 <= (t2 - t1) * (c2 + c3 * (t1 + t2))). { apply Rmult_le_pos; [lra|]. nra. }
  assert (0 <= ln 10 * ((t2 - t1) * (c2 + c3 * (t1 + t2)))) by (apply Rmult_le_pos; lra). lra.
Qed.
Lemma availability_mono d rain a1 a2 carrier : rain = 0 \/ 1 <= rain -> a1 <= a2 -> a2 <= 99999/1000 -> 10000 <= carrier <= 1000000 -> d <= 10 ->
  exists l1 l2, compute_rain_loss d rain a1 carrier = Ok l1 /\ compute_rain_loss d rain a2 carrier = Ok l2 /\ 0 <= l1 <= l2.
Proof.
  intros Hr H12 H2 Hc Hd. destruct (Rle_lt_dec d 0) as [H0|H0]; [exists 0, 0; rewrite !near_zero by exact H0; repeat split; lra|]. destruct Hr as [-> |Hr]; [exists 0, 0; rewrite !no_rain by lra; repeat split; lra|].
  rewrite !rain_value by lra. eexists. eexists. split; [reflexivity|]. split; [reflexivity|]. pose proof (attenuation_mono d (carrier/1000) rain rain ltac:(lra) H0 Hd Hr ltac:(lra)) as [P _]. pose proof (share_pos (carrier/1000)) as S.
  assert (K : 0 < 8515/10000 * d * share (carrier/1000) * (Rpower rain (7486/10000) * Rmin (1 / denom (amount rain (carrier/1000)) d) (5/2))) by (apply Rmult_lt_0_compat; [apply Rmult_lt_0_compat; [apply Rmult_lt_0_compat; [lra|exact H0]|exact S]|exact P]).
  pose proof (outage_mono (carrier/1000) (100 - a2) (100 - a1) ltac:(lra) ltac:(lra) ltac:(lra) ltac:(lra)) as M. assert (0 < outage (carrier/1000) (100 - a1)) by apply power_pos. split; [left; now apply Rmult_lt_0_compat|]. apply Rmult_le_compat_l; lra.
Qed.
(** beyond five nines the fitted curve turns around: at 10 GHz, thirteen nines lose less than 99 percent *)
Lemma availability_turns : exists d rain a1 a2 carrier l1 l2, a1 < a2 /\ a2 < 100 /\ compute_rain_loss d rain a1 carrier = Ok l1 /\ compute_rain_loss d rain a2 carrier = Ok l2 /\ l2 < l1.
Proof.
  exists 1, 30, 99, (100 - Rpower 10 (-13)), 10000. assert (P : 0 < Rpower 10 (-13) < 1). { split; [apply power_pos|]. rewrite <- (power_one 10). unfold Rpower. apply exp_increasing. pose proof ln10_pos. lra. }
  rewrite !rain_value by lra. eexists. eexists. split; [lra|]. split; [lra|]. split; [reflexivity|]. split; [reflexivity|]. pose proof (attenuation_mono 1 (10000/1000) 30 30 ltac:(lra) ltac:(lra) ltac:(lra) ltac:(lra) ltac:(lra)) as [Q _]. pose proof (share_pos (10000/1000)) as S.
  apply Rmult_lt_compat_l; [apply Rmult_lt_0_compat; [apply Rmult_lt_0_compat; [lra|exact S]|exact Q]|]. pose proof ln10_pos as L. unfold outage. replace (100 - 99) with 1 by lra. replace (100 - (100 - Rpower 10 (-13))) with (Rpower 10 (-13)) by lra.
  replace (Rpower 1 _) with 1 by (unfold Rpower; rewrite ln_1, Rmult_0_r, exp_0; reflexivity). rewrite <- (power_one 10). rewrite Rpower_mult. unfold Rpower. apply exp_increasing. apply Rmult_lt_compat_r; [exact L|]. rewrite ln_exp. replace (-13 * ln 10 / ln 10) with (-13) by (field; lra).
  assert (C : c0_of (10000/1000) = 12/100). { unfold c0_of, Rpower. replace (10000/1000/10) with 1 by lra. rewrite ln_1, Rmult_0_r, ln_exp. field. lra. } unfold c2_of, c3_of. rewrite C. lra.
Qed.
