(** Rain loss and the net gain of a link. *)
From Coq Require Import Reals List Lra Lia.
From Verif Require Import Base TopologyModel LosGeomModel RfLossModel MonadLib RfLossProofs.
Import ListNotations.
Local Open Scope R_scope.

Definition amount (rain f : R) : R := 477/1000 * Rpower rain (73/1000 * (7486/10000)) * Rpower f (123/1000).
Definition c0_of (f : R) : R := 12/100 + 4/10 * (ln (Rpower (f / 10) (8/10)) / ln 10).
Definition c2_of (f : R) : R := 855/1000 * c0_of f + 546/1000 * (1 - c0_of f).
Definition c3_of (f : R) : R := 139/1000 * c0_of f + 43/1000 * (1 - c0_of f).
Definition share (f : R) : R := Rpower (7/100) (c0_of f) * Rpower (12/100) (1 - c0_of f).
Definition outage (f p : R) : R := Rpower p (- (c2_of f + c3_of f * (ln p / ln 10))).
Definition dry (d : R) : R := 10579/1000 * (1 - exp (- (24/1000) * d)).
Lemma rain_form d rain avail carrier : 0 < d -> 0 < rain -> 0 < carrier ->
  compute_rain_loss d rain avail carrier =
  let f := carrier / 1000 in
  if req (denom (amount rain f) d) 0 then Err PyZeroDivision
  else if rlt avail 100 then Ok (Rmax (8515/10000 * Rpower rain (7486/10000) * d * Rmin (1 / denom (amount rain f) d) (5/2) * share f * outage f (100 - avail)) 0)
  else Err PyValueError.
Proof.
  intros Hd Hr Hc. cbn zeta. assert (Hf : 0 < carrier / 1000) by lra. unfold compute_rain_loss, mhz_to_ghz. rewrite (proj2 (rle_false d 0) Hd). cbv zeta.
  rewrite !(pow_pos rain _ Hr), (pow_pos d _ Hd), (pow_pos (carrier / 1000) _ Hf). cbn [rbind]. unfold py_div.
  replace (477/1000 * Rpower d (633/1000) * Rpower rain (73/1000 * (7486/10000)) * Rpower (carrier/1000) (123/1000) - 10579/1000 * (1 - exp (- (24/1000) * d))) with (denom (amount rain (carrier/1000)) d) by (unfold denom, amount; ring).
  destruct (req (denom (amount rain (carrier/1000)) d) 0); [reflexivity|]. cbn [rbind].
  rewrite (pow_pos (carrier/1000/10)) by lra. cbn [rbind]. rewrite (log_pos (Rpower _ _)) by apply power_pos. cbn [rbind]. rewrite !pow_pos by lra. cbn [rbind].
  unfold py_log10. destruct (rlt avail 100) eqn:Ea.
  - apply rlt_true in Ea. rewrite (proj2 (rlt_true 0 (100 - avail))) by lra. cbn [rbind]. rewrite pow_pos by lra. cbn [rbind]. reflexivity.
  - apply rlt_false in Ea. rewrite (proj2 (rlt_false 0 (100 - avail))) by lra. reflexivity.
Qed.
Lemma dry_pos d : 0 < d -> 0 < dry d.
Proof. intros H. unfold dry. assert (exp (- (24/1000) * d) < 1). { rewrite <- exp_0. apply exp_increasing. lra. } lra. Qed.
(** no rain, no loss *)
Lemma no_rain d avail carrier : 0 < carrier -> avail < 100 -> compute_rain_loss d 0 avail carrier = Ok 0.
Proof.
  intros Hc Ha. unfold compute_rain_loss, mhz_to_ghz. destruct (rle d 0) eqn:Ed; [reflexivity|]. apply rle_false in Ed. cbv zeta. rewrite !pow_zero by lra. rewrite !pow_pos by lra. cbn [rbind]. unfold py_div.
  pose proof (dry_pos d Ed) as D. unfold dry in D. rewrite (proj2 (req_false _ 0)) by lra. cbn [rbind]. rewrite (log_pos (Rpower _ _)) by apply power_pos. cbn [rbind]. rewrite !pow_pos by lra. cbn [rbind]. rewrite (log_pos (100 - avail)) by lra. cbn [rbind]. rewrite pow_pos by lra. cbn [rbind].
  f_equal. match goal with |- Rmax ?x 0 = 0 => replace x with 0 by ring end. now apply Rmax_left; lra.
Qed.
Lemma near_zero d rain avail carrier : d <= 0 -> compute_rain_loss d rain avail carrier = Ok 0.
Proof. intros H. unfold compute_rain_loss. now rewrite (proj2 (rle_true d 0) H). Qed.
Lemma amount_big rain f : 1 <= rain -> 10 <= f -> A0 <= amount rain f.
Proof.
  intros Hr Hf. unfold A0, amount. pose proof (power_base 10 f (123/1000) ltac:(lra) Hf ltac:(lra)) as H1. pose proof (power_base 1 rain (73/1000 * (7486/10000)) ltac:(lra) Hr ltac:(lra)) as H2.
  unfold Rpower at 1 in H2. rewrite ln_1, Rmult_0_r, exp_0 in H2. pose proof (power_pos 10 (123/1000)) as P. rewrite Rmult_assoc. apply Rmult_le_compat_l; [lra|]. rewrite <- (Rmult_1_l (Rpower 10 _)). apply Rmult_le_compat; lra.
Qed.
Lemma share_pos f : 0 < share f. Proof. unfold share. apply Rmult_lt_0_compat; apply power_pos. Qed.
Lemma ratio_mono A d1 d2 : A0 <= A -> 0 < d1 -> d1 <= d2 -> d2 <= 10 -> 0 < d1 * Rmin (1 / denom A d1) (5/2) <= d2 * Rmin (1 / denom A d2) (5/2).
Proof.
  intros HA H1 H2 H3. pose proof (denom_pos A d1 HA H1 ltac:(lra)) as P1. pose proof (denom_pos A d2 HA ltac:(lra) H3) as P2. pose proof (denom_mono A d1 d2 HA H1 H2 H3) as M.
  assert (I1 : 0 < 1 / denom A d1) by (apply Rdiv_lt_0_compat; lra). assert (I2 : 0 < 1 / denom A d2) by (apply Rdiv_lt_0_compat; lra). split; [apply Rmult_lt_0_compat; [exact H1|apply Rmin_glb_lt; lra]|].
  assert (Q : d1 * (1 / denom A d1) <= d2 * (1 / denom A d2)).
  { apply Rmult_le_reg_r with (denom A d1 * denom A d2); [now apply Rmult_lt_0_compat|]. replace (d1 * (1 / denom A d1) * (denom A d1 * denom A d2)) with (d1 * denom A d2) by (field; lra). replace (d2 * (1 / denom A d2) * (denom A d1 * denom A d2)) with (d2 * denom A d1) by (field; lra). exact M. }
  unfold Rmin at 2. destruct (Rle_dec (1 / denom A d2) (5/2)) as [L|L].
  - eapply Rle_trans; [|exact Q]. apply Rmult_le_compat_l; [lra|apply Rmin_l].
  - apply Rmult_le_compat; [lra|apply Rmin_glb; lra|exact H2|apply Rmin_r].
Qed.
(** every argument on which the radio constants make sense gives a loss, which grows with the distance *)
Lemma rain_mono rain avail carrier d1 d2 : rain = 0 \/ 1 <= rain -> avail < 100 -> 10000 <= carrier -> d1 <= d2 -> d2 <= 10 ->
  exists l1 l2, compute_rain_loss d1 rain avail carrier = Ok l1 /\ compute_rain_loss d2 rain avail carrier = Ok l2 /\ 0 <= l1 <= l2.
Proof.
  intros [-> |Hr] Ha Hc H12 H2; [exists 0, 0; rewrite !no_rain by lra; repeat split; lra|].
  assert (val : forall d, 0 < d -> d <= 10 -> exists K, 0 < K /\ compute_rain_loss d rain avail carrier = Ok (K * (d * Rmin (1 / denom (amount rain (carrier/1000)) d) (5/2))) /\ K = 8515/10000 * Rpower rain (7486/10000) * share (carrier/1000) * outage (carrier/1000) (100 - avail)).
  { intros d Hd Hd'. pose proof (amount_big rain (carrier/1000) Hr ltac:(lra)) as HA. pose proof (denom_pos _ d HA Hd Hd') as P. eexists. split; [|split; [|reflexivity]].
    - repeat apply Rmult_lt_0_compat; try apply power_pos; lra.
    - rewrite rain_form by lra. cbn zeta. rewrite (proj2 (req_false _ 0)) by lra. rewrite (proj2 (rlt_true avail 100) Ha). f_equal. pose proof (ratio_mono _ d d HA Hd ltac:(lra) Hd') as [R _]. rewrite Rmax_left; [ring|].
      match goal with |- 0 <= ?x => replace x with (8515/10000 * Rpower rain (7486/10000) * share (carrier/1000) * outage (carrier/1000) (100 - avail) * (d * Rmin (1 / denom (amount rain (carrier/1000)) d) (5/2))) by ring end.
      apply Rmult_le_pos; [|lra]. left. repeat apply Rmult_lt_0_compat; try apply power_pos; lra. }
  pose proof (amount_big rain (carrier/1000) Hr ltac:(lra)) as HA. destruct (Rle_lt_dec d1 0) as [H1|H1].
  - exists 0. rewrite (near_zero d1) by exact H1. destruct (Rle_lt_dec d2 0) as [H0|H0]; [exists 0; rewrite (near_zero d2) by exact H0; repeat split; lra|]. destruct (val d2 H0 H2) as (K & HK & E & _). eexists. split; [reflexivity|]. split; [exact E|]. split; [lra|].
    pose proof (ratio_mono _ d2 d2 HA H0 ltac:(lra) H2) as [R _]. apply Rmult_le_pos; lra.
  - destruct (val d1 H1 ltac:(lra)) as (K & HK & E1 & EK). destruct (val d2 ltac:(lra) H2) as (K' & HK' & E2 & EK'). eexists. eexists. split; [exact E1|]. split; [exact E2|]. replace K' with K by congruence. pose proof (ratio_mono _ d1 d2 HA H1 H12 H2) as [R1 R2]. split; [apply Rmult_le_pos; lra|]. apply Rmult_le_compat_l; lra.
Qed.
(** an availability of 100 percent *)
Lemma always_available d rain carrier : 0 < d -> d <= 10 -> 1 <= rain -> 10000 <= carrier -> compute_rain_loss d rain 100 carrier = Err PyValueError.
Proof.
  intros Hd Hd' Hr Hc. rewrite rain_form by lra. cbn zeta. pose proof (denom_pos _ d (amount_big rain (carrier/1000) Hr ltac:(lra)) Hd Hd') as P. rewrite (proj2 (req_false _ 0)) by lra. now rewrite (proj2 (rlt_false 100 100)) by lra.
Qed.
Lemma net_gain_mono d1 d2 carrier rain avail txg txl rxg rxl : rain = 0 \/ 1 <= rain -> avail < 100 -> 10000 <= carrier -> 0 <= d1 -> d1 <= d2 -> d2 <= 10000 ->
  exists g1 g2, fspl_based_net_gain d1 carrier rain avail txg txl rxg rxl = Ok g1 /\ fspl_based_net_gain d2 carrier rain avail txg txl rxg rxl = Ok g2 /\ g2 <= g1 /\ g1 <= txg - txl + rxg - rxl.
Proof.
  intros Hr Ha Hc H0 H12 H2. unfold fspl_based_net_gain, get_net_gain. cbv zeta. destruct (rain_mono rain avail carrier (d1/1000) (d2/1000) Hr Ha Hc ltac:(lra) ltac:(lra)) as (l1 & l2 & E1 & E2 & L). rewrite E1, E2. cbn [rbind].
  destruct (fspl_mono (d1/1000) (d2/1000) (mhz_to_ghz carrier) ltac:(unfold mhz_to_ghz; lra) ltac:(lra)) as (m1 & m2 & F1 & F2 & M). rewrite F1, F2. cbn [rbind]. pose proof (oxygen_mono (d1/1000) (d2/1000) carrier ltac:(lra) ltac:(lra)) as O. eexists. eexists. split; [reflexivity|]. split; [reflexivity|]. split; lra.
Qed.
