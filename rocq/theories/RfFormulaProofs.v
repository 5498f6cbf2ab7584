(** The modelled losses are the published formulas. *)
From Coq Require Import Reals List Lra Lia.
From Verif Require Import Base TopologyModel LosGeomModel RfLossModel RfLossSpec MonadLib RfLossProofs RfRainProofs RfWeatherProofs.
Import ListNotations.
Local Open Scope R_scope.

Lemma fspl_formula d mhz : 0 < d -> 0 < mhz -> fspl d (mhz / 1000) = Ok (Rmax 0 (free_space d (mhz / 1000))).
Proof.
  intros Hd Hf. destruct (fspl_total d (mhz/1000) ltac:(lra)) as (l & E & ->). rewrite E, (proj2 (rlt_true 0 d) Hd). unfold free_space, log10. rewrite ln_mult by lra. do 2 f_equal. unfold fspl_margin. replace 92.45 with (9245/100) by lra. pose proof ln10_pos. field. lra.
Qed.
Lemma rain_formula d rain avail mhz : 1 <= rain -> avail < 100 -> 10000 <= mhz -> 0 < d -> d <= 10 ->
  compute_rain_loss d rain avail mhz = Ok (attenuation d rain (mhz / 1000) (100 - avail)) /\ 0 < attenuation d rain (mhz / 1000) (100 - avail).
Proof.
  intros Hr Ha Hc Hd Hd'. assert (E : attenuation d rain (mhz / 1000) (100 - avail) = 8515/10000 * d * share (mhz/1000) * (Rpower rain (7486/10000) * Rmin (1 / denom (amount rain (mhz/1000)) d) (5/2)) * outage (mhz/1000) (100 - avail)).
  { unfold attenuation, attenuation_001, path_factor, share, outage, c2_of, c3_of, c0_of, denom, amount, log10. cbv zeta.
    replace 0.8515 with (8515/10000) by lra. replace 0.7486 with (7486/10000) by lra. replace 0.477 with (477/1000) by lra. replace 0.633 with (633/1000) by lra. replace 0.073 with (73/1000) by lra. replace 0.123 with (123/1000) by lra. replace 10.579 with (10579/1000) by lra. replace (-0.024) with (-(24/1000)) by lra. replace 2.5 with (5/2) by lra.
    replace 0.12 with (12/100) by lra. replace 0.4 with (4/10) by lra. replace 0.8 with (8/10) by lra. replace 0.07 with (7/100) by lra. replace 0.855 with (855/1000) by lra. replace 0.546 with (546/1000) by lra. replace 0.139 with (139/1000) by lra. replace 0.043 with (43/1000) by lra.
    replace (477/1000 * Rpower d (633/1000) * Rpower rain (73/1000 * (7486/10000)) * Rpower (mhz/1000) (123/1000)) with (477/1000 * Rpower rain (73/1000 * (7486/10000)) * Rpower (mhz/1000) (123/1000) * Rpower d (633/1000)) by ring. ring. }
  rewrite E. split; [now apply rain_value|]. pose proof (attenuation_mono d (mhz/1000) rain rain ltac:(lra) Hd Hd' Hr ltac:(lra)) as [P _]. pose proof (share_pos (mhz/1000)) as S.
  apply Rmult_lt_0_compat; [apply Rmult_lt_0_compat; [apply Rmult_lt_0_compat; [apply Rmult_lt_0_compat; [lra|exact Hd]|exact S]|exact P]|apply power_pos].
Qed.
(** linear between the table points, nothing outside *)
Lemma oxygen_points d mhz : (forall g1 b1 g2 b2 t, In ((g1, b1), (g2, b2)) (combine absorption (tl absorption)) -> 0 <= t <= 1 -> mhz = 1000 * (g1 + t * (g2 - g1)) -> compute_oxygen_loss d mhz = (b1 + t * (b2 - b1)) * d) /\ (mhz <= 52000 \/ 68000 <= mhz -> compute_oxygen_loss d mhz = 0).
Proof.
  split.
  - intros g1 b1 g2 b2 t I Ht ->. unfold compute_oxygen_loss, mhz_to_ghz. f_equal. replace (1000 * (g1 + t * (g2 - g1)) / 1000) with (g1 + t * (g2 - g1)) by field. unfold interp, oxygen_map in *. cbn [combine tl absorption] in I.
    repeat (destruct I as [[= <- <- <- <-]|I]; [rewrite (proj2 (rlt_false _ 52)) by lra; cbn [between];
      repeat (match goal with |- context [rlt ?a ?b] => first [rewrite (proj2 (rlt_true a b)) by lra|rewrite (proj2 (rlt_false a b)) by lra|destruct (rlt a b) eqn:?E; [apply rlt_true in E|apply rlt_false in E; assert (t = 1) by lra; subst t]] end); try (rewrite (proj2 (req_true _ _)) by lra); lra|]). contradiction.
  - intros [H|H]; unfold compute_oxygen_loss, mhz_to_ghz, interp, oxygen_map.
    + destruct (rlt (mhz/1000) 52) eqn:E; [ring|]. apply rlt_false in E. assert (mhz = 52000) as -> by lra. cbn [between]. rewrite (proj2 (rlt_true _ 53)) by lra. field.
    + rewrite (proj2 (rlt_false _ 52)) by lra. cbn [between]. repeat (rewrite (proj2 (rlt_false _ _)) by lra). destruct (req (mhz/1000) 68); ring.
Qed.
Lemma oxygen_bounds d mhz : 0 <= d -> 0 <= compute_oxygen_loss d mhz <= 15 * d.
Proof. intros H. unfold compute_oxygen_loss. pose proof (oxygen_rate (mhz_to_ghz mhz)). split; [apply Rmult_le_pos; lra|apply Rmult_le_compat_r; lra]. Qed.
Lemma oxygen_59_60 : In ((59, 14.6), (60, 15)) (combine absorption (tl absorption)).
Proof. do 7 right. left. reflexivity. Qed.
Lemma net_gain_formula dist_m mhz rain avail tx_gain tx_loss rx_gain rx_loss : weather rain -> avail < 100 -> 10000 <= mhz -> 0 < dist_m -> dist_m <= 10000 ->
  exists rain_loss, compute_rain_loss (dist_m / 1000) rain avail mhz = Ok rain_loss /\
  fspl_based_net_gain dist_m mhz rain avail tx_gain tx_loss rx_gain rx_loss =
    Ok (tx_gain + rx_gain - (tx_loss + rx_loss + Rmax 0 (free_space (dist_m / 1000) (mhz / 1000)) + rain_loss + compute_oxygen_loss (dist_m / 1000) mhz)).
Proof.
  intros W Ha Hc H0 H1. destruct (rain_mono rain avail mhz (dist_m/1000) (dist_m/1000) W Ha Hc ltac:(lra) ltac:(lra)) as (l & _ & E & _). exists l. split; [exact E|]. unfold fspl_based_net_gain, get_net_gain, mhz_to_ghz. cbv zeta. rewrite E. cbn [rbind]. rewrite fspl_formula by lra. cbn [rbind]. f_equal. ring.
Qed.
