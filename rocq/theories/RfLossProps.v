(** Property theorems C66 and C67; vocabulary in RfLossSpec.v. *)
From Coq Require Import Reals List Lra.
From Verif Require Import Base RfLossModel RfLossSpec RfLossProofs RfRainProofs RfWeatherProofs RfFormulaProofs.
Local Open Scope R_scope.

(** C66: over the whole search range of the line-of-sight planner (10 km) the net gain is defined and a longer link never has a higher one *)
Theorem C66_longer_links_are_never_stronger : forall d1 d2 mhz rain avail tx_gain tx_loss rx_gain rx_loss,
  weather rain -> avail < 100 -> 10000 <= mhz -> 0 <= d1 -> d1 <= d2 -> d2 <= 10000 ->
  exists g1 g2, fspl_based_net_gain d1 mhz rain avail tx_gain tx_loss rx_gain rx_loss = Ok g1 /\
    fspl_based_net_gain d2 mhz rain avail tx_gain tx_loss rx_gain rx_loss = Ok g2 /\ g2 <= g1 /\ g1 <= tx_gain - tx_loss + rx_gain - rx_loss.
Proof. exact net_gain_mono. Qed.
Print Assumptions C66_longer_links_are_never_stronger.
Theorem C66_net_gain_accounts_for_every_loss : forall dist_m mhz rain avail tx_gain tx_loss rx_gain rx_loss, weather rain -> avail < 100 -> 10000 <= mhz -> 0 < dist_m -> dist_m <= 10000 ->
  exists rain_loss, compute_rain_loss (dist_m / 1000) rain avail mhz = Ok rain_loss /\
  fspl_based_net_gain dist_m mhz rain avail tx_gain tx_loss rx_gain rx_loss =
    Ok (tx_gain + rx_gain - (tx_loss + rx_loss + Rmax 0 (free_space (dist_m / 1000) (mhz / 1000)) + rain_loss + compute_oxygen_loss (dist_m / 1000) mhz)).
Proof. exact net_gain_formula. Qed.
Print Assumptions C66_net_gain_accounts_for_every_loss.
Theorem C66_rain_loss_grows_with_distance : forall rain avail mhz d1 d2, weather rain -> avail < 100 -> 10000 <= mhz -> d1 <= d2 -> d2 <= 10 ->
  exists l1 l2, compute_rain_loss d1 rain avail mhz = Ok l1 /\ compute_rain_loss d2 rain avail mhz = Ok l2 /\ 0 <= l1 <= l2.
Proof. exact rain_mono. Qed.
Print Assumptions C66_rain_loss_grows_with_distance.
Theorem C66_free_space_loss_grows_with_distance : forall d1 d2 ghz, 0 < ghz -> d1 <= d2 -> exists l1 l2, fspl d1 ghz = Ok l1 /\ fspl d2 ghz = Ok l2 /\ 0 <= l1 <= l2.
Proof. exact fspl_mono. Qed.
Print Assumptions C66_free_space_loss_grows_with_distance.
Theorem C66_free_space_formula : forall d mhz, 0 < d -> 0 < mhz -> fspl d (mhz / 1000) = Ok (Rmax 0 (free_space d (mhz / 1000))).
Proof. exact fspl_formula. Qed.
Print Assumptions C66_free_space_formula.
Theorem C66_oxygen_loss_grows_with_distance : forall d1 d2 mhz, 0 <= d1 -> d1 <= d2 -> 0 <= compute_oxygen_loss d1 mhz <= compute_oxygen_loss d2 mhz.
Proof. exact oxygen_mono. Qed.
Print Assumptions C66_oxygen_loss_grows_with_distance.
Theorem C66_oxygen_loss_interpolates_the_table : forall d mhz,
  (forall g1 b1 g2 b2 t, In ((g1, b1), (g2, b2)) (combine absorption (tl absorption)) -> 0 <= t <= 1 -> mhz = 1000 * (g1 + t * (g2 - g1)) -> compute_oxygen_loss d mhz = (b1 + t * (b2 - b1)) * d) /\
  (mhz <= 52000 \/ 68000 <= mhz -> compute_oxygen_loss d mhz = 0).
Proof. exact oxygen_points. Qed.
Print Assumptions C66_oxygen_loss_interpolates_the_table.
Theorem C66_oxygen_loss_is_at_most_15_db_per_km : forall d mhz, 0 <= d -> 0 <= compute_oxygen_loss d mhz <= 15 * d.
Proof. exact oxygen_bounds. Qed.
Print Assumptions C66_oxygen_loss_is_at_most_15_db_per_km.
(** the defaults of the configuration: 60 GHz, 30 mm/h, 99.9 percent; 100 m and 200 m *)
Example C66_defaults : exists g1 g2, fspl_based_net_gain 100 60000 30 99.9 28 0 28 0 = Ok g1 /\ fspl_based_net_gain 200 60000 30 99.9 28 0 28 0 = Ok g2 /\ g2 < g1.
Proof.
  unfold fspl_based_net_gain, get_net_gain, mhz_to_ghz. cbv zeta. destruct (rain_mono 30 99.9 60000 (100/1000) (200/1000) ltac:(right; lra) ltac:(lra) ltac:(lra) ltac:(lra) ltac:(lra)) as (l1 & l2 & -> & -> & L). cbn [rbind].
  destruct (fspl_mono (100/1000) (200/1000) (60000/1000) ltac:(lra) ltac:(lra)) as (m1 & m2 & -> & -> & M). cbn [rbind]. eexists. eexists. split; [reflexivity|]. split; [reflexivity|].
  destruct (oxygen_points (100/1000) 60000) as [O1 _]. destruct (oxygen_points (200/1000) 60000) as [O2 _]. rewrite (O1 59 14.6 60 15 1) by (first [apply oxygen_59_60|lra]). rewrite (O2 59 14.6 60 15 1) by (first [apply oxygen_59_60|lra]). lra.
Qed.

(** C67 *)
Theorem C67_rain_loss_is_the_published_formula : forall d rain avail mhz, 1 <= rain -> avail < 100 -> 10000 <= mhz -> 0 < d -> d <= 10 ->
  compute_rain_loss d rain avail mhz = Ok (attenuation d rain (mhz / 1000) (100 - avail)) /\ 0 < attenuation d rain (mhz / 1000) (100 - avail).
Proof. exact rain_formula. Qed.
Print Assumptions C67_rain_loss_is_the_published_formula.
Theorem C67_no_loss_without_rain : forall d avail mhz, 0 < mhz -> avail < 100 -> compute_rain_loss d 0 avail mhz = Ok 0.
Proof. exact no_rain. Qed.
Print Assumptions C67_no_loss_without_rain.
Theorem C67_heavier_rain_never_loses_less : forall d r1 r2 avail mhz, weather r1 -> weather r2 -> r1 <= r2 -> avail < 100 -> 10000 <= mhz -> d <= 10 ->
  exists l1 l2, compute_rain_loss d r1 avail mhz = Ok l1 /\ compute_rain_loss d r2 avail mhz = Ok l2 /\ 0 <= l1 <= l2.
Proof. exact rain_rate_mono. Qed.
Print Assumptions C67_heavier_rain_never_loses_less.
(** up to five nines of availability *)
Theorem C67_higher_availability_never_loses_less_partial : forall d rain a1 a2 mhz, weather rain -> a1 <= a2 -> a2 <= 99.999 -> band mhz -> d <= 10 ->
  exists l1 l2, compute_rain_loss d rain a1 mhz = Ok l1 /\ compute_rain_loss d rain a2 mhz = Ok l2 /\ 0 <= l1 <= l2.
Proof. intros d rain a1 a2 mhz W H1 H2 B Hd. now apply availability_mono; try assumption; lra. Qed.
Print Assumptions C67_higher_availability_never_loses_less_partial.
(** beyond that the fitted curve turns around *)
Theorem C67_higher_availability_never_loses_less_refuted : exists d rain a1 a2 mhz l1 l2, a1 < a2 /\ a2 < 100 /\
  compute_rain_loss d rain a1 mhz = Ok l1 /\ compute_rain_loss d rain a2 mhz = Ok l2 /\ l2 < l1.
Proof. exact availability_turns. Qed.
Print Assumptions C67_higher_availability_never_loses_less_refuted.
(** 100 percent, which the configuration accepts, stops the planner with a ValueError *)
Theorem C67_full_availability_refuted : forall d rain mhz, 0 < d -> d <= 10 -> 1 <= rain -> 10000 <= mhz -> compute_rain_loss d rain 100 mhz = Err PyValueError.
Proof. exact always_available. Qed.
Print Assumptions C67_full_availability_refuted.
Example C67_defaults : weather 30 /\ weather 0 /\ band 60000 /\ exists l1 l2, compute_rain_loss 0.2 30 99.9 60000 = Ok l1 /\ compute_rain_loss 0.2 60 99.9 60000 = Ok l2 /\ 0 < l1 <= l2.
Proof.
  split; [right; lra|]. split; [now left|]. split; [unfold band; lra|]. destruct (rain_formula 0.2 30 99.9 60000 ltac:(lra) ltac:(lra) ltac:(lra) ltac:(lra) ltac:(lra)) as [E P].
  destruct (rain_rate_mono 0.2 30 60 99.9 60000 ltac:(right; lra) ltac:(right; lra) ltac:(lra) ltac:(lra) ltac:(lra) ltac:(lra)) as (l1 & l2 & E1 & E2 & L1 & L2). exists l1, l2. rewrite E in E1. assert (l1 = attenuation 0.2 30 (60000/1000) (100 - 99.9)) as -> by (injection E1; auto). rewrite E. auto.
Qed.
