(** Proofs for C59. *)
From Coq Require Import QArith Qround Qabs Qminmax Lqa.
From Verif Require Import Base QLib MonadLib TopologyModel SetupModel GeoModel SecLinkSpec SecLinkProofs SecPlaceModel SecPlaceSpec SecDpProofs SecPlaceProofs SecPlaceMainProofs SecPlaceFinalProofs SecEquidModel.
Local Open Scope Q_scope.
Local Open Scope list_scope.

Lemma first_min_spec f l : forall best, (first_min f best l = best \/ In (first_min f best l) l) /\ f (first_min f best l) <= f best /\ forall x, In x l -> f (first_min f best l) <= f x.
Proof.
  induction l as [|a l IH]; intros best; cbn [first_min]; [split; [now left|split; [lra|intros x []]]|]. destruct (lt_q (f a) (f best)) eqn:E.
  - apply lt_q_true in E. destruct (IH a) as (H1 & H2 & H3). split; [right; destruct H1 as [->|H1]; [now left|now right]|]. split; [lra|]. intros x [<-|Hx]; [exact H2|now apply H3].
  - apply lt_q_false in E. destruct (IH best) as (H1 & H2 & H3). split; [destruct H1 as [->|H1]; [now left|right; now right]|]. split; [exact H2|]. intros x [<-|Hx]; [lra|now apply H3].
Qed.
Section One.
Variables (angles : list Q) (nspn : nat) (hsr : Q).
Notation W := (hsr * qnat nspn).
Hypothesis Hh : 0 < hsr.
Hypothesis Hn : (1 <= nspn)%nat.
Hypothesis Hw : W <= 360.
Hypothesis Some_link : angles <> [].
Lemma Wp : 0 < W.
Proof using Hh Hn. assert (1 <= qnat nspn) by (change 1 with (qnat 1); now apply qnat_le). nra. Qed.
Lemma one_node : Z.to_nat (Z.min (Qfloor (FULL / W)) (Z.of_nat 1)) = 1%nat.
Proof using Hh Hn Hw.
  assert (H : (1 <= Qfloor (FULL / W))%Z). { rewrite <- (Qfloor_Z 1). apply Qfloor_resp_le. pose proof Wp. apply Qle_shift_div_l; [assumption|]. change (inject_Z 1) with 1. unfold FULL. lra. }
  rewrite Z.min_r by exact H. reflexivity.
Qed.
Notation rots := (map (fun k => inject_Z (Z.of_nat k) * (FULL / inject_Z (Z.of_nat 1)) / inject_Z (Z.of_nat 120)) (seq 0 120)).
Lemma rot_grid k : inject_Z (Z.of_nat k) * (FULL / inject_Z (Z.of_nat 1)) / inject_Z (Z.of_nat 120) == 3 * qnat k.
Proof using Type. fold (qnat k). change (FULL / inject_Z (Z.of_nat 1)) with (360 # 1). change (inject_Z (Z.of_nat 120)) with 120. field. Qed.
Lemma run_eq : exists best, In best rots /\ (forall x, In x rots -> equi_met 1 (FULL / inject_Z (Z.of_nat 1)) W angles best <= equi_met 1 (FULL / inject_Z (Z.of_nat 1)) W angles x) /\
  find_best_equidistant_sectors angles 1 nspn hsr = mapM (fun i => get_sector_azimuths_from_node_center (best + inject_Z (Z.of_nat i) * (FULL / inject_Z (Z.of_nat 1))) nspn hsr) (seq 0 1).
Proof using Hh Hn Hw Some_link.
  unfold find_best_equidistant_sectors. fold (qnat nspn). assert (W0 : Qeq_bool W 0 = false) by (apply Bool.not_true_iff_false; rewrite Qeq_bool_iff; pose proof Wp; lra). rewrite W0, one_node. cbn [Nat.eqb].
  assert (A0 : Nat.eqb (List.length angles) 0 = false) by (destruct angles; [congruence|reflexivity]). rewrite A0.
  change (Z.to_nat (round_even (FULL / inject_Z (Z.of_nat 1) / DEFAULT_POINTING_PRECISION))) with 120%nat.
  pose (l := rots). assert (El : l = rots) by reflexivity. rewrite <- El. destruct l as [|r t]; [apply (f_equal (@List.length _)) in El; rewrite map_length, seq_length in El; discriminate|].
  destruct (first_min_spec (equi_met 1 (FULL / inject_Z (Z.of_nat 1)) W angles) t r) as (H1 & H2 & H3). eexists. split; [|split; [|reflexivity]].
  - destruct H1 as [->|H1]; [now left|now right].
  - intros x [<-|Hx]; [exact H2|now apply H3].
Qed.
Lemma run_ok : exists l, find_best_equidistant_sectors angles 1 nspn hsr = Ok [l].
Proof using Hh Hn Hw Some_link.
  destruct run_eq as (best & _ & _ & ->). cbn [seq mapM]. destruct (azimuths_ok (best + inject_Z (Z.of_nat 0) * (FULL / inject_Z (Z.of_nat 1))) nspn hsr Hh Hn) as (l & -> & _). exists l. reflexivity.
Qed.
(** no link close to north *)
Hypothesis Inside : forall a, In a angles -> W / 2 <= a /\ a < 360 - W / 2.
Lemma delta_cost c k a : (k < 120)%nat -> c == 3 * qnat k -> In a angles ->
  equi_delta 1 (FULL / inject_Z (Z.of_nat 1)) W c a * equi_delta 1 (FULL / inject_Z (Z.of_nat 1)) W c a == if Qle_bool (between c a) (W / 2) then between c a * between c a else 360 * 360.
Proof using Hh Hn Hw Inside.
  intros Hk Ec Ha. unfold equi_delta. rewrite Z.mod_1_r. change (inject_Z 0) with 0. destruct (Inside a Ha) as [I1 I2]. pose proof Wp as W0.
  assert (C0 : 0 <= c /\ c <= 357). { rewrite Ec. pose proof (qnat_pos k). assert (qnat (S k) <= qnat 120) by (apply qnat_le; lia). rewrite qnat_S in *. change (qnat 120) with 120 in *. lra. }
  assert (W1 : W / 2 <= 180). { assert (E : W / 2 + W / 2 == W) by field. lra. } assert (W2 : 0 < W / 2). { assert (E : W / 2 + W / 2 == W) by field. lra. }
  assert (Ed : a - 0 * (FULL / inject_Z (Z.of_nat 1)) - c == a - c) by lra.
  unfold lt_q. rewrite Bool.if_negb. assert (Eb : Qabs (a - 0 * (FULL / inject_Z (Z.of_nat 1)) - c) == Qabs (c - a)). { rewrite Ed. rewrite <- Qabs_opp. apply Qabs_wd. lra. } rewrite Eb.
  set (w := W / 2) in *. clearbody w. destruct (between_cases c a) as [[E H]|[E H]].
  - rewrite E. destruct (Qle_bool (Qabs (c - a)) w); [|reflexivity]. rewrite Ed, E. destruct (abs_case (c - a)) as [[? X]|[? X]]; rewrite X; ring.
  - destruct (Qle_bool (Qabs (c - a)) w) eqn:Q1; [|].
    { apply qle_true in Q1. assert (Q2 : Qle_bool (between c a) w = true) by (apply qle_true; rewrite E; lra). rewrite Q2, Ed, E. assert (X : Qabs (c - a) == 180) by lra. rewrite X. destruct (abs_case (c - a)) as [[? Y]|[? Y]]; rewrite Y in X; [assert (Z : a - c == - (180)) by lra|assert (Z : a - c == 180) by lra]; rewrite Z; reflexivity. }
     destruct (Qle_bool (between c a) w) eqn:Q2; [|reflexivity]. apply qle_true in Q2. rewrite E in Q2. destruct (abs_case (c - a)) as [[? X]|[? X]]; rewrite X in *; lra.
Qed.
Lemma met_cost c k : (k < 120)%nat -> c == 3 * qnat k -> equi_met 1 (FULL / inject_Z (Z.of_nat 1)) W angles c == client_cost W angles c.
Proof using Hh Hn Hw Inside. intros Hk Ec. unfold equi_met, client_cost. rewrite sum_q_map. apply tot_ext. intros a Ha. exact (delta_cost c k a Hk Ec Ha). Qed.
Lemma client_compat c d : c == d -> client_cost W angles c == client_cost W angles d.
Proof using Type. intros E. unfold client_cost. apply tot_ext. intros a _. pose proof (between_l c d a E) as B. rewrite B. destruct (Qle_bool (between d a) (W / 2)); [rewrite B|]; reflexivity. Qed.
Lemma client_best : exists c l, position c /\ fan c hsr nspn l /\ find_best_equidistant_sectors angles 1 nspn hsr = Ok [l] /\
  forall d, position d -> client_cost W angles c <= client_cost W angles d.
Proof using Hh Hn Hw Inside Some_link.
  destruct run_eq as (best & Hin & Best & ->). cbn [seq mapM]. destruct (azimuths_ok (best + inject_Z (Z.of_nat 0) * (FULL / inject_Z (Z.of_nat 1))) nspn hsr Hh Hn) as (l & -> & Fl).
  pose proof Hin as Hin'. apply in_map_iff in Hin'. destruct Hin' as (k & Ek & Hk). apply in_seq in Hk. assert (Eb : best == 3 * qnat k) by (rewrite <- Ek; apply rot_grid).
  exists best, l. split; [exists k; split; [lia|exact Eb]|]. split; [|split; [reflexivity|]].
  - destruct Fl as [L F]. split; [exact L|]. intros i s Hs. destruct (F i s Hs) as (D & z & E). split; [exact D|]. exists z. rewrite E. change (inject_Z (Z.of_nat 0)) with 0. lra.
  - intros d (j & Hj & Ed). set (x := inject_Z (Z.of_nat j) * (FULL / inject_Z (Z.of_nat 1)) / inject_Z (Z.of_nat 120)).
    assert (Ex : x == 3 * qnat j) by apply rot_grid. assert (Hx : In x rots) by (apply in_map_iff; exists j; split; [reflexivity|apply in_seq; lia]). specialize (Best x Hx).
    rewrite (met_cost best k) in Best by (exact Eb || lia). rewrite (met_cost x j) in Best by (exact Ex || lia). rewrite (client_compat d x) by (rewrite Ed, Ex; reflexivity). exact Best.
Qed.
End One.
