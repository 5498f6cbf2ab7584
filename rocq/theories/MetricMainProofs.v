(** Proofs for C73: the whole set of metrics. *)
From Coq Require Import QArith Qround Lqa Lia Sorted Permutation.
From Verif Require Import Base Dict QLib MonadLib SetupModel TopologyModel TopologySpec GraphSpec DeploySpec RfModel TpcModel CountModel CountSpec CountProofs CountMainProofs IlpSpec ReportModel ReportSpec ReportProofs MetricSpec MetricProofs.
From Verif Require KmlOrderProofs TopologyProofs.
Local Open Scope Q_scope.
Local Open Scope list_scope.

Section Whole.
Variables (hash : Z * Z * Z -> string) (sku : string -> string) (channel : string -> Z) (t : topo) (dist : link -> Q) (mcs : link -> nat).
Variables (C : Type) (capex : result C) (demands : list (option Q * nat)) (disconnected at_pops disjoint : nat) (oversubscription : Q)
  (routing : option (Q * nat * dict edge Q)) (edge_failures : dict edge (list string)) (pop_failures dn_failures : dict string (list string)).
Hypothesis W : well_formed t.
Let report := get_topology_metrics hash sku channel t dist mcs capex demands disconnected at_pops disjoint oversubscription routing edge_failures pop_failures dn_failures.

Lemma counts_ok : (exists r, count_topology_components hash sku channel t = Ok r) <-> channels_match channel t.
Proof.
  destruct (report_returns hash sku channel t W) as [A B]. split; [|exact A]. intros [r E] k l a b R S.
  destruct (Z.eq_dec (channel (key_id a)) (channel (key_id b))) as [H|H]; [exact H|]. rewrite B in E; [discriminate|]. intros M. apply H. now apply (M k l a b).
Qed.
Lemma sectors_ok : (exists r, sector_links hash t = Ok r) <-> (forall l, plan_link t l -> countable t l).
Proof.
  unfold sector_links. destruct (table_tab t W) as [K T]. split.
  - intros [r E] l Pl. apply (plan_In t W) in Pl. apply (fits_countable t W). exact (loop_fits hash t (dnks t) _ _ _ r K K E l (proj1 Pl) (proj2 Pl)).
  - intros H. destruct (loop_tab hash t (dnks t) (dvals (t_links t)) _ _ _ _ (conj K T) (conj K T)) as (b & a & E & _).
    + intros l Hl A. apply (fits_countable t W). apply H. apply (plan_In t W). auto.
    + eauto.
Qed.
Lemma pops_ok r : count_topology_components hash sku channel t = Ok r -> (active_pop_sites (fst (fst r)) <> 0%nat <-> exists i, a_site t true (fun ty => ty = POP) i).
Proof.
  destruct r as [[c sk] ch]. intros E. apply report_inv in E. destruct E as (h & _ & _ & _ & ->). cbn [fst active_pop_sites].
  destruct (sites_card t W true POP) as (l & N & M & <-). split.
  - intros H. destruct l as [|i l]; [cbn in H; lia|]. exists i. apply M. now left.
  - intros [i H]. apply M in H. destruct l; [destruct H|cbn; lia].
Qed.
Lemma returns : (exists m, report = Ok m) <->
  ((exists c, capex = Ok c) /\ channels_match channel t /\ ~ oversubscription == 0 /\ (forall b n u, routing = Some (b, n, u) -> u <> []) /\
   (forall l, plan_link t l -> countable t l) /\ (exists i, a_site t true (fun ty => ty = POP) i)).
Proof.
  rewrite <- counts_ok, <- sectors_ok. unfold report, get_topology_metrics. split.
  - intros [m E]. apply rbind_ok in E. destruct E as (c & Ec & E). apply rbind_ok in E. destruct E as (cs & Ecs & E). apply rbind_ok in E. destruct E as (ov & Eo & E).
    apply rbind_ok in E. destruct E as (fl & Ef & E). apply rbind_ok in E. destruct E as (sl & Es & E). apply rbind_ok in E. destruct E as (u & Eu & _).
    split; [eauto|]. split; [eauto|]. split; [|split; [|split; [eauto|]]].
    + unfold divide in Eo. destruct (Qeq_bool oversubscription 0) eqn:Q0; [discriminate|]. now apply qeq_false.
    + intros b n u0 ->. cbn beta iota in Ef. intros ->. cbn in Ef. discriminate.
    + apply (pops_ok cs Ecs). destruct (Nat.eqb_spec (active_pop_sites (fst (fst cs))) 0); [discriminate|assumption].
  - intros ((c & ->) & (cs & Ecs) & Ov & R & (sl & Es) & P). cbn [rbind]. rewrite Ecs. cbn [rbind].
    unfold divide. destruct (Qeq_bool oversubscription 0) eqn:Q0; [apply qeq_true in Q0; contradiction|]. cbn [rbind].
    apply (pops_ok cs Ecs) in P. destruct (Nat.eqb_spec (active_pop_sites (fst (fst cs))) 0) as [C0|_]; [contradiction|].
    destruct routing as [[[b n] u]|]; [|cbn [rbind]; rewrite Es; cbn [rbind]; eauto].
    specialize (R b n u eq_refl). unfold stats_nonempty. destruct (dvals u) as [|x r] eqn:Eu; [destruct u; [contradiction|discriminate]|]. cbn [rbind]. rewrite Es. cbn [rbind]. eauto.
Qed.

Variable m : metrics.
Hypothesis M : report = Ok m.
Lemma fields : exists c sk ch sl ov fl, count_topology_components hash sku channel t = Ok (c, sk, ch) /\ sector_links hash t = Ok sl /\ divide (dm_total (me_demand m)) oversubscription = Ok ov /\
  match routing with None => Ok None | Some (b, n, u) => do s <- stats_nonempty (dvals u) ; Ok (Some (mkFlowMetrics (b * qn n) b s)) end = Ok fl /\
  active_pop_sites c <> 0%nat /\
  m = mkMetrics c
        (mkDemandMetrics (List.length demands) disconnected at_pops disjoint (percentage_disjoint (List.length demands) at_pops disjoint)
           (qsum (flat_map (fun d => match fst d with Some q => [q * qn (snd d)] | None => [] end) demands)) ov)
        fl (per_sector (Z.of_nat (List.length (dnks t))) (sizes (fst sl))) (stats_of (link_dists t dist WIRELESS_BACKHAUL)) (per_sector (Z.of_nat (List.length (dnks t))) (sizes (snd sl))) (stats_of (link_dists t dist WIRELESS_ACCESS))
        (mcs_counts t mcs WIRELESS_BACKHAUL) (mcs_counts t mcs WIRELESS_ACCESS) (fail_effect_edges edge_failures)
        (fail_effect_sites pop_failures (sites_of_type t true POP))
        (if (sites_of_type t true DN =? 0)%nat
         then mkStats 0 (m_max (fail_effect_sites dn_failures 0)) (m_min (fail_effect_sites dn_failures 0))
         else fail_effect_sites dn_failures (sites_of_type t true DN)) /\ active_pop_sites c = sites_of_type t true POP.
Proof.
  assert (E := M). unfold report, get_topology_metrics in E. apply rbind_ok in E. destruct E as (c & Ec & E). apply rbind_ok in E. destruct E as ([[cs sk] ch] & Ecs & E). apply rbind_ok in E. destruct E as (ov & Eo & E).
  apply rbind_ok in E. destruct E as (fl & Ef & E). apply rbind_ok in E. destruct E as (sl & Es & E). apply rbind_ok in E. destruct E as (u & Eu & E). apply ok_eq in E. cbn [fst] in E, Eu.
  assert (P : active_pop_sites cs <> 0%nat) by (destruct (Nat.eqb_spec (active_pop_sites cs) 0); [discriminate|assumption]).
  assert (R := report_inv hash sku channel t cs sk ch Ecs). destruct R as (h & _ & _ & _ & Rc).
  assert (Rn : (Z.of_nat (active_dn_sectors_on_pops cs) + active_dn_sectors_on_dns cs)%Z = Z.of_nat (List.length (dnks t))).
  { rewrite Rc. cbn [active_dn_sectors_on_pops active_dn_sectors_on_dns]. rewrite <- (count_dnks t). lia. }
  assert (Rp : active_pop_sites cs = sites_of_type t true POP) by (rewrite Rc; reflexivity). assert (Rd : active_dn_sites cs = sites_of_type t true DN) by (rewrite Rc; reflexivity).
  rewrite Rn, Rd, Rp in E. exists cs, sk, ch, sl, ov, fl. split; [exact Ecs|]. split; [exact Es|].
  split; [rewrite <- E; exact Eo|]. split; [exact Ef|]. split; [exact P|]. split; [now symmetry|exact Rp].
Qed.
Lemma report_counts : exists sk ch, count_topology_components hash sku channel t = Ok (me_counts m, sk, ch).
Proof. destruct fields as (c & sk & ch & sl & ov & fl & E & _ & _ & _ & _ & -> & _). eauto. Qed.
Lemma tables sl : sector_links hash t = Ok sl ->
  tab (fst sl) (dnks t) (fun k h => exists l, In l (dvals (t_links t)) /\ att WIRELESS_BACKHAUL k l /\ link_hash hash t l = h) /\
  tab (snd sl) (dnks t) (fun k h => exists l, In l (dvals (t_links t)) /\ att WIRELESS_ACCESS k l /\ link_hash hash t l = h).
Proof.
  intros E. destruct (table_tab t W) as [K T]. assert (Cn := proj1 sectors_ok (ex_intro _ sl E)).
  destruct (loop_tab hash t (dnks t) (dvals (t_links t)) _ _ _ _ (conj K T) (conj K T)) as (b & a & E' & Tb & Ta).
  { intros l Hl A. apply (fits_countable t W). apply Cn. apply (plan_In t W). auto. }
  unfold sector_links in E. rewrite E' in E. apply ok_eq in E. subst sl. cbn [fst snd]. split; (eapply tab_ext; [|eassumption]); intros k h _; tauto.
Qed.
Lemma sector_figures : (forall p, no_dash (hash p)) -> exists f g ks, lists ks (dn_sector t) /\
  (forall k, dn_sector t k -> card_up_to (attached t WIRELESS_BACKHAUL k) (same_link hash t) (f k)) /\ (forall k, dn_sector t k -> card_up_to (attached t WIRELESS_ACCESS k) (same_link hash t) (g k)) /\
  summary (map (fun k => num (f k)) ks) (m_avg (me_backhaul_per_sector m)) (m_max (me_backhaul_per_sector m)) (m_min (me_backhaul_per_sector m)) /\
  summary (map (fun k => num (g k)) ks) (m_avg (me_access_per_sector m)) (m_max (me_access_per_sector m)) (m_min (me_access_per_sector m)).
Proof.
  intros Hd. destruct fields as (c & sk & ch & sl & ov & fl & _ & Es & _ & _ & _ & -> & _). destruct (tables sl Es) as [Tb Ta].
  destruct (tab_card hash t W Hd _ _ Tb) as (f & Hf & Sf). destruct (tab_card hash t W Hd _ _ Ta) as (g & Hg & Sg). exists f, g, (dnks t).
  split; [apply (dnks_lists t W)|]. split; [exact Hf|]. split; [exact Hg|]. cbn [me_backhaul_per_sector me_access_per_sector]. rewrite Sf, Sg. split.
  - assert (L : List.length (dnks t) = List.length (map (fun k => num (f k)) (dnks t))) by now rewrite map_length. rewrite L. apply per_sector_summary.
  - assert (L : List.length (dnks t) = List.length (map (fun k => num (g k)) (dnks t))) by now rewrite map_length. rewrite L. apply per_sector_summary.
Qed.
Lemma link_figures : (exists ls, lists ls (fun l => plan_link t l /\ l_type l = WIRELESS_BACKHAUL) /\ summary (map dist ls) (m_avg (me_backhaul_dist m)) (m_max (me_backhaul_dist m)) (m_min (me_backhaul_dist m))) /\
  (exists ls, lists ls (fun l => plan_link t l /\ l_type l = WIRELESS_ACCESS) /\ summary (map dist ls) (m_avg (me_access_dist m)) (m_max (me_access_dist m)) (m_min (me_access_dist m))) /\
  (one_class t mcs -> forall c n, (dget (me_backhaul_mcs m) c = Some n <-> (n > 0)%nat /\ card (of_class t mcs WIRELESS_BACKHAUL c) n) /\ (dget (me_access_mcs m) c = Some n <-> (n > 0)%nat /\ card (of_class t mcs WIRELESS_ACCESS c) n)).
Proof.
  destruct fields as (c & sk & ch & sl & ov & fl & _ & _ & _ & _ & _ & -> & _). cbn [me_backhaul_dist me_access_dist me_backhaul_mcs me_access_mcs].
  split; [apply (dists_summary t W)|]. split; [apply (dists_summary t W)|]. intros O c0 n. split; now apply (classes t W).
Qed.
Lemma failure_figures : summary (map (fun q => num (List.length (snd q))) edge_failures) (m_avg (me_edge_effect m)) (m_max (me_edge_effect m)) (m_min (me_edge_effect m)) /\
  (dwf pop_failures -> (forall i, In i (dkeys pop_failures) -> a_site t true (fun ty => ty = POP) i) -> exists ks, lists ks (a_site t true (fun ty => ty = POP)) /\
     summary (map (fun i => num (lost pop_failures i)) ks) (m_avg (me_pop_effect m)) (m_max (me_pop_effect m)) (m_min (me_pop_effect m))) /\
  (dwf dn_failures -> (forall i, In i (dkeys dn_failures) -> a_site t true (fun ty => ty = DN) i) -> exists ks, lists ks (a_site t true (fun ty => ty = DN)) /\
     summary (map (fun i => num (lost dn_failures i)) ks) (m_avg (me_dn_effect m)) (m_max (me_dn_effect m)) (m_min (me_dn_effect m))).
Proof.
  destruct fields as (c & sk & ch & sl & ov & fl & _ & _ & _ & _ & P & -> & Rp). cbn [me_edge_effect me_pop_effect me_dn_effect]. split; [|split].
  - unfold fail_effect_edges. replace (map (fun q => num (List.length (snd q))) edge_failures) with (map (fun s : list string => qn (List.length s)) (dvals edge_failures)) by (unfold dvals; now rewrite map_map). apply stats_summary.
  - intros Wd H. apply effect; auto; [apply (sites_card t W)|lia].
  - intros Wd H. destruct (Nat.eqb_spec (sites_of_type t true DN) 0) as [Z0|Z0]; [|apply effect; auto; [apply (sites_card t W)|lia]].
    destruct (sites_card t W true DN) as (l & N & Ml & El). rewrite Z0 in El. destruct l; [|discriminate]. exists []. split; [split; [exact N|exact Ml]|].
    assert (dn_failures = []) as -> by (destruct dn_failures as [|[k v] d]; [reflexivity|]; exfalso; apply (proj2 (Ml k)); apply H; now left). cbn. repeat split; reflexivity.
Qed.
Lemma demand_figures : dm_number (me_demand m) = List.length demands /\ dm_disconnected (me_demand m) = disconnected /\ dm_at_pops (me_demand m) = at_pops /\ dm_disjoint (me_demand m) = disjoint /\
  dm_total (me_demand m) == sum_of (map (fun d => match fst d with Some q => q * num (snd d) | None => 0 end) demands) /\
  dm_oversubscribed (me_demand m) * oversubscription == dm_total (me_demand m) /\
  ((at_pops < List.length demands)%nat -> dm_percentage (me_demand m) * (num (List.length demands) - num at_pops) == 100 * num disjoint) /\
  ((List.length demands <= at_pops)%nat -> dm_percentage (me_demand m) == 0).
Proof.
  destruct fields as (c & sk & ch & sl & ov & fl & _ & _ & Eo & _ & _ & -> & _). cbn [me_demand dm_number dm_disconnected dm_at_pops dm_disjoint dm_total dm_oversubscribed dm_percentage] in *.
  do 4 (split; [reflexivity|]). split; [|split; [|split]].
  - rewrite qsum_sum. unfold sum_of. clear. induction demands as [|[[q|] n] d IH]; cbn [flat_map map fold_right app fst snd]; [reflexivity| |]; [unfold num, qn in *; rewrite IH; reflexivity|rewrite IH; ring].
  - unfold divide in Eo. destruct (Qeq_bool oversubscription 0) eqn:Q0; [discriminate|]. apply ok_eq in Eo. rewrite <- Eo. apply qeq_false in Q0. field. exact Q0.
  - intros H. unfold percentage_disjoint. destruct (Nat.eqb_spec (List.length demands) 0) as [E|_]; [lia|]. destruct (Nat.leb_spec (List.length demands) at_pops) as [E|_]; [lia|]. cbn [orb]. unfold num, qn. field.
    assert (L : num at_pops < num (List.length demands)) by (unfold num; rewrite <- Zlt_Qlt; lia). unfold num in L. lra.
  - intros H. unfold percentage_disjoint. destruct (Nat.leb_spec (List.length demands) at_pops) as [_|E]; [|lia]. rewrite orb_true_r. reflexivity.
Qed.
Lemma flow_figures : match routing with
  | None => me_flow m = None
  | Some (b, n, u) => exists f, me_flow m = Some f /\ fm_minimum f = b /\ fm_total f == b * num n /\ summary (map snd u) (m_avg (fm_utilization f)) (m_max (fm_utilization f)) (m_min (fm_utilization f))
  end.
Proof.
  destruct fields as (c & sk & ch & sl & ov & fl & _ & _ & _ & Ef & _ & -> & _). cbn [me_flow]. destruct routing as [[[b n] u]|]; [|now apply ok_eq in Ef].
  apply rbind_ok in Ef. destruct Ef as (s & Es & Ef). apply ok_eq in Ef. subst fl. eexists. split; [reflexivity|]. cbn [fm_minimum fm_total fm_utilization]. split; [reflexivity|]. split; [reflexivity|].
  unfold stats_nonempty in Es. destruct (dvals u) as [|x r] eqn:E; [discriminate|]. apply ok_eq in Es. subst s. unfold dvals in E. rewrite E. apply stats_summary.
Qed.
End Whole.

(** *** percentiles *)
Lemma sorted_le l : StronglySorted Qle (TopologyModel.sort_by (fun a b => negb (Qle_bool b a)) l).
Proof.
  eapply KmlOrderProofs.ss_imp; [|apply KmlOrderProofs.sort_sorted].
  - intros x y _ _ H. unfold KmlOrderProofs.le in H. apply negb_false_iff in H. now apply Qle_bool_iff.
  - intros a b H. apply negb_true_iff in H. apply negb_false_iff. apply Qle_bool_iff. destruct (Qlt_le_dec a b) as [L|L]; [lra|]. apply Qle_bool_iff in L. congruence.
  - intros a b c. unfold KmlOrderProofs.le. rewrite !negb_false_iff, !Qle_bool_iff. lra.
Qed.
Lemma floor_between x k : inject_Z k <= x < inject_Z (k + 1) -> Qfloor x = k.
Proof. intros [A B]. assert (F1 := Qfloor_le x). assert (F2 := Qlt_floor x). assert (inject_Z k < inject_Z (Qfloor x + 1)) by lra. assert (inject_Z (Qfloor x) < inject_Z (k + 1)) by lra. rewrite <- Zlt_Qlt in *. lia. Qed.
Lemma num_S k : num (S k) == num k + 1.
Proof. unfold num. rewrite Nat2Z.inj_succ. unfold Z.succ. rewrite inject_Z_plus. reflexivity. Qed.
Lemma percentile_spec l : percentiles l (percentile l).
Proof.
  set (v := TopologyModel.sort_by (fun a b => negb (Qle_bool b a)) l). exists v. split; [apply TopologyProofs.sort_by_perm|]. split; [apply sorted_le|]. split.
  - intros k x y p Hx Hy [L U]. unfold percentile. fold v. change (qn (List.length v - 1)) with (num (List.length v - 1)). set (n := num (List.length v - 1)) in *. set (X := p / 100 * n).
    assert (EX : 100 * X == p * n) by (unfold X; field). assert (L' : num k <= X) by lra. assert (U' : X <= num (S k)) by lra.
    assert (Hk : (S k < List.length v)%nat) by (apply nth_error_Some; congruence). destruct (Qlt_le_dec X (num (S k))) as [Lt|Ge].
    + assert (F : Qfloor X = Z.of_nat k). { apply floor_between. split; [exact L'|]. unfold num in Lt. replace (Z.of_nat k + 1)%Z with (Z.of_nat (S k)) by lia. exact Lt. }
      rewrite F, Nat2Z.id. rewrite (nth_error_nth v k 0 Hx). replace (Nat.min (k + 1) (List.length v - 1)) with (S k) by lia. rewrite (nth_error_nth v (S k) 0 Hy). reflexivity.
    + assert (E : X == num (S k)) by lra. assert (F : Qfloor X = Z.of_nat (S k)). { apply floor_between. rewrite E. unfold num. split; [apply Qle_refl|]. rewrite <- Zlt_Qlt. lia. }
      rewrite F, Nat2Z.id. rewrite (nth_error_nth v (S k) 0 Hy). fold (num (S k)). rewrite E. assert (S1 := num_S k). set (h := nth _ v 0). setoid_replace (num (S k) - num (S k)) with 0 by ring. setoid_replace (num (S k) - num k) with 1 by (rewrite S1; ring). ring.
  - intros x p E. unfold percentile. fold v. rewrite E. cbn [List.length Nat.sub]. set (X := p / 100 * qn 0). assert (EX : X == 0) by (unfold X, qn; cbn; ring).
    assert (F : Qfloor X = 0%Z) by (apply floor_between; split; rewrite EX; [apply Qle_refl|reflexivity]). rewrite F. cbn. ring.
Qed.
Lemma sorted_ends v : v <> [] -> StronglySorted Qle v -> least_of v (nth 0 v 0) /\ greatest_of v (nth (List.length v - 1) v 0).
Proof.
  intros NE S1. split.
  - destruct v as [|x v]; [contradiction|]. cbn. split; [exists x; split; [now left|reflexivity]|]. intros z [<-|H]; [lra|]. inversion S1 as [|? ? _ F]; subst. rewrite Forall_forall in F. now apply F.
  - induction S1 as [|x v S1 IH F]; [contradiction|]. destruct v as [|y v].
    + cbn. split; [exists x; split; [now left|reflexivity]|]. intros z [<-|[]]. lra.
    + destruct (IH ltac:(discriminate)) as [(w & Hw & Ew) U]. replace (nth (List.length (x :: y :: v) - 1) (x :: y :: v) 0) with (nth (List.length (y :: v) - 1) (y :: v) 0) by (cbn; now rewrite Nat.sub_0_r).
      split; [exists w; split; [now right|exact Ew]|]. intros z [<-|H]; [|now apply U]. rewrite Forall_forall in F. assert (H := F w Hw). rewrite <- Ew. exact H.
Qed.
Lemma percentile_ends l : l <> [] -> least_of l (percentile l 0) /\ greatest_of l (percentile l 100).
Proof.
  intros NE. set (v := TopologyModel.sort_by (fun a b => negb (Qle_bool b a)) l). assert (Pm : Permutation v l) by apply TopologyProofs.sort_by_perm.
  assert (NV : v <> []) by (intros E; rewrite E in Pm; apply Permutation_nil in Pm; contradiction). destruct (sorted_ends v NV (sorted_le l)) as [[(a & Ha & Ea) La] [(b & Hb & Eb) Lb]].
  assert (P0 : percentile l 0 == nth 0 v 0). { unfold percentile. fold v. set (X := 0 / 100 * _). assert (EX : X == 0) by (unfold X; field). assert (F : Qfloor X = 0%Z) by (apply floor_between; split; rewrite EX; [apply Qle_refl|reflexivity]). rewrite F. change (Z.to_nat 0) with 0%nat. rewrite EX. set (h := nth (Nat.min _ _) v 0). cbn [inject_Z]. unfold inject_Z. ring. }
  assert (P1 : percentile l 100 == nth (List.length v - 1) v 0). { unfold percentile. fold v. set (X := 100 / 100 * _). assert (EX : X == num (List.length v - 1)) by (unfold X, num, qn; field).
    assert (F : Qfloor X = Z.of_nat (List.length v - 1)) by (apply floor_between; rewrite EX; unfold num; split; [apply Qle_refl|rewrite <- Zlt_Qlt; lia]). rewrite F, Nat2Z.id. rewrite EX. unfold num. set (h := nth (Nat.min _ _) v 0). ring. }
  split.
  - split; [exists a; split; [now apply (Permutation_in _ Pm)|now rewrite P0]|]. intros z Hz. rewrite P0. apply La. apply (Permutation_in _ (Permutation_sym Pm) Hz).
  - split; [exists b; split; [now apply (Permutation_in _ Pm)|now rewrite P1]|]. intros z Hz. rewrite P1. apply Lb. apply (Permutation_in _ (Permutation_sym Pm) Hz).
Qed.
Lemma availability av : (av = [] -> availability_metrics av = (0, map (fun p => (p, 0)) [0; 25; 50; 75; 100])) /\
  (av <> [] -> fst (availability_metrics av) * num (List.length av) == 100 * sum_of av /\
     exists f, percentiles av f /\ snd (availability_metrics av) = map (fun p => (p, 100 * f p)) [0; 25; 50; 75; 100] /\ least_of av (f 0) /\ greatest_of av (f 100)).
Proof.
  split; [intros ->; reflexivity|]. intros NE. unfold availability_metrics. destruct av as [|x r] eqn:E; [contradiction|]. rewrite <- E in *. clear E. cbn [fst snd]. split.
  - rewrite qsum_sum. unfold num, qn. field. assert (0 < qn (List.length av)) by (apply qn_pos; destruct av; [contradiction|cbn; lia]). unfold qn in H. intros C. rewrite C in H. lra.
  - exists (percentile av). split; [apply percentile_spec|]. split; [reflexivity|]. now apply percentile_ends.
Qed.
