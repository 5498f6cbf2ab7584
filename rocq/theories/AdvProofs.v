From Coq Require Import ZArith QArith Qround Lia Lqa.
From Verif Require OpsSpec OpsColocProofs.
From Verif Require Import Base Dict QLib MonadLib SetupModel LosRangeModel OpsModel TopologyModel TopologySpec TopologyLemmas TopologyProofs GraphSpec GraphProofs NxModel NxSpec NxProofs NxFailProofs NxBuildProofs NxDisruptProofs NxFinalProofs AdvModel AdvSpec.
Local Open Scope list_scope.

Lemma dget_mapv {V W} (f : V -> W) (d : dict string V) k : dget (map (fun q => (fst q, f (snd q))) d) k = option_map f (dget d k).
Proof. induction d as [|[k' v] d IH]; cbn [map dget fst snd]; [reflexivity|]. destruct (beq k k'); [reflexivity|exact IH]. Qed.
Lemma remove_node_ok g i : graph_ok g -> graph_ok (remove_node g i) /\ (forall x y, arc (remove_node g i) x y <-> arc g x y /\ x <> i /\ y <> i) /\ (forall x, dget (g_nodes (remove_node g i)) x = if beq x i then None else dget (g_nodes g) x).
Proof.
  intros (W1 & W2 & W3 & W4 & W5).
  assert (R : forall x r, dget (g_adj (remove_node g i)) x = Some r <-> x <> i /\ exists r0, dget (g_adj g) x = Some r0 /\ r = ddel r0 i).
  { intros x r. unfold remove_node. cbn [g_adj]. rewrite (dget_mapv (fun r : dict string eattr => ddel r i)), dget_del. destruct (beq_spec x i) as [->|Hx]; cbn [option_map]; [split; [discriminate|tauto]|].
    destruct (dget (g_adj g) x) as [r0|]; cbn [option_map]; split.
    - intros E. injection E as <-. eauto.
    - intros (_ & r1 & E & ->). now injection E as ->.
    - discriminate.
    - intros (_ & r1 & E & _). discriminate. }
  assert (N : forall x, dget (g_nodes (remove_node g i)) x = if beq x i then None else dget (g_nodes g) x) by (intros x; unfold remove_node; cbn [g_nodes]; apply dget_del).
  assert (A : forall x y, arc (remove_node g i) x y <-> arc g x y /\ x <> i /\ y <> i).
  { intros x y. unfold arc. split.
    - intros (r & a & E1 & E2). apply R in E1. destruct E1 as (Hx & r0 & E0 & ->). rewrite dget_del in E2. destruct (beq_spec y i) as [|Hy]; [discriminate|]. eauto 6.
    - intros ((r & a & E1 & E2) & Hx & Hy). exists (ddel r i), a. split; [apply R; eauto|]. rewrite dget_del. destruct (beq_spec y i); [contradiction|exact E2]. }
  split; [|auto]. unfold graph_ok. split; [unfold remove_node; cbn [g_nodes]; now apply dwf_del|]. split.
  { unfold remove_node. cbn [g_adj]. assert (K : forall (d : adjacency), dkeys (map (fun q => (fst q, ddel (snd q) i)) d) = dkeys d) by (intros d; unfold dkeys; rewrite map_map; now apply map_ext). unfold dwf. rewrite K. now apply dwf_del. }
  split; [intros x r E; apply R in E; destruct E as (_ & r0 & E & ->); apply dwf_del; eauto|]. split.
  - intros x. unfold node. rewrite N. split.
    + destruct (beq_spec x i) as [|Hx]; [intros [ty E]; discriminate|]. intros H. apply W4 in H. destruct H as [r E]. exists (ddel r i). apply R. eauto.
    + intros [r E]. apply R in E. destruct E as (Hx & r0 & E & _). destruct (beq_spec x i) as [|_]; [contradiction|]. apply W4. eauto.
  - intros x y H. apply A in H. destruct H as (H & Hx & Hy). unfold node. rewrite N. destruct (beq_spec y i) as [|_]; [contradiction|]. exact (W5 _ _ H).
Qed.
Lemma drop_sites_ok l : forall g, graph_ok g -> graph_ok (drop_sites l g) /\ (forall x y, arc (drop_sites l g) x y <-> arc g x y /\ ~ In x l /\ ~ In y l) /\ (forall x, dget (g_nodes (drop_sites l g)) x = if mem x l then None else dget (g_nodes g) x).
Proof.
  unfold drop_sites. induction l as [|i l IH]; intros g G; cbn [fold_left].
  - split; [exact G|]. split; [intros x y; cbn; tauto|reflexivity].
  - assert (X : graph_ok (if dmem (g_nodes g) i then remove_node g i else g) /\ (forall x y, arc (if dmem (g_nodes g) i then remove_node g i else g) x y <-> arc g x y /\ x <> i /\ y <> i)
      /\ (forall x, dget (g_nodes (if dmem (g_nodes g) i then remove_node g i else g)) x = if beq x i then None else dget (g_nodes g) x)).
    { destruct (dmem (g_nodes g) i) eqn:E; [now apply remove_node_ok|]. split; [exact G|]. split.
      - intros x y. split; [|tauto]. intros H. split; [exact H|]. pose proof (arc_nodes g x y G H) as [Hx Hy]. apply node_iff in Hx, Hy. split; intros ->; congruence.
      - intros x. destruct (beq_spec x i) as [->|]; [now apply dmem_None|reflexivity]. }
    destruct X as (G1 & A1 & N1). destruct (IH _ G1) as (G2 & A2 & N2). split; [exact G2|]. split.
    + intros x y. rewrite A2, A1. cbn [In]. intuition.
    + intros x. rewrite N2, N1. cbn [mem]. destruct (beq_spec x i) as [->|]; [now destruct (mem i l)|reflexivity].
Qed.
Section Dead.
Variables (cap : string -> Q).
Lemma drop_dead_ok (l : dict string link) : forall g, graph_ok g -> exists g', foldM (fun g q => let l := snd q in if Qle_bool (cap (fst q)) 0 && has_edge g (l_tx l) (l_rx l) then remove_edge g (l_tx l) (l_rx l) else Ok g) g l = Ok g'
  /\ graph_ok g' /\ g_nodes g' = g_nodes g /\ forall x y, arc g' x y <-> arc g x y /\ forall k li, In (k, li) l -> l_tx li = x -> l_rx li = y -> (0 < cap k)%Q.
Proof.
  induction l as [|[k li] l IH]; intros g G; cbn [foldM].
  - exists g. split; [reflexivity|]. split; [exact G|]. split; [reflexivity|]. intros x y. split; [|tauto]. intros H. split; [exact H|]. intros k li [].
  - cbn [fst snd]. cbv zeta. destruct (Qle_bool (cap k) 0 && has_edge g (l_tx li) (l_rx li)) eqn:E.
    + apply andb_true_iff in E. destruct E as [E1 E2]. apply has_edge_iff in E2. apply qle_true in E1. destruct (remove_edge_ok g _ _ G E2) as (g1 & Eg & G1 & A1 & N1). rewrite Eg. cbn [rbind].
      destruct (IH g1 G1) as (g' & E' & G' & N' & A'). exists g'. split; [exact E'|]. split; [exact G'|]. split; [congruence|]. intros x y. rewrite A', A1. split.
      * intros ((H1 & H2) & H3). split; [exact H1|]. intros k' li' [X|X] Hx Hy; [injection X as <- <-; subst; tauto|now apply (H3 k' li')].
      * intros (H1 & H2). split; [split; [exact H1|]|intros k' li' X; apply H2; now right]. intros [-> ->]. pose proof (H2 k li (or_introl eq_refl) eq_refl eq_refl). lra.
    + cbn [rbind]. destruct (IH g G) as (g' & E' & G' & N' & A'). exists g'. split; [exact E'|]. split; [exact G'|]. split; [exact N'|]. intros x y. rewrite A'. split.
      * intros (H1 & H2). split; [exact H1|]. intros k' li' [X|X] Hx Hy; [|now apply (H2 k' li')]. injection X as <- <-. subst x y. apply andb_false_iff in E. destruct E as [E|E]; [apply qle_false in E; lra|]. apply has_edge_false in E. contradiction.
      * intros (H1 & H2). split; [exact H1|]. intros k' li' X. apply H2. now right.
Qed.
End Dead.
Section Adv.
Variables (mcs : string -> Z) (cap : string -> Q) (ratio : Q) (t : topo).
Hypothesis Hr : reachable t.
Hypothesis Hids : ids_apart t.
Hypothesis Hns : forall k l, link_stored t k l -> l_tx l <> l_rx l.
Lemma count_ok : backhaul_count t (active_backhaul t).
Proof using Hr.
  pose proof (inv_reachable t Hr) as HI. unfold backhaul_count, active_backhaul. set (l := filter _ _). exists (map fst l). split; [|split; [|now rewrite map_length]].
  - assert (W : NoDup (map fst (t_links t))) by apply HI. unfold l. clear l. induction (t_links t) as [|q d IH]; cbn [filter map]; [constructor|]. inversion W; subst. destruct (active _ && _); [cbn [map]; constructor|]; auto.
    intros X. apply H1. apply in_map_iff in X. destruct X as (y & Ey & Hy). apply filter_In in Hy. apply in_map_iff. exists y. tauto.
  - intros k. rewrite in_map_iff. unfold l. split.
    + intros ([k' li] & Ek & H). cbn [fst] in Ek. subst k'. apply filter_In in H. destruct H as [H1 H2]. cbn [snd] in H2. apply andb_true_iff in H2. destruct H2 as [H2 H3]. exists li. split; [apply In_dget; [apply HI|exact H1]|]. split; [|now apply beq_true].
      destruct (l_status li); cbn in *; try discriminate; auto.
    + intros (li & E & H2 & H3). exists (k, li). split; [reflexivity|]. apply filter_In. split; [now apply dget_In|]. cbn [snd]. rewrite H3. change (beq WIRELESS_BACKHAUL WIRELESS_BACKHAUL) with true. rewrite andb_true_r. cbn in H2. destruct H2 as [<-|[<-|[]]]; reflexivity.
Qed.
Lemma count_unique n m : backhaul_count t n -> backhaul_count t m -> n = m.
Proof using. intros (a & Na & Ha & ->) (b & Nb & Hb & ->). apply Nat.le_antisymm; apply NoDup_incl_length; try assumption; intros x Hx; [apply Hb, Ha, Hx|apply Ha, Hb, Hx]. Qed.
Lemma cand_ok : exists cand sites, drop_dead cap t (build_digraph mcs t in_reach) = Ok cand /\ colocated_sites_to_remove t = Ok sites /\ graph_ok (drop_sites sites cand)
  /\ (forall x y, arc (drop_sites sites cand) x y <-> usable_arc t cap x y) /\ no_loops (drop_sites sites cand)
  /\ ((exists i, site_with t in_reach (fun s => s_type s = POP) i) -> source_ok (drop_sites sites cand))
  /\ (forall d, connected_demand (drop_sites sites cand) (arc (drop_sites sites cand)) d <-> is_demand_site t d /\ linked (usable_arc t cap) d).
Proof using Hr Hids Hns.
  pose proof (inv_reachable t Hr) as HI. destruct (drop_dead_ok cap (t_links t) _ (build_graph_ok mcs t in_reach Hr Hids)) as (cand & E & G & N & A). exists cand.
  destruct (OpsColocProofs.removals_exact t (wf_reachable t Hr)) as (sites & Es & _ & Hs). exists sites. split; [exact E|]. split; [exact Es|].
  destruct (drop_sites_ok sites cand G) as (G' & A' & N').
  assert (So : forall i, In i sites <-> shut_out t i) by exact Hs.
  assert (Ar : forall x y, arc (drop_sites sites cand) x y <-> usable_arc t cap x y).
  { intros x y. rewrite A', A, (arc_link mcs t in_reach Hr Hids), !So. unfold usable_arc. split.
    - intros ((H1 & H2) & H3 & H4). split; [exact H1|]. split; [|auto]. intros k l X. apply H2. now apply dget_In.
    - intros (H1 & H2 & H3 & H4). split; [split; [exact H1|]|auto]. intros k l X. apply H2. apply In_dget; [apply HI|exact X]. }
  assert (NotOut : forall x, ~ site_stored t x -> mem x sites = false) by (intros x Hx; apply mem_not_In; rewrite So; intros (s & Es' & _); apply Hx; exists s; exact Es').
  destruct Hids as [Hd1 Hd2]. fold (ids_apart t) in Hids.
  split; [exact G'|]. split; [exact Ar|]. split; [|split].
  - intros u H. apply Ar in H. destruct H as ((e & H) & _). apply (no_self mcs t in_reach Hr Hids Hns u). apply (arc_link mcs t in_reach Hr Hids). eauto.
  - intros Hp. pose proof (source_in mcs t in_reach Hr Hids Hp) as [S1 S2]. unfold source_ok, node, demand_node. rewrite N', N, (NotOut _ Hd2). auto.
  - intros d. assert (L : linked (arc (drop_sites sites cand)) d <-> linked (usable_arc t cap) d) by (split; intros X; (eapply linked_ext; [|exact X]); intros x y; apply Ar). unfold connected_demand. rewrite L.
    destruct (graph_exact mcs t in_reach Hr Hids) as [_ Lb]. split.
    + intros [H1 H2]. split; [|exact H2]. unfold demand_node in H1. rewrite N', N in H1. destruct (mem d sites); [discriminate|]. apply Lb in H1. destruct H1 as [_ [(_ & X)|[(s & _ & [[_ X]|[_ X]])|(D & ED & _)]]]; try discriminate. exists D. exact ED.
    + intros [[D HD] H2]. split; [|exact H2]. unfold demand_node. rewrite N', N. destruct (Hd1 _ _ HD) as (_ & X & Y). rewrite (NotOut d X). apply Lb. split; [|right; right; eauto].
      inversion H2 as [Hz|a b La Ha Hb]; [congruence|]. destruct Ha as ((e & Ha) & _). eauto.
Qed.
Lemma ratio_count n : (inject_Z (Z.of_nat n) * ratio <= inject_Z (Qceiling (inject_Z (Z.of_nat n) * ratio)) < inject_Z (Z.of_nat n) * ratio + 1)%Q.
Proof using. split; [apply Qle_ceiling|]. pose proof (Qceiling_lt (inject_Z (Z.of_nat n) * ratio)) as H. unfold Z.sub in H. rewrite inject_Z_plus in H. change (inject_Z (- (1)))%Q with (- (1))%Q in H. lra. Qed.
Theorem adversarial_exact n L : backhaul_count t n -> get_adversarial_links mcs cap ratio t = Ok L ->
  NoDup L /\ ((ratio <= 0)%Q -> L = []) /\ (L <> [] -> (inject_Z (Z.of_nat (List.length L)) < inject_Z (Z.of_nat n) * ratio + (2#1))%Q)
  /\ (forall u v, In (u, v) L -> usable_arc t cap u v /\ (carries t in_plan u v \/ carries t in_plan v u) /\ (exists d, off_link t in_plan u v d) /\ (usable_arc t cap v u -> In (v, u) L))
  /\ (forall d, is_demand_site t d -> linked (usable_arc t cap) d -> linked (minus (usable_arc t cap) L) d)
  /\ ((0 < ratio)%Q -> forall u v k, carries t in_plan u v -> sorted_pair k u v -> (exists d, off_link t in_plan u v d) ->
      (forall i l, link_stored t i l -> l_tx l = fst k -> l_rx l = snd k -> l_type l <> WIRELESS_ACCESS) ->
      In k L \/ (exists d, is_demand_site t d /\ linked (usable_arc t cap) d /\ ~ linked (minus_pair (minus (usable_arc t cap) L) u v) d)
      \/ ((inject_Z (Z.of_nat n) * ratio <= inject_Z (Z.of_nat (List.length L)))%Q /\ forall x y, In (x, y) L -> no_more (off_link t in_plan u v) (off_link t in_plan x y))).
Proof using Hr Hids Hns.
  intros Hn. assert (n = active_backhaul t) by (apply count_unique; [exact Hn|exact count_ok]). subst n. unfold get_adversarial_links. cbv zeta. set (n := active_backhaul t) in *.
  assert (Lo : forall u v d, lost (build_digraph mcs t in_plan) (without_pair (build_digraph mcs t in_plan) u v) d -> False \/ lost (build_digraph mcs t in_plan) (without_pair (build_digraph mcs t in_plan) u v) d) by auto. clear Lo.
  destruct ((n =? 0)%nat || Qeq_bool ratio 0) eqn:E0.
  - intros E. injection E as <-. split; [constructor|]. split; [reflexivity|]. split; [congruence|]. split; [intros u v []|]. split; [intros d _ H; eapply linked_ext; [|exact H]; unfold minus; cbn; tauto|].
    intros Hp u v k (i & l & H1 & H2 & H3 & H4 & H5 & _). exfalso. apply orb_true_iff in E0. destruct E0 as [E0|E0]; [|apply Qeq_bool_eq in E0; lra]. apply Nat.eqb_eq in E0. destruct Hn as (ks & _ & Hk & En). rewrite E0 in En. destruct ks; [|discriminate]. apply (proj2 (Hk i)). eauto.
  - intros E. apply orb_false_iff in E0. destruct E0 as [E1 E2]. apply Nat.eqb_neq in E1.
    destruct cand_ok as (cand & sites & Ec & Es & Gc & Ac & NLc & Sc & Cd). change [PROPOSED; EXISTING; CANDIDATE] with in_reach in E. change [PROPOSED; EXISTING] with in_plan in E. rewrite Ec, Es in E. cbn [rbind] in E.
    set (count := Qceiling (inject_Z (Z.of_nat n) * ratio)) in *. pose proof (ratio_count n) as [C1 C2]. fold count in C1, C2.
    assert (Np : (0 < inject_Z (Z.of_nat n))%Q) by (change 0%Q with (inject_Z 0); rewrite <- Zlt_Qlt; lia).
    destruct (Z.leb_spec count 0) as [Hc|Hc].
    + unfold find_most_disruptive_links in E. rewrite (proj2 (Z.leb_le _ _) Hc) in E. injection E as <-. split; [constructor|]. split; [reflexivity|]. split; [congruence|]. split; [intros u v []|]. split; [intros d _ H; eapply linked_ext; [|exact H]; unfold minus; cbn; tauto|].
      intros Hp. exfalso. assert (X : (0 < inject_Z (Z.of_nat n) * ratio)%Q) by (apply Qmult_lt_0_compat; assumption). assert (Y : (inject_Z count <= inject_Z 0)%Q) by (rewrite <- Zle_Qle; exact Hc). change (inject_Z 0) with 0%Q in Y. lra.
    + assert (Rp : (0 < ratio)%Q).
      { assert (Y : (inject_Z 1 <= inject_Z count)%Q) by (rewrite <- Zle_Qle; lia). change (inject_Z 1) with 1%Q in Y. destruct (Qlt_le_dec 0 ratio) as [H|H]; [exact H|]. exfalso. assert (Z : (inject_Z (Z.of_nat n) * ratio <= 0)%Q); [|lra].
        setoid_replace 0%Q with (inject_Z (Z.of_nat n) * 0)%Q by ring. apply Qmult_le_l; assumption. }
      destruct (dmem (g_nodes (build_digraph mcs t in_plan)) SUPERSOURCE) eqn:Esrc.
      2:{ exfalso. unfold find_most_disruptive_links in E. rewrite (proj2 (Z.leb_gt _ _) Hc) in E. assert (X : ~ node (build_digraph mcs t in_plan) SUPERSOURCE) by (intros X; apply node_iff in X; congruence). destruct (no_source _ X) as (_ & Y & _). rewrite Y in E. discriminate. }
      assert (Hpop : exists i, site_with t in_plan (fun s => s_type s = POP) i).
      { destruct (existsb (fun q => beq (s_type (snd q)) POP && mem (s_status (snd q)) in_plan) (t_sites t)) eqn:Ex.
        - apply existsb_exists in Ex. destruct Ex as ([i s] & Hi & X). cbn [snd] in X. apply andb_true_iff in X. destruct X as [X1 X2]. exists i, s. split; [apply In_dget; [apply (inv_reachable t Hr)|exact Hi]|]. split; [now apply beq_true|now apply mem_In].
        - exfalso. assert (X : ~ node (build_digraph mcs t in_plan) SUPERSOURCE); [|apply node_iff in Esrc; contradiction]. apply (source_out mcs t in_plan Hr Hids). intros i (s & Es' & Et & Hst).
          assert (Y : existsb (fun q => beq (s_type (snd q)) POP && mem (s_status (snd q)) in_plan) (t_sites t) = true); [|congruence]. apply existsb_exists. exists (i, s). split; [now apply dget_In|]. cbn [snd]. rewrite Et. change (beq POP POP) with true. now apply mem_In in Hst. }
      assert (Hpop' : exists i, site_with t in_reach (fun s => s_type s = POP) i). { destruct Hpop as (i & s & E3 & E4 & E5). exists i, s. split; [exact E3|]. split; [exact E4|]. cbn in *. tauto. }
      destruct (disruptive_links _ _ count (build_graph_ok mcs t in_plan Hr Hids) Gc (no_self mcs t in_plan Hr Hids Hns) NLc (source_in mcs t in_plan Hr Hids Hpop) (Sc Hpop') L E) as (R1 & R2 & R3 & R4 & R5 & R6).
      split; [exact R1|]. split; [lra|]. split.
      { intros _. specialize (R2 Hc). assert (Y : (inject_Z (Z.of_nat (List.length L)) <= inject_Z (count + 1))%Q) by (rewrite <- Zle_Qle; exact R2). rewrite inject_Z_plus in Y. change (inject_Z 1) with 1%Q in Y. lra. }
      split; [|split].
      * intros u v H. destruct (R4 u v H) as (X1 & [[d X2] X3] & X4). split; [now apply Ac|]. split; [destruct X3 as [X3|X3]; apply (examined_backhaul mcs t in_plan Hr Hids) in X3; auto|]. split; [exists d; now apply (lost_link mcs t in_plan Hr Hids Hpop)|]. intros X. apply X4. now apply Ac.
      * intros d Hd Hl. assert (X : linked (without_all (drop_sites sites cand) L) d) by (apply R5, Cd; auto). eapply linked_ext; [|exact X]. intros x y [Y1 Y2]. split; [now apply Ac|exact Y2].
      * intros _ u v k Hca Hk [d Hd] Hacc. destruct (R6 Hc u v k) as [X|[(x & X1 & X2)|[X1 X2]]].
        -- now apply (examined_backhaul mcs t in_plan Hr Hids).
        -- exact Hk.
        -- exists d. now apply (lost_link mcs t in_plan Hr Hids Hpop).
        -- intros X. destruct (graph_exact mcs t in_plan Hr Hids) as [T _]. apply T in X. destruct X as (e & X & [(_ & _ & ->)|[(i & l & Y1 & Y2 & Y3 & _ & _ & _ & ->)|(D & _ & _ & _ & ->)]]); try discriminate. injection X as X. exact (Hacc i l Y1 Y2 Y3 (eq_sym X)).
        -- now left.
        -- right. left. exists x. apply Cd in X1. destruct X1 as [X1 X3]. split; [exact X1|]. split; [exact X3|]. intros Y. apply X2. eapply linked_ext; [|exact Y]. intros a b ((Z1 & Z2) & Z3). split; [split; [now apply Ac|exact Z2]|exact Z3].
        -- right. right. split.
           ++ assert (Y : (inject_Z count <= inject_Z (Z.of_nat (List.length L)))%Q) by (rewrite <- Zle_Qle; exact X1). lra.
           ++ intros x y Hxy a b [Na Ha] [Nb Hb]. apply (X2 x y Hxy); split; try assumption; intros z; [rewrite Ha|rewrite Hb]; symmetry; apply (lost_link mcs t in_plan Hr Hids Hpop).
Qed.
Theorem adversarial_returns : (exists i, site_with t in_plan (fun s => s_type s = POP) i) ->
  (forall u v, carries t in_plan u v -> carries t in_plan v u /\ usable_arc t cap u v /\ usable_arc t cap v u) -> exists L, get_adversarial_links mcs cap ratio t = Ok L.
Proof using Hr Hids Hns.
  intros Hpop H. unfold get_adversarial_links. cbv zeta. destruct ((active_backhaul t =? 0)%nat || Qeq_bool ratio 0); [eauto|]. destruct cand_ok as (cand & sites & Ec & Es & Gc & Ac & NLc & Sc & Cd).
  change [PROPOSED; EXISTING; CANDIDATE] with in_reach. change [PROPOSED; EXISTING] with in_plan. rewrite Ec, Es. cbn [rbind].
  assert (Hpop' : exists i, site_with t in_reach (fun s => s_type s = POP) i). { destruct Hpop as (i & s & E3 & E4 & E5). exists i, s. split; [exact E3|]. split; [exact E4|]. cbn in *. tauto. }
  apply (disruptive_total _ _ _ (build_graph_ok mcs t in_plan Hr Hids) Gc (no_self mcs t in_plan Hr Hids Hns) NLc (source_in mcs t in_plan Hr Hids Hpop) (Sc Hpop')).
  intros u v X. apply (examined_backhaul mcs t in_plan Hr Hids) in X. destruct (H u v X) as (Y1 & Y2 & Y3). destruct (graph_exact mcs t in_plan Hr Hids) as [T _].
  assert (Z : forall a b, carries t in_plan a b -> exists ty, arc_type (build_digraph mcs t in_plan) a b (Some ty)).
  { intros a b (k & l & Z1 & Z2 & Z3 & Z4 & Z5 & Z6 & Z7). exists (ELink (l_type l)). apply T. exists (ELink (l_type l)). split; [reflexivity|]. right. left. exists k, l. auto 8. }
  split; [now apply Z|]. split; [now apply Z|]. split; now apply Ac.
Qed.
End Adv.
