From Coq Require Import ZArith Lia.
From Verif Require Import Base Dict MonadLib SetupModel LosRangeModel TopologyModel TopologySpec TopologyLemmas TopologyProofs GraphSpec GraphProofs NxModel NxSpec NxProofs NxFailProofs NxBuildProofs NxPathProofs NxRouteProofs NxDisruptProofs.
Local Open Scope list_scope.

Section Final.
Variables (mcs : string -> Z) (t : topo) (f : list status).
Hypothesis Hr : reachable t.
Hypothesis Hids : ids_apart t.
Let g := build_digraph mcs t f.
Lemma build_graph_ok : graph_ok g.
Proof using Hr Hids. now destruct (build_ok mcs t f Hr Hids). Qed.
Lemma graph_exact : (forall u v ty, arc_type g u v ty <-> exists e, ty = Some e /\ arc_of t f u v e)
  /\ (forall x n, dget (g_nodes g) x = Some n <-> (exists y e, arc_of t f x y e \/ arc_of t f y x e) /\ node_label t f x n).
Proof using Hr Hids.
  destruct (build_ok mcs t f Hr Hids) as (G & T & A & N & L). fold g in G, T, A, N, L. split.
  - intros u v ty. split.
    + intros H. assert (X : arc g u v) by (apply arc_typed; eauto). apply A in X. destruct X as [e X]. pose proof X as Y. apply T in Y. pose proof (arc_type_fun g u v _ _ H Y) as ->. eauto.
    + intros (e & -> & H). now apply T.
  - intros x n. rewrite L, N. split; intros [H1 H2]; (split; [|exact H2]).
    + destruct H1 as (y & [H|H]); apply A in H; destruct H as [e H]; eauto.
    + destruct H1 as (y & e & [H|H]); exists y; [left|right]; apply A; eauto.
Qed.
Lemma examined_backhaul u v : examined g u v <-> carries t f u v.
Proof using Hr Hids.
  destruct graph_exact as [T _]. unfold examined, carries. split.
  - intros (ty & Ht & H1 & H2 & H3 & H4). apply T in Ht. destruct Ht as (e & -> & [(_ & _ & ->)|[(k & l & X1 & X2 & X3 & X4 & X5 & X6 & ->)|(d & _ & _ & _ & ->)]]); [congruence| |congruence].
    exists k, l. repeat match goal with |- _ /\ _ => split end; auto. destruct (l_type l); congruence.
  - intros (k & l & X1 & X2 & X3 & X4 & X5 & X6 & X7). exists (Some (ELink WIRELESS_BACKHAUL)). split; [|repeat split; discriminate]. apply T. exists (ELink WIRELESS_BACKHAUL). split; [reflexivity|]. right. left. exists k, l. rewrite X4. auto 8.
Qed.
Lemma build_shape : shape t g.
Proof using Hr Hids.
  destruct Hids as [Hd1 Hd2]. split; [|split].
  - intros v H. apply (arc_link mcs t f Hr Hids) in H. destruct H as (e & [(_ & (s & E & Et & _) & _)|[(k & l & _ & _ & _ & _ & (s & E & _) & _)|(d & _ & _ & (s & E & _) & _)]]); [eauto| |]; exfalso; apply Hd2; exists s; exact E.
  - intros u v H. apply (arc_link mcs t f Hr Hids) in H. destruct H as (e & [(-> & _)|[(k & l & _ & _ & _ & _ & (s & E & _) & _)|(d & _ & _ & (s & E & _) & _)]]); [now left| |]; right; exists s; exact E.
  - intros d D H. destruct (Hd1 _ _ H) as (_ & X & Y). auto.
Qed.
Lemma build_links u v : arc g u v -> site_stored t u -> site_stored t v -> exists l, link_stored t (link_id_of u v) l /\ l_tx l = u /\ l_rx l = v /\ In (l_status l) f.
Proof using Hr Hids.
  destruct Hids as [Hd1 Hd2]. intros H Hu Hv. apply (arc_link mcs t f Hr Hids) in H. destruct H as (e & [(-> & _)|[(k & l & E & <- & <- & Hst & _)|(d & E & _)]]).
  - contradiction.
  - exists l. split; [|auto]. pose proof (inv_reachable t Hr) as HI. destruct (i_links t HI k l E) as (Ek & _). unfold link_stored in *. change (link_id_of (l_tx l) (l_rx l)) with (l_id l). now rewrite <- Ek.
  - destruct (Hd1 _ _ E) as (_ & X & _). contradiction.
Qed.
Lemma no_pop sp cp ty cand : (forall i, ~ site_with t f (fun s => s_type s = POP) i) ->
  find_connected_demands g = Err NetworkXExn /\ single_edge_failures g = Err NetworkXExn /\ single_site_failures g = Err NetworkXExn
  /\ disjoint_paths sp t g = Err NetworkXExn /\ get_topology_routing_results sp cp t g ty = Err NetworkXExn /\ (forall count, (0 < count)%Z -> find_most_disruptive_links g cand count = Err NetworkXExn).
Proof using Hr Hids.
  intros H. pose proof (source_out mcs t f Hr Hids H) as Hn. fold g in Hn. destruct (no_source g Hn) as (E1 & E2 & E3). assert (Em : dmem (g_nodes g) SUPERSOURCE = false) by (destruct (dmem (g_nodes g) SUPERSOURCE) eqn:E; [apply node_iff in E; contradiction|reflexivity]).
  split; [exact E1|]. split; [exact E2|]. split; [exact E3|]. unfold disjoint_paths, get_topology_routing_results. rewrite Em. split; [reflexivity|]. split; [reflexivity|]. intros count Hc. unfold find_most_disruptive_links. destruct (Z.leb_spec count 0) as [X|X]; [lia|]. now rewrite E2.
Qed.
Hypothesis Hpop : exists i, site_with t f (fun s => s_type s = POP) i.
Lemma connected_exact : exists l, find_connected_demands g = Ok l /\ lists_all l (served t f).
Proof using Hr Hids Hpop.
  destruct (connected_ok g build_graph_ok (source_in mcs t f Hr Hids Hpop)) as (l & E & N & H). exists l. split; [exact E|]. split; [exact N|]. intros x. rewrite H. apply (connected_served mcs t f Hr Hids).
Qed.
Lemma lost_link u v d : lost g (without_pair g u v) d <-> off_link t f u v d.
Proof using Hr Hids Hpop.
  unfold lost, off_link. pose proof (connected_served mcs t f Hr Hids d) as CS. fold g in CS. assert (X : linked (without_pair g u v) d <-> linked (fun x y => (exists e, arc_of t f x y e) /\ ~ (x = u /\ y = v) /\ ~ (x = v /\ y = u)) d).
  { split; intros L'; (eapply linked_ext; [|exact L']); unfold without_pair; cbn beta; intros a b; unfold g; rewrite (arc_link mcs t f Hr Hids); tauto. }
  tauto.
Qed.
Lemma link_failures : (forall k l, link_stored t k l -> l_tx l <> l_rx l) -> exists D, single_edge_failures g = Ok D
  /\ (forall k L, dget D k = Some L -> exists u v, carries t f u v /\ sorted_pair k u v)
  /\ (forall u v k, carries t f u v -> sorted_pair k u v -> exists L, dget D k = Some L /\ lists_all L (off_link t f u v)).
Proof using Hr Hids Hpop.
  intros Hns. destruct (edge_failures_exact g build_graph_ok (no_self mcs t f Hr Hids Hns) (source_in mcs t f Hr Hids Hpop)) as (D & E & D1 & D2). exists D. split; [exact E|]. split.
  - intros k L H. destruct (D1 k L H) as (u & v & Hx & Hk). exists u, v. split; [now apply examined_backhaul|exact Hk].
  - intros u v k Hx Hk. destruct (D2 u v k) as (L & EL & N & H); [now apply examined_backhaul|exact Hk|]. exists L. split; [exact EL|]. split; [exact N|]. intros x. rewrite H. apply lost_link.
Qed.
Lemma lost_off i d : lost g (without_site g i) d <-> off t f i d.
Proof using Hr Hids Hpop.
  unfold lost, off. pose proof (connected_served mcs t f Hr Hids d) as CS. fold g in CS. assert (X : linked (without_site g i) d <-> linked (fun x y => (exists e, arc_of t f x y e) /\ x <> i /\ y <> i) d).
  { split; intros L'; (eapply linked_ext; [|exact L']); unfold without_site; cbn beta; intros a b; unfold g; rewrite (arc_link mcs t f Hr Hids); tauto. }
  tauto.
Qed.
(** only a site on the way matters *)
Lemma off_way (E : string -> string -> Prop) i d : i <> SUPERSOURCE -> linked E d -> ~ linked (fun x y => E x y /\ x <> i /\ y <> i) d -> d = i \/ exists y, E i y.
Proof using. clear.
  intros Hi L Hn. assert (X : forall x, linked E x -> linked (fun x y => E x y /\ x <> i /\ y <> i) x \/ x = i \/ exists y, E i y).
  { intros x Lx. induction Lx as [|u v Lu [IH|[->|IH]] He]; [left; constructor| |right; right; eauto|auto]. destruct (beq_spec v i) as [->|Hv]; [auto|]. destruct (beq_spec u i) as [->|Hu]; [right; right; eauto|]. left. eapply linked_step; [exact IH|auto]. }
  destruct (X d L) as [Y|Y]; [contradiction|exact Y].
Qed.
Lemma site_failures : exists P D, single_site_failures g = Ok (P, D) /\
  (forall i L, dget P i = Some L -> site_with t f (fun s => s_type s = POP) i /\ L <> [] /\ lists_all L (off t f i)) /\
  (forall i L, dget D i = Some L -> site_with t f (fun s => s_type s = DN) i /\ L <> [] /\ lists_all L (off t f i)) /\
  (forall i x, site_with t f (fun s => s_type s = POP) i -> off t f i x -> exists L, dget P i = Some L) /\
  (forall i x s y e, dget (t_sites t) i = Some s -> s_type s = DN -> arc_of t f y i e -> off t f i x -> exists L, dget D i = Some L).
Proof using Hr Hids Hpop.
  destruct (site_failures_exact g build_graph_ok (source_in mcs t f Hr Hids Hpop)) as (P & D & E & P1 & D1 & P2 & D2). exists P, D. split; [exact E|].
  destruct graph_exact as [_ Lb].
  assert (Back : forall i ty, dget (g_nodes g) i = Some (Some (NSite ty)) -> site_with t f (fun s => s_type s = ty) i).
  { intros i ty H. apply Lb in H. destruct H as [(y & e & H) [(_ & X)|[(s & Es & [[_ X]|[_ X]])|(d & _ & X)]]]; try discriminate. injection X as ->. exists s. split; [exact Es|]. split; [reflexivity|].
    assert (Dd : forall d, dget (t_demands t) i = Some d -> False). { intros d Ed. destruct Hids as [Hd1 _]. destruct (Hd1 _ _ Ed) as (_ & Y & _). apply Y. exists s. exact Es. }
    assert (Sd : i <> SUPERSOURCE). { intros ->. destruct Hids as [_ Hd2]. apply Hd2. exists s. exact Es. }
    destruct H as [[(H & _)|[(k & l & _ & _ & _ & _ & (s' & E' & _ & Hs') & _)|(d & _ & _ & (s' & E' & _ & Hs') & _)]]|[(_ & (s' & E' & _ & Hs') & _)|[(k & l & _ & _ & _ & _ & _ & (s' & E' & _ & Hs') & _)|(d & H & _)]]]; try congruence; destruct (Dd _ H). }
  assert (NS : forall i s, dget (t_sites t) i = Some s -> i <> SUPERSOURCE) by (intros i s Es ->; destruct Hids as [_ Hd2]; apply Hd2; exists s; exact Es).
  assert (LL : forall i L, lists_all L (lost g (without_site g i)) -> lists_all L (off t f i)) by (intros i L [N H]; split; [exact N|intros x; rewrite H; apply lost_off]).
  split; [|split; [|split]].
  - intros i L H. destruct (P1 i L H) as (X1 & X2 & X3). split; [now apply Back|]. auto.
  - intros i L H. destruct (D1 i L H) as (X1 & X2 & X3). split; [now apply Back|]. auto.
  - intros i x (s & Es & Et & Hst) Ho. apply (P2 i x); [exact (NS i s Es)| |now apply lost_off]. apply Lb. assert (X : arc_of t f SUPERSOURCE i ESource) by (left; split; [reflexivity|]; split; [exists s; auto|reflexivity]).
    split; [eauto|]. right. left. exists s. split; [exact Es|]. left. rewrite Et. split; [|reflexivity]. exists SUPERSOURCE, ESource. split; [auto|discriminate].
  - intros i x s y e Es Et Ha Ho. apply (D2 i x); [exact (NS i s Es)| |now apply lost_off]. apply Lb. split; [eauto|]. right. left. exists s. split; [exact Es|]. left. rewrite Et. split; [|reflexivity]. exists y, e. split; [auto|].
    destruct Ha as [(_ & _ & ->)|[(k & l & _ & _ & _ & _ & _ & _ & ->)|(d & Ed & _)]]; [discriminate|discriminate|]. exfalso. destruct Hids as [Hd1 _]. destruct (Hd1 _ _ Ed) as (_ & X & _). apply X. exists s. exact Es.
Qed.
(** a DN that matters has something arriving *)
Lemma off_arrives i s x : dget (t_sites t) i = Some s -> off t f i x -> exists y e, arc_of t f y i e.
Proof using mcs Hr Hids Hpop.
  intros Es [Hsv Hn]. apply (connected_served mcs t f Hr Hids) in Hsv. destruct Hsv as [_ L]. fold g in L.
  assert (L' : linked (fun x y => exists e, arc_of t f x y e) x) by (eapply linked_ext; [|exact L]; intros a b; unfold g; rewrite (arc_link mcs t f Hr Hids); tauto).
  assert (NSi : i <> SUPERSOURCE) by (intros ->; destruct Hids as [_ Hd2]; apply Hd2; exists s; exact Es).
  assert (X : forall z, linked (fun x y => exists e, arc_of t f x y e) z -> linked (fun x y => (exists e, arc_of t f x y e) /\ x <> i /\ y <> i) z \/ exists y e, arc_of t f y i e).
  { intros z Lz. induction Lz as [|u v Lu [IH|IH] He]; [left; constructor| |auto]. destruct (beq_spec v i) as [->|Hv]; [right; destruct He as [e He]; eauto|]. destruct (beq_spec u i) as [->|Hu].
    - right. inversion Lu as [Hz|a b La Ha Hb]; [congruence|]. subst b. destruct Ha as [e Ha]. eauto.
    - left. eapply linked_step; [exact IH|auto]. }
  destruct (X x L') as [Y|Y]; [contradiction|exact Y].
Qed.
Lemma site_failures_complete : exists P D, single_site_failures g = Ok (P, D) /\
  (forall i L, dget P i = Some L -> site_with t f (fun s => s_type s = POP) i /\ L <> [] /\ lists_all L (off t f i)) /\
  (forall i L, dget D i = Some L -> site_with t f (fun s => s_type s = DN) i /\ L <> [] /\ lists_all L (off t f i)) /\
  (forall i x, site_with t f (fun s => s_type s = POP) i -> off t f i x -> exists L, dget P i = Some L) /\
  (forall i x, site_with t f (fun s => s_type s = DN) i -> off t f i x -> exists L, dget D i = Some L).
Proof using Hr Hids Hpop.
  destruct site_failures as (P & D & E & H1 & H2 & H3 & H4). exists P, D. split; [exact E|]. split; [exact H1|]. split; [exact H2|]. split; [exact H3|]. intros i x (s & Es & Et & _) Ho. destruct (off_arrives i s x Es Ho) as (y & e & Ha). now apply (H4 i x s y e).
Qed.
(** *** paths *)
Variable sp : graph -> dict string (list string).
Hypothesis Psp : paths_ok g (sp g).
Lemma demand_paths (p : dict string (list string)) : paths_ok g p -> forall d D q, dget (t_demands t) d = Some D -> dget p d = Some q -> path_to (arc g) d q.
Proof using Hr Hids.
  intros (_ & P1 & _) d D q HD Hq. destruct build_shape as (_ & _ & S3). destruct (S3 _ _ HD) as [_ X]. destruct (P1 _ _ Hq) as [[Y _]|Y]; [contradiction|exact Y].
Qed.
Lemma disjoint_exact : exists g' j, disjoint_paths sp t g = Ok (g', j) /\ graph_ok g'
  /\ (forall u v, arc g' u v <-> arc g u v) /\ g_nodes g' = g_nodes g
  /\ (forall u v ty, arc_type g' u v ty <-> (arc_type g u v ty /\ ~ blanked t (sp g) u v) \/ (ty = None /\ blanked t (sp g) u v))
  /\ lists_all (j_none j) (fun d => (exists D, dget (t_demands t) d = Some D) /\ ~ served t f d)
  /\ lists_all (j_pop j) (fun d => (exists D, dget (t_demands t) d = Some D) /\ exists p, dget (sp g) d = Some p /\ List.length p = 3)
  /\ lists_all (j_two j) (fun d => (exists D, dget (t_demands t) d = Some D) /\ exists p, dget (sp g) d = Some p /\ 3 < List.length p /\ linked (fun u v => arc g u v /\ ~ before_cn t p u v) d).
Proof using Hr Hids Hpop Psp.
  pose proof (source_in mcs t f Hr Hids Hpop) as [Hs _]. fold g in Hs. unfold disjoint_paths. pose proof Hs as Hs'. apply node_iff in Hs'. rewrite Hs'.
  destruct (fold_disjoint t g (sp g) build_graph_ok Hs build_shape (demand_paths (sp g) Psp) (dkeys (t_demands t)) g (mkDisjoint [] [] [])) as (c & j & E & (Gc & Ac & Nc) & B & O & W & N & P' & U1 & U2 & U3).
  - split; [exact build_graph_ok|]. split; [tauto|reflexivity].
  - intros d Hd. now apply dmem_Some, dmem_keys.
  - exists c, j. split; [exact E|]. split; [exact Gc|]. split; [exact Ac|]. split; [exact Nc|].
    assert (Dk : forall x, In x (dkeys (t_demands t)) <-> exists D, dget (t_demands t) x = Some D) by (intros x; rewrite <- dmem_Some; symmetry; apply dmem_keys).
    cbn [j_two j_none j_pop] in *. split; [|split; [|split]].
    + intros u v ty. assert (BB : blank_in t (sp g) (dkeys (t_demands t)) u v <-> blanked t (sp g) u v).
      { split; [intros (d & p & Hd & H); apply Dk in Hd; destruct Hd as [D Hd]; exists d, D, p; tauto|intros (d & D & p & Hd & H); exists d, p; split; [apply Dk; eauto|exact H]]. }
      assert (Dec : blank_in t (sp g) (dkeys (t_demands t)) u v \/ ~ blank_in t (sp g) (dkeys (t_demands t)) u v).
      { assert (X : forall l, (forall d, In d l -> exists D, dget (t_demands t) d = Some D) -> blank_in t (sp g) l u v \/ ~ blank_in t (sp g) l u v).
        { induction l as [|d l IH]; intros Hl; [right; intros (d & p & [] & _)|]. destruct IH as [H|H]; [intros x Hx; apply Hl; now right|left; destruct H as (x & p & Hx & H); exists x, p; cbn; tauto|].
          destruct (Hl d) as [D HD]; [now left|]. destruct (dget (sp g) d) as [p|] eqn:Ep.
          - destruct (before_dec t g (sp g) build_shape (demand_paths (sp g) Psp) p u v d D HD Ep) as [Y|Y]; [left; exists d, p; cbn; auto|]. right. intros (x & p' & [<-|Hx] & E' & X); [congruence|]. apply H. exists x, p'. auto.
          - right. intros (x & p' & [<-|Hx] & E' & X); [congruence|]. apply H. exists x, p'. auto. }
        apply X. intros d Hd. now apply Dk. }
      rewrite <- BB. destruct Dec as [X|X]; [rewrite (B u v ty X)|rewrite (O u v ty X)]; tauto.
    + split; [apply U2; constructor|]. intros x. rewrite N. rewrite Dk. split.
      * intros [[]|[(D & HD) Hx]]. split; [eauto|]. intros Hsv. apply (connected_served mcs t f Hr Hids) in Hsv. destruct Psp as (_ & _ & P2). exact (P2 x Hx (proj2 Hsv)).
      * intros [(D & HD) Hn]. right. split; [eauto|]. destruct (dget (sp g) x) as [p|] eqn:Ep; [|reflexivity]. exfalso. apply Hn. apply (connected_served mcs t f Hr Hids). fold g.
        pose proof (demand_paths (sp g) Psp x D p HD Ep) as Hp. apply path_linked in Hp. split; [|exact Hp]. destruct (build_ok mcs t f Hr Hids) as (_ & _ & _ & _ & Lb). fold g in Lb. unfold demand_node. apply Lb.
        split; [|right; right; eauto]. inversion Hp as [Hz|a b La Ha Hb]; [subst x; exact Hs|]. now apply (arc_nodes g _ _ build_graph_ok) in Ha.
    + split; [apply U3; constructor|]. intros x. rewrite P', Dk. split; [intros [[]|H]; exact H|auto].
    + split; [apply U1; constructor|]. intros x. rewrite W, Dk. split; [intros [[]|H]; exact H|auto].
Qed.
Lemma two_paths g' j d : disjoint_paths sp t g = Ok (g', j) -> In d (j_two j) -> exists p q, path_to (arc g) d p /\ path_to (arc g) d q /\ forall u v, step_of q u v -> ~ before_cn t p u v.
Proof using Hr Hids Hpop Psp.
  intros E Hd. destruct disjoint_exact as (g2 & j2 & E2 & _ & _ & _ & _ & _ & _ & _ & H). rewrite E in E2. injection E2 as <- <-. apply H in Hd. destruct Hd as [(D & HD) (p & Ep & _ & Hl)]. exists p.
  destruct build_shape as (_ & _ & S3). destruct (S3 _ _ HD) as [_ Hs]. destruct (linked_path_to _ _ Hl Hs) as (q & r & Eq & Nd & F). exists q. split; [exact (demand_paths (sp g) Psp d D p HD Ep)|]. split.
  - exists r. split; [exact Eq|]. split; [exact Nd|]. apply follows_step. intros u v X. now apply (proj1 (follows_step _ _) F) in X.
  - intros u v X. now apply (proj1 (follows_step _ _) F) in X.
Qed.
(** the failures are looked at in the graph as it was left *)
Lemma failures_after g' j : disjoint_paths sp t g = Ok (g', j) -> (forall k l, link_stored t k l -> l_tx l <> l_rx l) ->
  (exists D, single_edge_failures g' = Ok D
   /\ (forall k L, dget D k = Some L -> exists u v, (carries t f u v \/ blanked t (sp g) u v) /\ sorted_pair k u v /\ lists_all L (off_link t f u v))
   /\ (forall u v k, carries t f u v \/ blanked t (sp g) u v -> sorted_pair k u v -> exists L, dget D k = Some L /\ lists_all L (off_link t f u v)))
  /\ (exists P D, single_site_failures g' = Ok (P, D)
   /\ (forall i L, dget P i = Some L -> L <> [] /\ lists_all L (off t f i)) /\ (forall i L, dget D i = Some L -> L <> [] /\ lists_all L (off t f i))
   /\ (forall i x, site_with t f (fun s => s_type s = POP) i -> off t f i x -> exists L, dget P i = Some L) /\ (forall i x, site_with t f (fun s => s_type s = DN) i -> off t f i x -> exists L, dget D i = Some L)).
Proof using Hr Hids Hpop Psp.
  intros E Hns. destruct disjoint_exact as (g2 & j2 & E2 & G2 & A2 & N2 & T2 & _). rewrite E in E2. injection E2 as <- <-.
  pose proof (no_self mcs t f Hr Hids Hns) as NL. fold g in NL. pose proof (source_in mcs t f Hr Hids Hpop) as SO. fold g in SO.
  assert (NL' : no_loops g') by (intros u H; apply A2 in H; exact (NL u H)). assert (SO' : source_ok g') by (destruct SO as [S1 S2]; unfold source_ok, node, demand_node; rewrite N2; split; assumption).
  assert (Lk : forall (R R' : string -> string -> Prop) d, (forall x y, R x y <-> R' x y) -> (lost g' R d <-> lost g R' d)).
  { intros R R' d H. unfold lost, connected_demand, demand_node. rewrite N2. assert (X : linked (arc g') d <-> linked (arc g) d) by (split; intros L; (eapply linked_ext; [|exact L]); intros x y Z; now apply A2).
    assert (Y : linked R d <-> linked R' d) by (split; intros L; (eapply linked_ext; [|exact L]); intros x y Z; now apply H). tauto. }
  assert (LP : forall u v d, lost g' (without_pair g' u v) d <-> off_link t f u v d) by (intros u v d; rewrite <- lost_link; apply Lk; intros x y; unfold without_pair; now rewrite A2).
  assert (LS : forall i d, lost g' (without_site g' i) d <-> off t f i d) by (intros i d; rewrite <- lost_off; apply Lk; intros x y; unfold without_site; now rewrite A2).
  assert (Ex : forall u v, examined g' u v <-> carries t f u v \/ blanked t (sp g) u v).
  { intros u v. split.
    - intros (ty & Ht & H). apply T2 in Ht. destruct Ht as [[Ht _]|[_ Hb]]; [left; apply examined_backhaul; exists ty; auto|auto].
    - intros [H|H].
      + apply examined_backhaul in H. destruct H as (ty & Ht & H). assert (Ha : arc g' u v) by (apply A2; apply arc_typed; eauto). apply arc_typed in Ha. destruct Ha as [ty' Ht']. exists ty'. split; [exact Ht'|]. apply T2 in Ht'. destruct Ht' as [[Ht' _]|[-> _]]; [|repeat split; discriminate].
        now rewrite (arc_type_fun g u v _ _ Ht' Ht).
      + exists None. split; [apply T2; auto|repeat split; discriminate]. }
  split.
  - destruct (edge_failures_exact g' G2 NL' SO') as (D & ED & D1 & D2). exists D. split; [exact ED|].
    assert (D2' : forall u v k, carries t f u v \/ blanked t (sp g) u v -> sorted_pair k u v -> exists L, dget D k = Some L /\ lists_all L (off_link t f u v)).
    { intros u v k Hx Hk. destruct (D2 u v k) as (L & EL & N & H); [now apply Ex|exact Hk|]. exists L. split; [exact EL|]. split; [exact N|]. intros x. rewrite H. apply LP. }
    split; [|exact D2']. intros k L H. destruct (D1 k L H) as (u & v & Hx & Hk). exists u, v. apply Ex in Hx. split; [exact Hx|]. split; [exact Hk|]. destruct (D2' u v k Hx Hk) as (L' & EL & HL). assert (L' = L) by congruence. now subst L'.
  - destruct (site_failures_exact g' G2 SO') as (P & D & EP & P1 & D1 & P2 & D2). exists P, D. split; [exact EP|].
    assert (LL : forall i L, lists_all L (lost g' (without_site g' i)) -> lists_all L (off t f i)) by (intros i L [N H]; split; [exact N|intros x; rewrite H; apply LS]).
    destruct site_failures_complete as (P0 & D0 & E0 & C1 & C2 & C3 & C4). destruct (site_failures_exact g build_graph_ok SO) as (P' & D' & E0' & Q1 & Q2 & _). rewrite E0 in E0'. injection E0' as <- <-.
    split; [intros i L H; destruct (P1 i L H) as (_ & X1 & X2); auto|]. split; [intros i L H; destruct (D1 i L H) as (_ & X1 & X2); auto|].
    assert (NS : forall i P, site_with t f P i -> i <> SUPERSOURCE) by (intros i Q (s & Es & _) ->; destruct Hids as [_ Hd2]; apply Hd2; exists s; exact Es). split.
    + intros i x Hi Ho. destruct (C3 i x Hi Ho) as [L HL]. destruct (Q1 i L HL) as (X & _). apply (P2 i x); [now apply (NS i _ Hi)|now rewrite N2|now apply LS].
    + intros i x Hi Ho. destruct (C4 i x Hi Ho) as [L HL]. destruct (Q2 i L HL) as (X & _). apply (D2 i x); [now apply (NS i _ Hi)|now rewrite N2|now apply LS].
Qed.
(** directly at a POP *)
Lemma pop_direct : fewest g (sp g) -> forall d D, dget (t_demands t) d = Some D -> ((exists p, dget (sp g) d = Some p /\ List.length p = 3) <-> exists i, In i (d_sites D) /\ site_with t f (fun s => s_type s = POP) i).
Proof using Hr Hids.
  clear Psp. intros Fw d D HD. pose proof Fw as (Psp & Min). split.
  - intros (p & Ep & Hl). destruct (path_form t g (sp g) build_shape (demand_paths (sp g) Psp) d D p HD Ep) as (a & mid & s & E & Nd & Ea & Et & HS & F). assert (mid = []) by (rewrite E in Hl; cbn [List.length app] in Hl; rewrite app_length in Hl; cbn [List.length] in Hl; destruct mid; [reflexivity|cbn in Hl; lia]). subst mid.
    exists a. assert (X : arc g a d) by (apply F; rewrite E; apply step_later; constructor). apply (arc_link mcs t f Hr Hids) in X. destruct Hids as [Hd1 Hd2]. destruct (Hd1 _ _ HD) as (_ & Y & Z).
    destruct X as (e & [(_ & (s' & Es' & _) & _)|[(k & l & _ & _ & _ & _ & _ & (s' & Es' & _) & _)|(D' & E' & Hin & (s' & Es' & _ & Hst) & _)]]); [exfalso; apply Y; exists s'; exact Es'|exfalso; apply Y; exists s'; exact Es'|].
    assert (D' = D) by congruence. subst D'. split; [exact Hin|]. exists s'. split; [exact Es'|]. split; [congruence|exact Hst].
  - intros (i & Hi & Hp). assert (A1 : arc g SUPERSOURCE i) by (apply (arc_link mcs t f Hr Hids); exists ESource; left; auto).
    assert (A2 : arc g i d). { apply (arc_link mcs t f Hr Hids). exists EDemand. right. right. exists D. split; [exact HD|]. split; [exact Hi|]. split; [|reflexivity]. destruct Hp as (s & Es & _ & Hst). exists s. auto. }
    destruct Hids as [Hd1 Hd2]. destruct (Hd1 _ _ HD) as (_ & Y & Z). destruct Hp as (s & Es & Et & Hst).
    assert (Pt : path_to (arc g) d [SUPERSOURCE; i; d]).
    { exists [i]. split; [reflexivity|]. split; [|cbn; auto]. repeat constructor; cbn; [intros [X|[X|[]]]|intros [X|[]]|intros []].
      - apply Hd2. exists s. now rewrite <- X.
      - congruence.
      - apply Y. exists s. now rewrite X. }
    destruct (dget (sp g) d) as [p|] eqn:Ep; [|exfalso; destruct Psp as (_ & _ & P2); apply (P2 d Ep); exact (path_linked _ _ _ Pt)]. exists p. split; [reflexivity|]. pose proof (Min _ _ _ Ep Pt) as Lm. cbn in Lm.
    destruct (path_form t g (sp g) build_shape (demand_paths (sp g) Psp) d D p HD Ep) as (a & mid & s' & E & _). rewrite E in Lm |- *. cbn [List.length app] in *. rewrite app_length in *. cbn [List.length] in *. lia.
Qed.
Lemma routing_generic (paths : dict string (list string)) : (forall d D q, dget (t_demands t) d = Some D -> dget paths d = Some q -> path_to (arc g) d q) ->
  exists L, routing_links t paths = Ok L /\ lists_all L (on_path t paths) /\ forall k, In k L -> exists l, link_stored t k l /\ In (l_status l) f.
Proof using Hr Hids.
  clear Psp Hpop. intros HP. destruct (routing_ok t g paths build_shape) as (L & E & N & H).
  - intros u v Ha Hu Hv. destruct (build_links u v Ha Hu Hv) as (l & El & _). apply dmem_Some. exists l. exact El.
  - exact HP.
  - apply (inv_reachable t Hr).
  - exists L. split; [exact E|]. split; [split; [exact N|exact H]|]. intros k Hk. apply H in Hk. destruct Hk as (d & D & p & u & v & HD & Ep & Hi & ->).
    destruct (path_form t g paths build_shape HP d D p HD Ep) as (a & mid & s & E' & Nd & Ea & Et & HS & F). rewrite E' in Hi. apply inner_iff in Hi.
    destruct (build_links u v) as (l & El & _ & _ & Hst); [apply F; rewrite E'; apply step_later; now apply step_more|apply HS; now apply step_in in Hi|apply HS; now apply step_in in Hi|]. eauto.
Qed.
Hypothesis Fsp : fewest g (sp g).
Variable cp : graph -> dict string (list string).
Hypothesis Pcp : forall h, graph_ok h -> node h SUPERSOURCE -> paths_ok h (cp h).
Theorem routing_exact ty : exists L paths, get_topology_routing_results sp cp t g ty = Ok L /\ lists_all L (on_path t paths) /\ (forall k, In k L -> exists l, link_stored t k l /\ In (l_status l) f)
  /\ (forall d D, dget (t_demands t) d = Some D -> (dget paths d = None <-> ~ served t f d) /\ forall p, dget paths d = Some p -> path_to (arc g) d p)
  /\ match ty with SHORTEST_PATH => paths = sp g | MCS_COST_PATH => paths = cp g | DPA_PATH => forall d D p, dget (t_demands t) d = Some D -> dget paths d = Some p -> exists q pop, dget (sp g) d = Some q /\ second q = Some pop /\ second p = Some pop end.
Proof using Hr Hids Hpop Fsp Pcp.
  clear Psp. pose proof (source_in mcs t f Hr Hids Hpop) as [Hs _]. fold g in Hs. unfold get_topology_routing_results. pose proof Hs as Hs'. apply node_iff in Hs'. rewrite Hs'.
  assert (Gen : forall paths, (forall d D, dget (t_demands t) d = Some D -> (dget paths d = None -> ~ linked (arc g) d) /\ forall p, dget paths d = Some p -> path_to (arc g) d p) ->
    (forall d D, dget (t_demands t) d = Some D -> (dget paths d = None <-> ~ served t f d) /\ forall p, dget paths d = Some p -> path_to (arc g) d p)).
  { intros paths H d D HD. destruct (H d D HD) as [H1 H2]. split; [|exact H2]. split.
    - intros E Hsv. apply (H1 E). apply (connected_served mcs t f Hr Hids) in Hsv. apply Hsv.
    - intros Hn. destruct (dget paths d) as [p|] eqn:Ep; [|reflexivity]. exfalso. apply Hn. apply (connected_served mcs t f Hr Hids). fold g. pose proof (path_linked _ _ _ (H2 p eq_refl)) as Hp. split; [|exact Hp].
      destruct (build_ok mcs t f Hr Hids) as (_ & _ & _ & _ & Lb). fold g in Lb. unfold demand_node. apply Lb. split; [|right; right; eauto]. inversion Hp as [Hz|a b La Ha Hb]; [subst d; exact Hs|]. now apply (arc_nodes g _ _ build_graph_ok) in Ha. }
  assert (Plain : forall paths, paths_ok g paths -> forall d D, dget (t_demands t) d = Some D -> (dget paths d = None -> ~ linked (arc g) d) /\ forall p, dget paths d = Some p -> path_to (arc g) d p).
  { intros paths Hp d D HD. split; [apply Hp|]. intros p. now apply (demand_paths paths Hp d D). }
  destruct ty.
  - pose proof (Plain _ (Pcp g build_graph_ok Hs)) as X. destruct (routing_generic (cp g) (fun d D q HD => proj2 (X d D HD) q)) as (L & E & H1 & H2). exists L, (cp g). split; [exact E|]. split; [exact H1|]. split; [exact H2|]. split; [now apply Gen|reflexivity].
  - pose proof (Plain _ (proj1 Fsp)) as X. destruct (routing_generic (sp g) (fun d D q HD => proj2 (X d D HD) q)) as (L & E & H1 & H2). exists L, (sp g). split; [exact E|]. split; [exact H1|]. split; [exact H2|]. split; [now apply Gen|reflexivity].
  - assert (X : forall d D, dget (t_demands t) d = Some D -> (dget (dpa_paths cp g (sp g)) d = None -> ~ linked (arc g) d) /\ forall p, dget (dpa_paths cp g (sp g)) d = Some p -> path_to (arc g) d p).
    { intros d D HD. destruct (dpa_ok t g (sp g) cp build_graph_ok Hs build_shape Fsp Pcp d D HD) as [Y1 Y2]. split; [exact Y1|]. intros p Hp. now apply Y2. }
    destruct (routing_generic (dpa_paths cp g (sp g)) (fun d D q HD => proj2 (X d D HD) q)) as (L & E & H1 & H2). exists L, (dpa_paths cp g (sp g)). split; [exact E|]. split; [exact H1|]. split; [exact H2|]. split; [now apply Gen|].
    intros d D p HD Hp. destruct (dpa_ok t g (sp g) cp build_graph_ok Hs build_shape Fsp Pcp d D HD) as [_ Y2]. now apply Y2.
Qed.
End Final.
