From Coq Require Import ZArith Lia.
From Verif Require Import Base Dict MonadLib SetupModel LosRangeModel TopologyModel TopologySpec TopologyLemmas TopologyProofs TopologyQueryProofs GraphSpec GraphProofs NxModel NxSpec NxProofs NxFailProofs.
Local Open Scope list_scope.

Lemma arc_type_row g u v ty : arc_type g u v ty <-> exists a, dget (row (g_adj g) u) v = Some a /\ e_type a = ty.
Proof.
  unfold arc_type, row. split.
  - intros (r & a & -> & E). eauto.
  - destruct (dget (g_adj g) u) as [r|]; [intros (a & E & E'); eauto|intros (a & E & _); discriminate].
Qed.
Lemma arc_type_fun g u v a b : arc_type g u v a -> arc_type g u v b -> a = b.
Proof. rewrite !arc_type_row. intros (x & E & <-) (y & E' & <-). congruence. Qed.
Lemma add_node_row g u x : graph_ok g -> row (g_adj (add_node g u)) x = row (g_adj g) x.
Proof.
  intros (_ & _ & _ & N & _). unfold add_node. destruct (dmem (g_nodes g) u) eqn:E; [reflexivity|]. cbn [g_adj]. destruct (beq_spec x u) as [->|]; [|now apply row_set_neq].
  rewrite row_set_eq. unfold row. destruct (dget (g_adj g) u) as [r|] eqn:Er; [|reflexivity]. assert (node g u) as H by (apply N; eauto). apply node_iff in H. congruence.
Qed.
Lemma add_edge_row g u v a x : graph_ok g -> row (g_adj (add_edge g u v a)) x =
  if beq x u then dset (row (g_adj g) u) v (update (match dget (row (g_adj g) u) v with Some o => o | None => no_attr end) a) else row (g_adj g) x.
Proof.
  intros G. unfold add_edge. cbn [g_adj]. destruct (add_node_ok g u G) as (G1 & _). destruct (beq_spec x u) as [->|H].
  - rewrite row_set_eq, !add_node_row by assumption. reflexivity.
  - rewrite row_set_neq by exact H. rewrite !add_node_row by assumption. reflexivity.
Qed.
Lemma add_edge_type g u v a e x y ty : graph_ok g -> e_type a = Some e -> arc_type (add_edge g u v a) x y ty -> arc_type g x y ty \/ (x = u /\ y = v /\ ty = Some e).
Proof.
  intros G Ea. rewrite !arc_type_row, add_edge_row by exact G. destruct (beq_spec x u) as [->|]; [|auto]. intros (b & E & <-). rewrite dget_set in E. destruct (beq_spec y v) as [->|]; [|left; eauto].
  injection E as <-. right. unfold update. cbn [e_type]. rewrite Ea. auto.
Qed.
Section Stage.
Context {A : Type}.
Variables (c : A -> bool) (u v : A -> string) (ty : A -> etype) (a : A -> eattr).
Hypothesis Ha : forall q, e_type (a q) = Some (ty q).
Lemma stage_ok l : forall g, graph_ok g -> let g' := fold_left (fun g q => if c q then add_edge g (u q) (v q) (a q) else g) l g in
  graph_ok g' /\ (forall x y, arc g' x y <-> arc g x y \/ exists q, In q l /\ c q = true /\ x = u q /\ y = v q)
  /\ (forall x y e, arc_type g' x y e -> arc_type g x y e \/ exists q, In q l /\ c q = true /\ x = u q /\ y = v q /\ e = Some (ty q))
  /\ (forall x, node g' x <-> node g x \/ exists q, In q l /\ c q = true /\ (x = u q \/ x = v q))
  /\ (forall x n, dget (g_nodes g') x = Some (Some n) <-> dget (g_nodes g) x = Some (Some n)).
Proof using Ha.
  induction l as [|q l IH]; intros g G g'; cbn [fold_left] in g'.
  - unfold g'. split; [exact G|]. split; [|split; [|split; [|tauto]]].
    + intros x y. split; [auto|intros [H|(q & [] & _)]; exact H].
    + auto.
    + intros x. split; [auto|intros [H|(q & [] & _)]; exact H].
  - destruct (c q) eqn:Ec.
    + destruct (add_edge_ok g (u q) (v q) (a q) G) as (G1 & A1 & N1 & T1). destruct (IH _ G1) as (G2 & A2 & E2 & N2 & T2). fold g' in G2, A2, E2, N2, T2. split; [exact G2|]. split; [|split; [|split]].
      * intros x y. rewrite A2, A1. split.
        { intros [[H|[-> ->]]|(p & H1 & H2)]; [auto|right; exists q; cbn; auto|right; exists p; cbn; tauto]. }
        { intros [H|(p & [<-|H1] & H2 & -> & ->)]; [auto|auto|]. right. exists p. auto. }
      * intros x y e H. apply E2 in H. destruct H as [H|(p & H1 & H2)]; [|right; exists p; cbn; tauto]. apply (add_edge_type _ _ _ _ (ty q)) in H; [|exact G|apply Ha].
        destruct H as [H|(-> & -> & ->)]; [auto|]. right. exists q. cbn. auto 6.
      * intros x. rewrite N2, N1. split.
        { intros [[H|H]|(p & H1 & H2)]; [auto|right; exists q; cbn; tauto|right; exists p; cbn; tauto]. }
        { intros [H|(p & [<-|H1] & H2 & H3)]; [auto|tauto|]. right. exists p. auto. }
      * intros x n. rewrite T2. apply T1.
    + destruct (IH g G) as (G2 & A2 & E2 & N2 & T2). fold g' in G2, A2, E2, N2, T2. split; [exact G2|]. split; [|split; [|split]].
      * intros x y. rewrite A2. split; [intros [H|(p & H1 & H2)]; [auto|right; exists p; cbn; tauto]|]. intros [H|(p & [<-|H1] & H2 & H3)]; [auto|congruence|right; exists p; auto].
      * intros x y e H. apply E2 in H. destruct H as [H|(p & H1 & H2)]; [auto|right; exists p; cbn; tauto].
      * intros x. rewrite N2. split; [intros [H|(p & H1 & H2)]; [auto|right; exists p; cbn; tauto]|]. intros [H|(p & [<-|H1] & H2 & H3)]; [auto|congruence|right; exists p; auto].
      * exact T2.
Qed.
End Stage.
Lemma set_types_ok l g : graph_ok g -> graph_ok (set_types l g) /\ (forall x y, arc (set_types l g) x y <-> arc g x y) /\ (forall x y e, arc_type (set_types l g) x y e <-> arc_type g x y e)
  /\ (forall x, node (set_types l g) x <-> node g x) /\ (forall x, ~ In x (map fst l) -> dget (g_nodes (set_types l g)) x = dget (g_nodes g) x)
  /\ (forall x n, node g x -> In (x, n) l -> (forall n', In (x, n') l -> n' = n) -> dget (g_nodes (set_types l g)) x = Some (Some n)).
Proof.
  intros G.
  assert (K : forall l d x, (exists ty, dget (fold_left (fun d (q : string * ntype) => if dmem d (fst q) then dset d (fst q) (Some (snd q)) else d) l d) x = Some ty) <-> exists ty, dget d x = Some ty).
  { clear. induction l as [|q l IH]; intros d x; cbn [fold_left]; [tauto|]. rewrite IH. destruct (dmem d (fst q)) eqn:E; [|tauto]. rewrite dget_set. destruct (beq_spec x (fst q)) as [->|]; [|tauto]. apply dmem_Some in E. split; eauto. }
  assert (W : forall l d, dwf d -> dwf (fold_left (fun d (q : string * ntype) => if dmem d (fst q) then dset d (fst q) (Some (snd q)) else d) l d)).
  { clear. induction l as [|q l IH]; intros d Wd; cbn [fold_left]; [exact Wd|]. apply IH. destruct (dmem d (fst q)); [now apply dwf_set|exact Wd]. }
  assert (O : forall l d x, ~ In x (map fst l) -> dget (fold_left (fun d (q : string * ntype) => if dmem d (fst q) then dset d (fst q) (Some (snd q)) else d) l d) x = dget d x).
  { clear. induction l as [|q l IH]; intros d x H; cbn [fold_left]; [reflexivity|]. cbn [map In] in H. rewrite IH by tauto. destruct (dmem d (fst q)); [|reflexivity]. apply dget_set_neq. intros E. apply H. auto. }
  assert (Y : forall l d x n, (exists ty, dget d x = Some ty) -> In (x, n) l -> (forall n', In (x, n') l -> n' = n) -> dget (fold_left (fun d (q : string * ntype) => if dmem d (fst q) then dset d (fst q) (Some (snd q)) else d) l d) x = Some (Some n)).
  { clear -O. induction l as [|[y m] l IH]; intros d x n Hx Hin Hu; cbn [fold_left fst snd]; [destruct Hin|].
    destruct (mem x (map fst l)) eqn:Em.
    - apply mem_In, in_map_iff in Em. destruct Em as ([x' n'] & Ex & Hm). cbn [fst] in Ex. subst x'. assert (n' = n) by (apply Hu; now right). subst n'. apply IH; [|exact Hm|intros n' H; apply Hu; now right].
      destruct (dmem d y) eqn:Ed; [|exact Hx]. rewrite dget_set. destruct (beq x y); eauto.
    - apply mem_not_In in Em. rewrite O by exact Em. destruct Hin as [E|H]; [|exfalso; apply Em; apply in_map_iff; exists (x, n); auto]. injection E as -> ->.
      apply dmem_Some in Hx. rewrite Hx. apply dget_set_eq. }
  pose proof G as (W1 & W2 & W3 & N & A). unfold set_types.
  assert (HN : forall x, node (mkG (fold_left (fun d (q : string * ntype) => if dmem d (fst q) then dset d (fst q) (Some (snd q)) else d) l (g_nodes g)) (g_adj g)) x <-> node g x) by (intros x; apply K).
  split; [|split; [|split; [|split; [|split]]]].
  - split; [cbn [g_nodes]; now apply W|]. split; [exact W2|]. split; [exact W3|]. split; [intros x; rewrite HN; apply N|]. intros x y H. apply HN. now apply (A x).
  - intros x y. reflexivity.
  - intros x y e. reflexivity.
  - exact HN.
  - intros x H. cbn [g_nodes]. now apply O.
  - intros x n H1 H2 H3. cbn [g_nodes]. now apply Y.
Qed.
Lemma empty_ok : graph_ok (mkG [] []).
Proof. split; [apply dwf_nil|]. split; [apply dwf_nil|]. split; [discriminate|]. split; [intros u; split; intros [x E]; discriminate|]. intros u v (r & a & E & _). discriminate. Qed.
Lemma fold_flat {A B C} (f : A -> B -> C -> A) (h : B -> list C) l : forall g, fold_left (fun g q => fold_left (fun g i => f g q i) (h q) g) l g = fold_left (fun g p => f g (fst p) (snd p)) (flat_map (fun q => map (fun i => (q, i)) (h q)) l) g.
Proof.
  induction l as [|q l IH]; intros g; cbn [fold_left flat_map]; [reflexivity|]. rewrite fold_left_app, IH. f_equal. generalize g. induction (h q) as [|i r IH']; intros g0; cbn [map fold_left fst snd]; [reflexivity|]. apply IH'.
Qed.
Section Build.
Variables (mcs : string -> Z) (t : topo) (f : list status).
Hypothesis Hr : reachable t.
Hypothesis Hids : ids_apart t.
Let g := build_digraph mcs t f.
Lemma status_in_iff i : status_in f t i = true <-> site_with t f (fun _ => True) i.
Proof using. unfold status_in, site_with. destruct (dget (t_sites t) i) as [s|]; [|split; [discriminate|intros (s & E & _); discriminate]]. rewrite mem_In. split; [eauto|]. intros (s' & E & _ & H). injection E as <-. exact H. Qed.
Lemma site_in i s : In (i, s) (t_sites t) <-> dget (t_sites t) i = Some s.
Proof using Hr. pose proof (inv_reachable t Hr) as HI. rewrite <- dget_In_iff by apply HI. reflexivity. Qed.
Lemma link_in i s : In (i, s) (t_links t) <-> link_stored t i s.
Proof using Hr. pose proof (inv_reachable t Hr) as HI. rewrite <- dget_In_iff by apply HI. reflexivity. Qed.
Lemma demand_in i s : In (i, s) (t_demands t) <-> dget (t_demands t) i = Some s.
Proof using Hr. pose proof (inv_reachable t Hr) as HI. rewrite <- dget_In_iff by apply HI. reflexivity. Qed.
Lemma site_id_eq i s : dget (t_sites t) i = Some s -> s_id s = i.
Proof using Hr. intros H. pose proof (wf_reachable t Hr) as (_ & _ & _ & _ & _ & (C & _)). now apply C. Qed.
Theorem build_ok : graph_ok g
  /\ (forall u v e, arc_type g u v (Some e) <-> arc_of t f u v e) /\ (forall u v, arc g u v <-> exists e, arc_of t f u v e)
  /\ (forall x, node g x <-> exists y, arc g x y \/ arc g y x)
  /\ (forall x n, dget (g_nodes g) x = Some n <-> node g x /\ node_label t f x n).
Proof using Hr Hids.
  unfold g, build_digraph.
  (* the five stages *)
  destruct (stage_ok (fun q : string * site => beq (s_type (snd q)) POP && mem (s_status (snd q)) f) (fun _ => SUPERSOURCE) fst (fun _ => ESource) (fun _ => mkE (Some ESource) (Some (Some 1%Z))) (fun _ => eq_refl) (t_sites t) _ empty_ok) as (G1 & A1 & E1 & N1 & T1).
  change (fold_left _ (t_sites t) (mkG [] [])) with (source_edges f t (mkG [] [])) in G1, A1, E1, N1, T1. set (g1 := source_edges f t (mkG [] [])) in *.
  destruct (set_types_ok [(SUPERSOURCE, NSource)] g1 G1) as (G2 & A2 & E2 & N2 & O2 & Y2). set (g2 := set_types [(SUPERSOURCE, NSource)] g1) in *.
  destruct (stage_ok (fun q : string * link => mem (l_status (snd q)) f && status_in f t (l_tx (snd q)) && status_in f t (l_rx (snd q))) (fun q => l_tx (snd q)) (fun q => l_rx (snd q)) (fun q => ELink (l_type (snd q)))
     (fun q => mkE (Some (ELink (l_type (snd q)))) (Some (mcs_to_cost (mcs (l_id (snd q)))))) (fun _ => eq_refl) (t_links t) _ G2) as (G3 & A3 & E3 & N3 & T3).
  change (fold_left _ (t_links t) g2) with (link_edges mcs f t g2) in G3, A3, E3, N3, T3. set (g3 := link_edges mcs f t g2) in *.
  destruct (set_types_ok (map (fun q => (s_id (snd q), NSite (s_type (snd q)))) (t_sites t)) g3 G3) as (G4 & A4 & E4 & N4 & O4 & Y4). set (g4 := set_types _ g3) in *.
  destruct (stage_ok (fun p : (string * demand) * string => status_in f t (snd p)) snd (fun p => fst (fst p)) (fun _ => EDemand) (fun _ => mkE (Some EDemand) (Some (Some 1%Z))) (fun _ => eq_refl)
     (flat_map (fun q => map (fun i => (q, i)) (d_sites (snd q))) (t_demands t)) _ G4) as (G5 & A5 & E5 & N5 & T5).
  rewrite <- (fold_flat (fun g (q : string * demand) i => if status_in f t i then add_edge g i (fst q) (mkE (Some EDemand) (Some (Some 1%Z))) else g) (fun q => d_sites (snd q)) (t_demands t) g4) in G5, A5, E5, N5, T5.
  change (fold_left _ (t_demands t) g4) with (demand_edges f t g4) in G5, A5, E5, N5, T5. set (g5 := demand_edges f t g4) in *.
  destruct (set_types_ok (map (fun q => (d_id (snd q), NDemand)) (t_demands t)) g5 G5) as (G6 & A6 & E6 & N6 & O6 & Y6). set (g6 := set_types _ g5) in *.
  destruct Hids as [Hd1 Hd2].
  assert (Q1 : forall x y, (exists q : string * site, In q (t_sites t) /\ beq (s_type (snd q)) POP && mem (s_status (snd q)) f = true /\ x = SUPERSOURCE /\ y = fst q) <-> x = SUPERSOURCE /\ site_with t f (fun s => s_type s = POP) y).
  { intros x y. split.
    - intros ([i s] & H & Hc & -> & ->). cbn [fst snd] in *. split; [reflexivity|]. apply andb_true_iff in Hc. destruct Hc as [Hc1 Hc2]. apply beq_true in Hc1. apply mem_In in Hc2. exists s. split; [now apply site_in|auto].
    - intros (-> & s & H1 & H2 & H3). exists (y, s). split; [now apply site_in|]. cbn [fst snd]. split; [|auto]. apply andb_true_iff. split; [rewrite H2; reflexivity|now apply mem_In]. }
  assert (Q2 : forall x y e, (exists q : string * link, In q (t_links t) /\ mem (l_status (snd q)) f && status_in f t (l_tx (snd q)) && status_in f t (l_rx (snd q)) = true /\ x = l_tx (snd q) /\ y = l_rx (snd q) /\ e = ELink (l_type (snd q))) <->
     exists k l, link_stored t k l /\ l_tx l = x /\ l_rx l = y /\ In (l_status l) f /\ site_with t f (fun _ => True) x /\ site_with t f (fun _ => True) y /\ e = ELink (l_type l)).
  { intros x y e. split.
    - intros ([k l] & H & Hc & -> & -> & ->). cbn [fst snd] in *. apply andb_true_iff in Hc. destruct Hc as [Hc Hc3]. apply andb_true_iff in Hc. destruct Hc as [Hc1 Hc2]. apply mem_In in Hc1. apply status_in_iff in Hc2. apply status_in_iff in Hc3.
      exists k, l. split; [now apply link_in|auto 8].
    - intros (k & l & H & <- & <- & H1 & H2 & H3 & ->). exists (k, l). split; [now apply link_in|]. cbn [fst snd]. split; [|auto]. apply status_in_iff in H2. apply status_in_iff in H3. apply mem_In in H1. rewrite H1, H2, H3. reflexivity. }
  assert (Q3 : forall x y, (exists p : (string * demand) * string, In p (flat_map (fun q => map (fun i => (q, i)) (d_sites (snd q))) (t_demands t)) /\ status_in f t (snd p) = true /\ x = snd p /\ y = fst (fst p)) <->
     exists d, dget (t_demands t) y = Some d /\ In x (d_sites d) /\ site_with t f (fun _ => True) x).
  { intros x y. split.
    - intros ([[k d] i] & H & Hc & -> & ->). cbn [fst snd] in *. apply in_flat_map in H. destruct H as ([k' d'] & H1 & H2). apply in_map_iff in H2. destruct H2 as (i' & E & H2). cbn [snd] in *. injection E as -> -> ->.
      exists d. split; [now apply demand_in|]. split; [exact H2|now apply status_in_iff].
    - intros (d & H1 & H2 & H3). exists ((y, d), x). cbn [fst snd]. split; [|split; [now apply status_in_iff|auto]]. apply in_flat_map. exists (y, d). split; [now apply demand_in|]. apply in_map_iff. exists x. auto. }
  assert (NE : forall x y, ~ arc (mkG [] []) x y) by (intros x y (r & a & E & _); discriminate).
  (* arcs *)
  assert (HA : forall u v, arc g6 u v <-> exists e, arc_of t f u v e).
  { intros u v. rewrite A6, A5, A4, A3, A2, A1, Q1, Q3. unfold arc_of. split.
    - intros [[[H|H]|(q & H1 & H2 & H3 & H4)]|H]; [destruct (NE _ _ H)|exists ESource; left; tauto| |].
      + exists (ELink (l_type (snd q))). right. left. apply Q2. exists q. auto.
      + exists EDemand. right. right. destruct H as (d & H1 & H2 & H3). exists d. auto.
    - intros (e & [(H1 & H2 & _)|[H|(d & H1 & H2 & H3 & _)]]).
      + left. left. right. auto.
      + left. right. apply Q2 in H. destruct H as (q & H1 & H2 & H3 & H4 & _). exists q. auto.
      + right. exists d. auto. }
  assert (HT : forall u v ty, arc_type g6 u v ty -> exists e, ty = Some e /\ arc_of t f u v e).
  { intros u v ty H. apply E6, E5 in H. destruct H as [H|(p & H1 & H2 & H3 & H4 & ->)].
    - apply E4, E3 in H. destruct H as [H|(q & H1 & H2 & H3 & H4 & ->)].
      + apply E2, E1 in H. destruct H as [(r & a & H & _)|(q & H1 & H2 & H3 & H4 & ->)]; [discriminate|]. exists ESource. split; [reflexivity|]. left. assert (X := proj1 (Q1 u v) (ex_intro _ q (conj H1 (conj H2 (conj H3 H4))))). tauto.
      + exists (ELink (l_type (snd q))). split; [reflexivity|]. right. left. apply Q2. exists q. auto.
    - exists EDemand. split; [reflexivity|]. right. right. destruct (proj1 (Q3 u v) (ex_intro _ p (conj H1 (conj H2 (conj H3 H4))))) as (d & X1 & X2 & X3). exists d. auto. }
  assert (HU : forall u v e e', arc_of t f u v e -> arc_of t f u v e' -> e = e').
  { assert (SS : ~ site_with t f (fun _ => True) SUPERSOURCE) by (intros (s & H & _); apply Hd2; exists s; exact H).
    assert (SD : forall v d P, dget (t_demands t) v = Some d -> ~ site_with t f P v) by (intros v d P H (s & H' & _); destruct (Hd1 v d H) as (_ & X & _); apply X; exists s; exact H').
    intros u v e e' [(-> & H1 & ->)|[(k & l & H1 & <- & <- & H2 & H3 & H4 & ->)|(d & H1 & H2 & H3 & ->)]] [(X & Z1 & ->)|[(k' & l' & Z1 & Z2 & Z3 & Z4 & Z5 & Z6 & ->)|(d' & Z1 & Z2 & Z3 & ->)]]; try reflexivity.
    - contradiction.
    - contradiction.
    - rewrite X in H3. contradiction.
    - pose proof (inv_reachable t Hr) as HI. destruct (link_unique t k l k' l' HI H1 Z1) as [_ ->]; auto.
    - destruct (SD _ _ _ Z1 H4).
    - subst u. contradiction.
    - destruct (SD _ _ _ H1 Z6). }
  assert (HN0 : forall x, node (mkG [] []) x -> False) by (intros x [y E]; discriminate).
  assert (HN : forall x, node g6 x <-> exists y, arc g6 x y \/ arc g6 y x).
  { intros x. split.
    - intros H. apply N6, N5 in H. destruct H as [H|(p & H1 & H2 & H3)].
      + apply N4, N3 in H. destruct H as [H|(q & H1 & H2 & H3)].
        * apply N2, N1 in H. destruct H as [H|(q & H1 & H2 & H3)]; [destruct (HN0 _ H)|].
          assert (X : arc g6 SUPERSOURCE (fst q)) by (apply A6, A5; left; apply A4, A3; left; apply A2, A1; right; exists q; auto). destruct H3 as [-> | ->]; eauto.
        * assert (X : arc g6 (l_tx (snd q)) (l_rx (snd q))) by (apply A6, A5; left; apply A4, A3; right; exists q; auto). destruct H3 as [-> | ->]; eauto.
      + assert (X : arc g6 (snd p) (fst (fst p))) by (apply A6, A5; right; exists p; auto). destruct H3 as [-> | ->]; eauto.
    - intros (y & [H|H]); now apply (arc_nodes g6 _ _ G6) in H. }
  split; [exact G6|]. split; [|split; [exact HA|split; [exact HN|]]].
  - intros u v e. split.
    + intros H. destruct (HT _ _ _ H) as (e' & E & X). congruence.
    + intros H. assert (X : arc g6 u v) by (apply HA; eauto). apply arc_typed in X. destruct X as [ty X]. destruct (HT _ _ _ X) as (e' & -> & Y). now rewrite (HU _ _ _ _ H Y).
  - (* node types *)
    assert (S1 : node g6 SUPERSOURCE -> node g1 SUPERSOURCE).
    { intros H. apply HN in H. destruct H as (y & [H|H]); apply HA in H; destruct H as (e & [(H1 & H2 & _)|[(k & l & H1 & H2 & H3 & H4 & H5 & H6 & _)|(d & H1 & H2 & H3 & _)]]).
      - assert (X : arc g1 SUPERSOURCE y) by (apply A1; right; apply Q1; auto). now apply (arc_nodes g1 _ _ G1) in X.
      - exfalso. apply Hd2. destruct H5 as (s & H5 & _). exists s. exact H5.
      - exfalso. apply Hd2. destruct H3 as (s & H3 & _). exists s. exact H3.
      - exfalso. apply Hd2. destruct H2 as (s & H2 & _). exists s. exact H2.
      - exfalso. apply Hd2. destruct H6 as (s & H6 & _). exists s. exact H6.
      - exfalso. destruct (Hd1 _ _ H1) as (_ & _ & X). contradiction. }
    assert (Kind : forall x, node g6 x -> x = SUPERSOURCE \/ (exists s, dget (t_sites t) x = Some s) \/ (exists d, dget (t_demands t) x = Some d)).
    { intros x H. apply HN in H. destruct H as (y & [H|H]); apply HA in H; destruct H as (e & [(H1 & H2 & _)|[(k & l & H1 & H2 & H3 & H4 & H5 & H6 & _)|(d & H1 & H2 & H3 & _)]]); auto.
      - right. left. destruct H5 as (s & H5 & _). eauto.
      - right. left. destruct H3 as (s & H3 & _). eauto.
      - right. left. destruct H2 as (s & H2 & _). eauto.
      - right. left. destruct H6 as (s & H6 & _). eauto.
      - right. right. eauto. }
    assert (In4 : forall x n, In (x, n) (map (fun q : string * site => (s_id (snd q), NSite (s_type (snd q)))) (t_sites t)) <-> exists s, dget (t_sites t) x = Some s /\ n = NSite (s_type s)).
    { intros x n. rewrite in_map_iff. split.
      - intros ([i s] & E & H). cbn [snd] in E. injection E as <- <-. apply site_in in H. exists s. split; [|reflexivity]. now rewrite (site_id_eq i s H).
      - intros (s & H & ->). exists (x, s). cbn [snd]. rewrite (site_id_eq x s H). split; [reflexivity|now apply site_in]. }
    assert (In6 : forall x n, In (x, n) (map (fun q : string * demand => (d_id (snd q), NDemand)) (t_demands t)) <-> (exists d, dget (t_demands t) x = Some d) /\ n = NDemand).
    { intros x n. rewrite in_map_iff. split.
      - intros ([i s] & E & H). cbn [snd] in E. injection E as <- <-. apply demand_in in H. split; [|reflexivity]. exists s. now rewrite (proj1 (Hd1 i s H)).
      - intros ((s & H) & ->). exists (x, s). cbn [snd]. rewrite (proj1 (Hd1 x s H)). split; [reflexivity|now apply demand_in]. }
    assert (Keys4 : forall x, In x (map fst (map (fun q : string * site => (s_id (snd q), NSite (s_type (snd q)))) (t_sites t))) <-> exists s, dget (t_sites t) x = Some s).
    { intros x. rewrite in_map_iff. split; [intros ([x' n] & <- & H); apply In4 in H; destruct H as (s & H & _); eauto|intros (s & H); exists (x, NSite (s_type s)); split; [reflexivity|apply In4; eauto]]. }
    assert (Keys6 : forall x, In x (map fst (map (fun q : string * demand => (d_id (snd q), NDemand)) (t_demands t))) <-> exists s, dget (t_demands t) x = Some s).
    { intros x. rewrite in_map_iff. split; [intros ([x' n] & <- & H); apply In6 in H; tauto|intros (s & H); exists (x, NDemand); split; [reflexivity|apply In6; eauto]]. }
    assert (Val : forall x, node g6 x -> exists n, dget (g_nodes g6) x = Some n /\ ((x = SUPERSOURCE /\ n = Some NSource) \/ (exists s, dget (t_sites t) x = Some s /\ site_label t f x s n) \/ (exists d, dget (t_demands t) x = Some d /\ n = Some NDemand))).
    { intros x H. destruct (Kind x H) as [->|[(s & Hs)|(d & Hd)]].
      - exists (Some NSource). split; [|auto]. rewrite O6; [|rewrite Keys6; intros (d & Hd); destruct (Hd1 _ _ Hd) as (_ & _ & X); contradiction].
        apply T5. rewrite O4; [|rewrite Keys4; exact Hd2]. apply T3. apply Y2; [auto|now left|]. intros n' [E|[]]. congruence.
      - assert (J : node g3 x <-> joined_up t f x).
        { split.
          - intros X. apply N3 in X. destruct X as [X|(q & X1 & X2 & X3)].
            + apply N2, N1 in X. destruct X as [X|(q & X1 & X2 & X3)]; [destruct (HN0 _ X)|]. assert (Y := proj1 (Q1 SUPERSOURCE (fst q)) (ex_intro _ q (conj X1 (conj X2 (conj eq_refl eq_refl))))).
              destruct X3 as [->|X3]; [exfalso; apply Hd2; exists s; exact Hs|]. exists SUPERSOURCE, ESource. split; [|discriminate]. right. left. rewrite X3. tauto.
            + assert (Y := proj1 (Q2 _ _ _) (ex_intro _ q (conj X1 (conj X2 (conj eq_refl (conj eq_refl eq_refl)))))). destruct X3 as [X3|X3]; rewrite X3.
              * exists (l_rx (snd q)), (ELink (l_type (snd q))). split; [left; right; left; exact Y|discriminate].
              * exists (l_tx (snd q)), (ELink (l_type (snd q))). split; [right; right; left; exact Y|discriminate].
          - intros (y & e & [[(H1 & H2 & _)|[X|(d & _ & _ & _ & ->)]]|[(H1 & H2 & _)|[X|(d & _ & _ & _ & ->)]]] & He); try (now destruct He).
            + exfalso. apply Hd2. exists s. now rewrite <- H1.
            + apply Q2 in X. destruct X as (q & X1 & X2 & X3 & X4 & _). apply N3. right. exists q. auto.
            + assert (X : arc g1 y x) by (apply A1; right; apply Q1; auto). apply (arc_nodes g1 _ _ G1) in X. apply N3. left. now apply N2.
            + apply Q2 in X. destruct X as (q & X1 & X2 & X3 & X4 & _). apply N3. right. exists q. auto. }
        assert (K6 : dget (g_nodes g6) x = dget (g_nodes g5) x) by (apply O6; rewrite Keys6; intros (d & Hd); destruct (Hd1 _ _ Hd) as (_ & X & _); apply X; exists s; exact Hs).
        destruct (dmem (g_nodes g3) x) eqn:Em.
        + apply node_iff in Em. exists (Some (NSite (s_type s))). split; [|right; left; exists s; split; [exact Hs|left; tauto]].
          rewrite K6. apply T5. apply Y4; [exact Em|apply In4; eauto|intros n' Hn'; apply In4 in Hn'; destruct Hn' as (s' & E & ->); congruence].
        + assert (X : ~ node g3 x) by (rewrite <- node_iff; congruence). exists None. split; [|right; left; exists s; split; [exact Hs|right; tauto]].
          rewrite K6. assert (X5 : node g5 x) by now apply N6. destruct X5 as [[n|] E]; [|exact E]. exfalso. apply T5 in E. apply X, N4. exists (Some n). exact E.
      - exists (Some NDemand). split; [|right; right; eauto]. apply Y6; [now apply N6|apply In6; eauto|intros n' Hn'; apply In6 in Hn'; tauto]. }
    intros x n. unfold node_label. split.
    + intros H. assert (Hx : node g6 x) by (exists n; exact H). destruct (Val x Hx) as (n' & E & V). assert (n = n') by congruence. subst n'. auto.
    + intros [Hx V]. destruct (Val x Hx) as (n' & E & V'). rewrite E. f_equal.
      assert (F1 : forall s, dget (t_sites t) x = Some s -> x <> SUPERSOURCE) by (intros s Es ->; apply Hd2; exists s; exact Es).
      assert (F2 : forall d, dget (t_demands t) x = Some d -> x <> SUPERSOURCE) by (intros d Ed ->; destruct (Hd1 _ _ Ed) as (_ & _ & X); now apply X).
      assert (F3 : forall s d, dget (t_sites t) x = Some s -> dget (t_demands t) x = Some d -> False) by (intros s d Es Ed; destruct (Hd1 _ _ Ed) as (_ & X & _); apply X; exists s; exact Es).
      destruct V as [[X ->]|[(s & Es & V)|(d & Ed & ->)]], V' as [[X' ->]|[(s' & Es' & V')|(d' & Ed' & ->)]]; try reflexivity; try (exfalso; eauto; fail).
      * destruct (F1 _ Es' X).
      * destruct (F2 _ Ed' X).
      * destruct (F1 _ Es X').
      * assert (s' = s) by congruence. subst s'. destruct V as [[V ->]|[V ->]], V' as [[V' ->]|[V' ->]]; tauto.
      * destruct (F2 _ Ed X').
Qed.
Lemma arc_link u v : arc g u v <-> exists e, arc_of t f u v e.
Proof using Hr Hids. now destruct build_ok as (_ & _ & H & _). Qed.
Lemma source_in : (exists i, site_with t f (fun s => s_type s = POP) i) -> source_ok g.
Proof using Hr Hids.
  intros [i H]. destruct build_ok as (G & _ & A & N & L). assert (X : arc g SUPERSOURCE i) by (apply A; exists ESource; left; auto). destruct (arc_nodes g _ _ G X) as [X1 _]. split; [exact X1|].
  intros Y. apply L in Y. destruct Y as [_ [(_ & E)|[(s & E & _)|(d & E & _)]]]; [discriminate| |].
  - destruct Hids as [_ Hd2]. apply Hd2. exists s. exact E.
  - destruct Hids as [Hd1 _]. now destruct (Hd1 _ _ E) as (_ & _ & Z).
Qed.
Lemma source_out : (forall i, ~ site_with t f (fun s => s_type s = POP) i) -> ~ node g SUPERSOURCE.
Proof using Hr Hids.
  intros H Hn. destruct build_ok as (G & _ & A & N & L). destruct Hids as [Hd1 Hd2]. apply N in Hn. destruct Hn as (y & [X|X]); apply A in X; destruct X as (e & [(H1 & H2 & _)|[(k & l & H1 & H2 & H3 & H4 & H5 & H6 & _)|(d & H1 & H2 & H3 & _)]]).
  - exact (H _ H2).
  - apply Hd2. destruct H5 as (s & H5 & _). exists s. exact H5.
  - apply Hd2. destruct H3 as (s & H3 & _). exists s. exact H3.
  - exact (H _ H2).
  - apply Hd2. destruct H6 as (s & H6 & _). exists s. exact H6.
  - now destruct (Hd1 _ _ H1) as (_ & _ & X).
Qed.
Lemma route_status i n : route t (Some f) i n -> site_with t f (fun _ => True) i.
Proof using. intros R. inversion R as [? s E Et Ha|? ? k l s R' E Et Ha Es Has]; subst; exists s; auto. Qed.
Lemma route_linked i n : route t (Some f) i n -> linked (arc g) i.
Proof using Hr Hids.
  intros R. induction R as [i s E Et Ha|i n k l s R IH E Et Ha Es Has].
  - eapply linked_step; [constructor|]. apply arc_link. exists ESource. left. split; [reflexivity|]. split; [exists s; auto|reflexivity].
  - eapply linked_step; [exact IH|]. apply arc_link. exists (ELink (l_type l)). right. left. exists k, l. split; [exact E|]. split; [exact Et|]. split; [reflexivity|]. split; [exact Ha|].
    split; [now apply (route_status i n)|]. split; [exists s; auto|reflexivity].
Qed.
Lemma linked_route x : linked (arc g) x -> x = SUPERSOURCE \/ (exists n, route t (Some f) x n) \/ served t f x.
Proof using Hr Hids.
  destruct Hids as [Hd1 Hd2]. intros L. induction L as [|u v L IH Ha]; [now left|]. right. apply arc_link in Ha. destruct Ha as (e & [(-> & (s & E & Et & Es) & _)|[(k & l & E & <- & <- & Es & (s1 & E1 & _) & (s2 & E2 & _ & Es2) & _)|(D & E & Hi & (s & Es & _) & _)]]).
  - left. exists 0. now apply (route_pop t (Some f) v s).
  - left. destruct IH as [X|[(n & R)|(D & i & n & E' & _)]].
    + exfalso. apply Hd2. exists s1. now rewrite <- X.
    + exists (S n). now apply (route_link t (Some f) (l_tx l) n k l s2).
    + exfalso. destruct (Hd1 _ _ E') as (_ & X & _). apply X. exists s1. exact E1.
  - right. destruct IH as [->|[(n & R)|(D' & i & n & E' & _)]].
    + exfalso. apply Hd2. exists s. exact Es.
    + exists D, u, n. auto.
    + exfalso. destruct (Hd1 _ _ E') as (_ & X & _). apply X. exists s. exact Es.
Qed.
Theorem connected_served d : connected_demand g (arc g) d <-> served t f d.
Proof using Hr Hids.
  destruct build_ok as (G & _ & A & N & L). split.
  - intros [Hd Hl]. unfold demand_node in Hd. apply L in Hd. destruct Hd as [Hn [(_ & E)|[(s & E & [[_ E']|[_ E']])|(D & E & _)]]]; try discriminate.
    destruct Hids as [Hd1 Hd2]. destruct (Hd1 _ _ E) as (_ & X & X'). destruct (linked_route d Hl) as [Y|[(n & R)|Y]]; [contradiction| |exact Y]. exfalso. apply X. destruct (route_status _ _ R) as (s & Es & _). exists s. exact Es.
  - intros (D & i & n & E & Hi & R). assert (X : arc g i d) by (apply A; exists EDemand; right; right; exists D; split; [exact E|]; split; [exact Hi|]; split; [now apply (route_status i n)|reflexivity]).
    split; [|eapply linked_step; [apply (route_linked i n R)|exact X]]. unfold demand_node. apply L. split; [now destruct (arc_nodes g _ _ G X)|]. right. right. eauto.
Qed.
Lemma no_self : (forall k l, link_stored t k l -> l_tx l <> l_rx l) -> no_loops g.
Proof using Hr Hids.
  intros H u X. apply arc_link in X. destruct Hids as [Hd1 Hd2]. destruct X as (e & [(-> & (s & E & _) & _)|[(k & l & E & E1 & E2 & _)|(D & E & Hi & (s & Es & _) & _)]]).
  - apply Hd2. exists s. exact E.
  - apply (H k l E). congruence.
  - destruct (Hd1 _ _ E) as (_ & X & _). apply X. exists s. exact Es.
Qed.
End Build.
