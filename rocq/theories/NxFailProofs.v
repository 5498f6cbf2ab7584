From Coq Require Import Lia.
From Verif Require Import Base Dict MonadLib SetupModel LosRangeModel TopologyModel TopologySpec TopologyLemmas TopologyProofs GraphSpec GraphProofs NxModel NxSpec NxProofs.
Local Open Scope list_scope.

Lemma edges_In g u v ty : graph_ok g -> (In (u, v, ty) (edges g) <-> arc_type g u v ty).
Proof.
  intros (_ & W2 & W3 & _). unfold edges. rewrite in_flat_map. split.
  - intros ([u' r] & H1 & H2). apply in_map_iff in H2. destruct H2 as ([v' a] & E & H2). cbn [fst snd] in *. injection E as -> -> <-.
    apply In_dget in H1; [|exact W2]. exists r, a. split; [exact H1|]. split; [|reflexivity]. apply In_dget; eauto.
  - intros (r & a & E1 & E2 & <-). exists (u, r). split; [now apply dget_In|]. apply in_map_iff. exists (v, a). split; [reflexivity|now apply dget_In].
Qed.
Lemma arc_typed g u v : arc g u v <-> exists ty, arc_type g u v ty.
Proof. split; [intros (r & a & E1 & E2); exists (e_type a), r, a; auto|intros (ty & r & a & E1 & E2 & _); exists r, a; auto]. Qed.
Lemma skipped_iff ty : skipped ty = false <-> ty <> Some ESource /\ ty <> Some EDemand /\ ty <> Some (ELink WIRELESS_ACCESS) /\ ty <> Some (ELink ETHERNET).
Proof. destruct ty as [[|[]|]|]; cbn; split; try (intros H; discriminate H); try reflexivity; try (intros _; repeat split; discriminate); intros (A & B & C & D); congruence. Qed.
Lemma sorted_edge_pair u v : sorted_pair (sorted_edge u v) u v.
Proof.
  unfold sorted_pair, sorted_edge. destruct (str_ltb u v) eqn:E; cbn [fst snd]; split; auto.
  destruct (str_ltb v u) eqn:E'; [|reflexivity]. pose proof (str_ltb_trans _ _ _ E E') as H. now rewrite str_ltb_irrefl in H.
Qed.
Lemma sorted_edge_sym u v : sorted_edge u v = sorted_edge v u.
Proof.
  unfold sorted_edge. destruct (str_ltb u v) eqn:E, (str_ltb v u) eqn:E'; try reflexivity.
  - pose proof (str_ltb_trans _ _ _ E E') as H. now rewrite str_ltb_irrefl in H.
  - now rewrite (str_ltb_total _ _ E E').
Qed.
Lemma sorted_pair_edge k u v : sorted_pair k u v -> k = sorted_edge u v.
Proof.
  intros [[->| ->] H]; cbn [fst snd] in H; unfold sorted_edge.
  - destruct (str_ltb u v) eqn:E; [reflexivity|]. now rewrite (str_ltb_total u v E H).
  - now rewrite H.
Qed.
Lemma sorted_edge_inj u v x y : sorted_edge u v = sorted_edge x y -> (u = x /\ v = y) \/ (u = y /\ v = x).
Proof. unfold sorted_edge. destruct (str_ltb u v), (str_ltb x y); intros E; injection E as -> ->; auto. Qed.
Lemma not_in_lists l des (P Q : string -> Prop) : lists_all l P -> (forall x, P x -> (In x des <-> Q x)) -> lists_all (not_in l des) (fun x => P x /\ ~ Q x).
Proof.
  intros [N H] HQ. unfold not_in. split; [now apply NoDup_filter|]. intros x. rewrite filter_In, negb_true_iff. rewrite mem_not_In. rewrite H. split; intros [A B]; (split; [exact A|]); rewrite (HQ x A) in *; exact B.
Qed.
Lemma demand_not_source g x : source_ok g -> connected_demand g (arc g) x -> x <> SUPERSOURCE.
Proof. intros [_ H] [D _] ->. contradiction. Qed.

Section Edge.
Variable g : graph.
Hypothesis G : graph_ok g.
Hypothesis NL : no_loops g.
Hypothesis SO : source_ok g.
Definition same_graph (c : graph) : Prop := graph_ok c /\ (forall x y, arc c x y <-> arc g x y) /\ g_nodes c = g_nodes g.
Lemma same_node c u : same_graph c -> (node c u <-> node g u).
Proof. intros (_ & _ & E). unfold node. now rewrite E. Qed.
(** take a link out, look, and put it back *)
Lemma fail_pair c u v : same_graph c -> arc g u v -> exists c1 c2 des,
  remove_edge c u v = Ok c1 /\ (if has_edge g v u then remove_edge c1 v u else Ok c1) = Ok c2 /\ descendants c2 = Ok des
  /\ lists_all des (fun x => linked (without_pair g u v) x /\ x <> SUPERSOURCE)
  /\ same_graph (if has_edge g v u then add_edge (add_edge c2 u v no_attr) v u no_attr else add_edge c2 u v no_attr)
  /\ graph_ok c2 /\ (forall x y, arc c2 x y <-> without_pair g u v x y) /\ g_nodes c2 = g_nodes g.
Proof using G NL SO.
  intros (Gc & Ac & Nc) Huv. destruct (remove_edge_ok c u v Gc (proj2 (Ac u v) Huv)) as (c1 & E1 & G1 & A1 & N1). exists c1.
  assert (X : exists c2, (if has_edge g v u then remove_edge c1 v u else Ok c1) = Ok c2 /\ graph_ok c2 /\ (forall x y, arc c2 x y <-> without_pair g u v x y) /\ g_nodes c2 = g_nodes g).
  { destruct (has_edge g v u) eqn:Er.
    - apply has_edge_iff in Er. assert (H1 : arc c1 v u). { apply A1. split; [now apply Ac|]. intros [E _]. subst v. exact (NL u Huv). }
      destruct (remove_edge_ok c1 v u G1 H1) as (c2 & E2 & G2 & A2 & N2). exists c2. split; [exact E2|]. split; [exact G2|]. split; [|congruence].
      intros x y. rewrite A2, A1, Ac. unfold without_pair. tauto.
    - apply has_edge_false in Er. exists c1. split; [reflexivity|]. split; [exact G1|]. split; [|congruence]. intros x y. rewrite A1, Ac. unfold without_pair. split; [|tauto].
      intros [H1 H2]. split; [exact H1|]. split; [exact H2|]. intros [-> ->]. contradiction. }
  destruct X as (c2 & E2 & G2 & A2 & N2). exists c2.
  assert (Hs : node c2 SUPERSOURCE) by (unfold node; rewrite N2; apply SO).
  destruct (descendants_ok c2 G2 Hs) as (des & E3 & L). exists des. split; [exact E1|]. split; [exact E2|]. split; [exact E3|]. split.
  { destruct L as [L1 L2]. split; [exact L1|]. intros x. rewrite L2. split; intros [H1 H2]; (split; [|exact H2]); eapply linked_ext; try exact H1; intros; now apply A2. }
  assert (Nu : node c2 u /\ node c2 v). { unfold node. rewrite N2. apply (arc_nodes g u v G Huv). }
  split; [|auto].
  destruct (add_edge_ok c2 u v no_attr G2) as (G3 & A3 & _). pose proof (add_edge_same c2 u v no_attr (proj1 Nu) (proj2 Nu)) as N3.
  destruct (has_edge g v u) eqn:Er.
  - apply has_edge_iff in Er. destruct (add_edge_ok (add_edge c2 u v no_attr) v u no_attr G3) as (G4 & A4 & _). split; [exact G4|]. split.
    + intros x y. rewrite A4, A3, A2. unfold without_pair. split.
      * intros [[H|[-> ->]]|[-> ->]]; tauto.
      * intros H. destruct (beq_spec x u) as [H1|H1], (beq_spec y v) as [H2|H2], (beq_spec x v) as [H3|H3], (beq_spec y u) as [H4|H4]; tauto.
    + rewrite add_edge_same; [congruence| |]; unfold node; rewrite N3; apply Nu.
  - apply has_edge_false in Er. split; [exact G3|]. split; [|congruence]. intros x y. rewrite A3, A2. unfold without_pair. split.
    + intros [H|[-> ->]]; tauto.
    + intros H. destruct (beq_spec x u) as [->|H1]; [destruct (beq_spec y v) as [->|H2]; [auto|]|].
      * left. split; [exact H|]. split; [tauto|]. intros [? ?]. subst. contradiction.
      * left. split; [exact H|]. split; [tauto|]. intros [? ?]. subst. contradiction.
Qed.
Definition entry (k : string * string) (L : list string) : Prop := exists u v, examined g u v /\ k = sorted_edge u v /\ lists_all L (lost g (without_pair g u v)).
Lemma edge_fold demands : lists_all demands (connected_demand g (arc g)) -> forall es, (forall u v ty, In (u, v, ty) es -> arc_type g u v ty) -> forall c d, same_graph c -> (forall k L, dget d k = Some L -> entry k L) ->
  exists c' d', foldM (edge_failure g demands) (c, d) es = Ok (c', d') /\ same_graph c' /\ (forall k L, dget d' k = Some L -> entry k L)
    /\ (forall k, dmem d k = true -> dmem d' k = true) /\ (forall u v ty, In (u, v, ty) es -> skipped ty = false -> dmem d' (sorted_edge u v) = true).
Proof using G NL SO.
  intros HD. induction es as [|[[u v] ty] es IH]; intros Hes c d Sc Hd; cbn [foldM].
  - exists c, d. split; [reflexivity|]. split; [exact Sc|]. split; [exact Hd|]. split; [auto|]. intros u v ty [].
  - assert (Hes' : forall u v ty, In (u, v, ty) es -> arc_type g u v ty) by (intros; apply Hes; now right).
    pose proof (Hes u v ty (or_introl eq_refl)) as Ht. unfold edge_failure at 1. destruct (skipped ty) eqn:Es.
    { cbn [rbind]. destruct (IH Hes' c d Sc Hd) as (c' & d' & E & S' & D' & K' & I'). exists c', d'. split; [exact E|]. split; [exact S'|]. split; [exact D'|]. split; [exact K'|].
      intros u' v' ty' [H|H]; [injection H as <- <- <-; congruence|eauto]. }
    destruct (dmem d (sorted_edge u v)) eqn:Em.
    { cbn [rbind]. destruct (IH Hes' c d Sc Hd) as (c' & d' & E & S' & D' & K' & I'). exists c', d'. split; [exact E|]. split; [exact S'|]. split; [exact D'|]. split; [exact K'|].
      intros u' v' ty' [H|H]; [injection H as <- <- <-; auto|eauto]. }
    destruct (fail_pair c u v Sc (proj2 (arc_typed g u v) (ex_intro _ ty Ht))) as (c1 & c2 & des & E1 & E2 & E3 & L & S2 & _).
    rewrite E1. cbn [rbind]. rewrite E2. cbn [rbind]. rewrite E3. cbn [rbind].
    edestruct IH as (c' & d' & E & S' & D' & K' & I'); [exact Hes'| | |exists c', d'; split; [exact E|]; split; [exact S'|]; split; [exact D'|]].
    + destruct (has_edge g v u); exact S2.
    + intros k L0. rewrite dget_set. destruct (beq_spec k (sorted_edge u v)) as [->|]; [|apply Hd]. intros Eq. injection Eq as <-. exists u, v. split; [exists ty; split; [exact Ht|now apply skipped_iff]|]. split; [reflexivity|].
      unfold lost. apply not_in_lists; [exact HD|]. intros x Hx. destruct L as [_ L]. rewrite L. pose proof (demand_not_source g x SO Hx). tauto.
    + split.
      * intros k Hk. apply K'. apply dmem_Some. rewrite dget_set. destruct (beq k (sorted_edge u v)); [eauto|]. now apply dmem_Some.
      * intros u' v' ty' [H|H] Hsk; [|eauto]. injection H as <- <- <-. apply K'. apply dmem_Some. rewrite dget_set_eq. eauto.
Qed.
Theorem edge_failures_exact : exists D, single_edge_failures g = Ok D /\
  (forall k L, dget D k = Some L -> exists u v, examined g u v /\ sorted_pair k u v) /\
  (forall u v k, examined g u v -> sorted_pair k u v -> exists L, dget D k = Some L /\ lists_all L (lost g (without_pair g u v))).
Proof using G NL SO.
  unfold single_edge_failures. destruct (connected_ok g G SO) as (demands & -> & HD). cbn [rbind].
  destruct (edge_fold demands HD (edges g)) with (c := g) (d := @nil (string * string * list string)) as (c' & d' & E & _ & D' & _ & I').
  - intros u v ty. now apply edges_In.
  - split; [exact G|]. split; [tauto|reflexivity].
  - discriminate.
  - rewrite E. cbn [rbind snd]. exists d'. split; [reflexivity|]. split.
    + intros k L H. destruct (D' k L H) as (u & v & Hx & -> & _). exists u, v. split; [exact Hx|apply sorted_edge_pair].
    + intros u v k (ty & Ht & Hs) Hk. apply skipped_iff in Hs. apply sorted_pair_edge in Hk. subst k. assert (Hm := I' u v ty (proj2 (edges_In g u v ty G) Ht) Hs). apply dmem_Some in Hm. destruct Hm as [L HL].
      exists L. split; [exact HL|]. destruct (D' _ _ HL) as (u' & v' & _ & Ek & HLL). apply sorted_edge_inj in Ek. destruct Ek as [[-> ->]|[-> ->]]; [exact HLL|].
      destruct HLL as [N H]. split; [exact N|]. intros x. rewrite H. unfold lost. split; intros [A B]; (split; [exact A|]); intros Q; apply B; eapply linked_ext; try exact Q; unfold without_pair; tauto.
Qed.
(** *** sites *)
Lemma out_discard i : forall out c, graph_ok c -> let c' := fold_left (fun c (r : string * eattr) => discard_edge c i (fst r)) out c in
  graph_ok c' /\ g_nodes c' = g_nodes c /\ forall x y, arc c' x y <-> arc c x y /\ ~ (x = i /\ In y (map fst out)).
Proof using.
  induction out as [|r out IH]; intros c Gc c'; cbn [fold_left] in c'; cbn [map].
  - unfold c'. split; [exact Gc|]. split; [reflexivity|]. intros x y. cbn [In]. tauto.
  - destruct (discard_edge_ok c i (fst r) Gc) as (G1 & A1 & N1). destruct (IH _ G1) as (G2 & N2 & A2). fold c' in G2, N2, A2. split; [exact G2|]. split; [congruence|].
    intros x y. rewrite A2, A1. cbn [In]. split.
    + intros [[H1 H2] H3]. split; [exact H1|]. intros [-> [E|H]]; [apply H2; auto|apply H3; auto].
    + intros [H1 H2]. split; [split; [exact H1|]|]; intros [-> H]; apply H2; auto.
Qed.
Lemma out_add i : forall out c, graph_ok c -> node c i -> (forall r, In r out -> node c (fst r)) -> let c' := fold_left (fun c (r : string * eattr) => add_edge c i (fst r) (snd r)) out c in
  graph_ok c' /\ g_nodes c' = g_nodes c /\ forall x y, arc c' x y <-> arc c x y \/ (x = i /\ In y (map fst out)).
Proof using.
  induction out as [|r out IH]; intros c Gc Hi Ho c'; cbn [fold_left] in c'; cbn [map].
  - unfold c'. split; [exact Gc|]. split; [reflexivity|]. intros x y. cbn [In]. tauto.
  - destruct (add_edge_ok c i (fst r) (snd r) Gc) as (G1 & A1 & _). pose proof (add_edge_same c i (fst r) (snd r) Hi (Ho r (or_introl eq_refl))) as N1.
    destruct (IH (add_edge c i (fst r) (snd r))) as (G2 & N2 & A2); [exact G1|unfold node; rewrite N1; exact Hi|intros r' Hr'; unfold node; rewrite N1; apply Ho; now right|]. fold c' in G2, N2, A2. split; [exact G2|]. split; [congruence|].
    intros x y. rewrite A2, A1. cbn [In]. split.
    + intros [[H|[-> ->]]|[-> H]]; auto.
    + intros [H|[-> [<-|H]]]; auto.
Qed.
Lemma linked_avoid i x : linked (fun a b => arc g a b /\ a <> i) x -> x = i \/ linked (without_site g i) x.
Proof using.
  intros L. induction L as [|u v L IH [Ha Hu]]; [right; constructor|]. destruct (beq_spec v i) as [->|Hv]; [now left|]. right.
  destruct IH as [->|IH]; [contradiction|]. eapply linked_step; [exact IH|]. unfold without_site. auto.
Qed.
Lemma site_lost demands i c : lists_all demands (connected_demand g (arc g)) -> same_graph c -> node g i -> ~ demand_node g i ->
  let out := row (g_adj c) i in let c1 := fold_left (fun c (r : string * eattr) => discard_edge c i (fst r)) out c in
  exists des, descendants c1 = Ok des /\ lists_all (not_in demands des) (lost g (without_site g i)) /\ same_graph (fold_left (fun c (r : string * eattr) => add_edge c i (fst r) (snd r)) out c1).
Proof using G SO.
  intros HD (Gc & Ac & Nc) Hi Hd out c1. destruct (out_discard i out c Gc) as (G1 & N1 & A1). fold c1 in G1, N1, A1.
  assert (Ho : forall y, In y (map fst out) <-> arc g i y). { intros y. rewrite <- Ac. apply succ_In. }
  assert (A1' : forall x y, arc c1 x y <-> arc g x y /\ x <> i).
  { intros x y. rewrite A1, Ac, Ho. split; [intros [H1 H2]; split; [exact H1|intros ->; tauto]|]. intros [H1 H2]. split; [exact H1|]. intros [-> _]. contradiction. }
  assert (Hs : node c1 SUPERSOURCE) by (unfold node; rewrite N1, Nc; apply SO).
  destruct (descendants_ok c1 G1 Hs) as (des & E & L). exists des. split; [exact E|]. split.
  - unfold lost. apply not_in_lists; [exact HD|]. intros x Hx. destruct L as [_ L]. rewrite L. pose proof (demand_not_source g x SO Hx) as Hns. split.
    + intros [Hl _]. assert (Hl' : linked (fun a b => arc g a b /\ a <> i) x) by (eapply linked_ext; [|exact Hl]; intros; now apply A1').
      apply linked_avoid in Hl'. destruct Hl' as [->|Hl']; [|exact Hl']. destruct Hx as [Hx _]. contradiction.
    + intros Hl. split; [|exact Hns]. eapply linked_ext; [|exact Hl]. intros a b (H1 & H2 & _). apply A1'. auto.
  - assert (Hn : node c1 i) by (unfold node; rewrite N1, Nc; exact Hi). destruct (out_add i out c1 G1 Hn) as (G2 & N2 & A2).
    { intros r Hr. unfold node. rewrite N1, Nc. apply (arc_nodes g i (fst r) G). apply Ho. now apply in_map. }
    split; [exact G2|]. split; [|congruence]. intros x y. rewrite A2, A1', Ho. split; [intros [[H _]|[-> H]]; auto|]. intros H. destruct (beq_spec x i) as [->|]; auto.
Qed.
Definition site_entry (ty : site_type) (d : dict string (list string)) : Prop :=
  forall i L, dget d i = Some L -> dget (g_nodes g) i = Some (Some (NSite ty)) /\ i <> SUPERSOURCE /\ L <> [] /\ lists_all L (lost g (without_site g i)).
Definition has_entry (d : dict string (list string)) (i : string) : Prop := dmem d i = true \/ forall x, ~ lost g (without_site g i) x.
Lemma entry_set ty d i L : site_entry ty d -> dget (g_nodes g) i = Some (Some (NSite ty)) -> i <> SUPERSOURCE -> L <> [] -> lists_all L (lost g (without_site g i)) -> site_entry ty (dset d i L).
Proof using. intros H A B C D j L'. rewrite dget_set. destruct (beq_spec j i) as [->|]; [|apply H]. intros E. injection E as <-. auto. Qed.
Lemma site_fold demands : lists_all demands (connected_demand g (arc g)) -> forall ns, (forall i ty, In (i, ty) ns -> dget (g_nodes g) i = Some ty) -> forall c p d, same_graph c -> site_entry POP p -> site_entry DN d ->
  exists c' p' d', foldM (site_failure demands) (c, p, d) ns = Ok (c', p', d') /\ site_entry POP p' /\ site_entry DN d'
    /\ (forall i, dmem p i = true -> dmem p' i = true) /\ (forall i, dmem d i = true -> dmem d' i = true)
    /\ (forall i, In (i, Some (NSite POP)) ns -> i <> SUPERSOURCE -> has_entry p' i) /\ (forall i, In (i, Some (NSite DN)) ns -> i <> SUPERSOURCE -> has_entry d' i).
Proof using G SO.
  intros HD. induction ns as [|[i ty] ns IH]; intros Hns c p d Sc Hp Hd; cbn [foldM].
  - exists c, p, d. split; [reflexivity|]. split; [exact Hp|]. split; [exact Hd|]. split; [auto|]. split; [auto|]. split; intros i [].
  - assert (Hns' : forall i ty, In (i, ty) ns -> dget (g_nodes g) i = Some ty) by (intros; apply Hns; now right).
    pose proof (Hns i ty (or_introl eq_refl)) as Ht. unfold site_failure at 1. cbn [fst snd].
    assert (Hskip : forall b : bool, (b = true -> ty = Some (NSite CN) \/ ty = Some NDemand \/ i = SUPERSOURCE) -> b = true ->
      exists c' p' d', foldM (site_failure demands) (c, p, d) ns = Ok (c', p', d') /\ site_entry POP p' /\ site_entry DN d'
        /\ (forall i, dmem p i = true -> dmem p' i = true) /\ (forall i, dmem d i = true -> dmem d' i = true)
        /\ (forall j, In (j, Some (NSite POP)) ((i, ty) :: ns) -> j <> SUPERSOURCE -> has_entry p' j) /\ (forall j, In (j, Some (NSite DN)) ((i, ty) :: ns) -> j <> SUPERSOURCE -> has_entry d' j)).
    { intros b Hb Eb. apply Hb in Eb. destruct (IH Hns' c p d Sc Hp Hd) as (c' & p' & d' & E & P' & D' & Kp & Kd & Ip & Id). exists c', p', d'.
      split; [exact E|]. split; [exact P'|]. split; [exact D'|]. split; [exact Kp|]. split; [exact Kd|]. split; intros j [H|H] Hj; try (injection H as -> ->; destruct Eb as [Eb|[Eb|Eb]]; [discriminate|discriminate|contradiction]); auto. }
    destruct (match ty with Some (NSite CN) | Some NDemand => true | _ => beq i SUPERSOURCE end) eqn:Eskip.
    { cbn [rbind]. apply (Hskip true); [|reflexivity]. intros _. destruct ty as [[|[]|]|]; auto; right; right; now apply beq_true. }
    clear Hskip. assert (Hnd : ~ demand_node g i) by (unfold demand_node; rewrite Ht; destruct ty as [[|[]|]|]; congruence).
    assert (Hns0 : i <> SUPERSOURCE) by (intros ->; destruct ty as [[|[]|]|]; discriminate).
    destruct (site_lost demands i c HD Sc (ex_intro _ ty Ht) Hnd) as (des & E & L & S2). rewrite E. cbn [rbind].
    set (c2 := fold_left _ _ (fold_left _ _ c)) in *.
    assert (Gen : forall p1 d1, site_entry POP p1 -> site_entry DN d1 -> (forall j, dmem p j = true -> dmem p1 j = true) -> (forall j, dmem d j = true -> dmem d1 j = true) ->
       (ty = Some (NSite POP) -> has_entry p1 i) -> (ty = Some (NSite DN) -> has_entry d1 i) ->
       exists c' p' d', foldM (site_failure demands) (c2, p1, d1) ns = Ok (c', p', d') /\ site_entry POP p' /\ site_entry DN d'
        /\ (forall i, dmem p i = true -> dmem p' i = true) /\ (forall i, dmem d i = true -> dmem d' i = true)
        /\ (forall j, In (j, Some (NSite POP)) ((i, ty) :: ns) -> j <> SUPERSOURCE -> has_entry p' j) /\ (forall j, In (j, Some (NSite DN)) ((i, ty) :: ns) -> j <> SUPERSOURCE -> has_entry d' j)).
    { intros p1 d1 P1 D1 K1 K2 F1 F2. destruct (IH Hns' c2 p1 d1 S2 P1 D1) as (c' & p' & d' & E' & P' & D' & Kp & Kd & Ip & Id). exists c', p', d'.
      split; [exact E'|]. split; [exact P'|]. split; [exact D'|]. split; [auto|]. split; [auto|].
      split; intros j [H|H] Hj; auto; injection H as -> ->; [destruct (F1 eq_refl) as [F|F]|destruct (F2 eq_refl) as [F|F]]; [left; auto|now right|left; auto|now right]. }
    clear IH. destruct (not_in demands des) as [|x0 l0] eqn:El.
    { cbn [rbind]. assert (No : forall x, ~ lost g (without_site g i) x) by (intros x Hx; destruct L as [_ L]; exact (proj2 (L x) Hx)). apply Gen; auto; intros _; right; exact No. }
    assert (Hne : x0 :: l0 <> []) by discriminate. set (LL := x0 :: l0) in *.
    assert (Kset : forall (q : dict string (list string)) j, dmem q j = true -> dmem (dset q i LL) j = true).
    { intros q j Hj. apply dmem_Some. rewrite dget_set. destruct (beq j i); [eauto|]. now apply dmem_Some. }
    assert (Kin : forall (q : dict string (list string)), dmem (dset q i LL) i = true) by (intros q; apply dmem_Some; rewrite dget_set_eq; eauto).
    destruct ty as [[|[]|]|]; try discriminate Eskip; cbn [rbind]; apply Gen; auto; try (intros X; discriminate X); try (intros _; left; apply Kin); apply entry_set; auto.
Qed.
Theorem site_failures_exact : exists P D, single_site_failures g = Ok (P, D) /\
  (forall i L, dget P i = Some L -> dget (g_nodes g) i = Some (Some (NSite POP)) /\ L <> [] /\ lists_all L (lost g (without_site g i))) /\
  (forall i L, dget D i = Some L -> dget (g_nodes g) i = Some (Some (NSite DN)) /\ L <> [] /\ lists_all L (lost g (without_site g i))) /\
  (forall i x, i <> SUPERSOURCE -> dget (g_nodes g) i = Some (Some (NSite POP)) -> lost g (without_site g i) x -> exists L, dget P i = Some L) /\
  (forall i x, i <> SUPERSOURCE -> dget (g_nodes g) i = Some (Some (NSite DN)) -> lost g (without_site g i) x -> exists L, dget D i = Some L).
Proof using G SO.
  unfold single_site_failures. destruct (connected_ok g G SO) as (demands & -> & HD). cbn [rbind]. pose proof G as (W1 & _).
  destruct (site_fold demands HD (g_nodes g)) with (c := g) (p := @nil (string * list string)) (d := @nil (string * list string)) as (c' & p' & d' & E & P' & D' & _ & _ & Ip & Id).
  - intros i ty H. now apply In_dget.
  - split; [exact G|]. split; [tauto|reflexivity].
  - intros i L H. discriminate.
  - intros i L H. discriminate.
  - rewrite E. cbn [rbind fst snd]. exists p', d'. split; [reflexivity|]. split; [|split; [|split]].
    + intros i L H. destruct (P' i L H) as (A & _ & B & C). auto.
    + intros i L H. destruct (D' i L H) as (A & _ & B & C). auto.
    + intros i x Hi Ht Hl. destruct (Ip i) as [F|F]; [now apply dget_In|exact Hi|now apply dmem_Some|destruct (F x Hl)].
    + intros i x Hi Ht Hl. destruct (Id i) as [F|F]; [now apply dget_In|exact Hi|now apply dmem_Some|destruct (F x Hl)].
Qed.
End Edge.
(** without a supersource nothing is computed *)
Lemma no_source g : ~ node g SUPERSOURCE -> find_connected_demands g = Err NetworkXExn /\ single_edge_failures g = Err NetworkXExn /\ single_site_failures g = Err NetworkXExn.
Proof.
  intros H. assert (E : find_connected_demands g = Err NetworkXExn).
  { unfold find_connected_demands, descendants. destruct (dmem (g_nodes g) SUPERSOURCE) eqn:E; [|reflexivity]. apply node_iff in E. contradiction. }
  unfold single_edge_failures, single_site_failures. rewrite E. auto.
Qed.
