From Coq Require Import Lia.
From Verif Require Import Base Dict MonadLib SetupModel LosRangeModel TopologyModel TopologySpec TopologyProofs GraphSpec GraphProofs LosConnProofs NxModel NxSpec.
Local Open Scope list_scope.

Lemma arc_row g u v : arc g u v <-> exists a, dget (row (g_adj g) u) v = Some a.
Proof.
  unfold arc, row. split.
  - intros (r & a & -> & E). eauto.
  - destruct (dget (g_adj g) u) as [r|]; [intros [a E]; eauto|intros [a E]; discriminate].
Qed.
Lemma has_edge_iff g u v : has_edge g u v = true <-> arc g u v.
Proof. unfold has_edge. rewrite arc_row. apply dmem_Some. Qed.
Lemma has_edge_false g u v : has_edge g u v = false <-> ~ arc g u v.
Proof. rewrite <- has_edge_iff. destruct (has_edge g u v); split; congruence. Qed.
Lemma node_iff g u : dmem (g_nodes g) u = true <-> node g u.
Proof. apply dmem_Some. Qed.
Lemma row_wf g u : graph_ok g -> dwf (row (g_adj g) u).
Proof. intros (_ & _ & W & _). unfold row. destruct (dget (g_adj g) u) eqn:E; [eauto|apply dwf_nil]. Qed.
Lemma arc_nodes g u v : graph_ok g -> arc g u v -> node g u /\ node g v.
Proof. intros (_ & _ & _ & N & A) H. split; [|eauto]. destruct H as (r & a & E & _). apply N. eauto. Qed.

Lemma add_node_ok g u : graph_ok g -> graph_ok (add_node g u) /\ (forall x y, arc (add_node g u) x y <-> arc g x y) /\ (forall x, node (add_node g u) x <-> node g x \/ x = u)
  /\ (forall x, dget (g_nodes (add_node g u)) x = if beq x u then Some (match dget (g_nodes g) u with Some ty => ty | None => None end) else dget (g_nodes g) x).
Proof.
  intros G. unfold add_node. destruct (dmem (g_nodes g) u) eqn:E.
  - split; [exact G|]. split; [tauto|]. apply node_iff in E. split; [intros x; split; [auto|intros [H| ->]; auto]|].
    intros x. destruct (beq_spec x u) as [->|]; [|reflexivity]. destruct E as [ty ->]. reflexivity.
  - pose proof G as (W1 & W2 & W3 & N & A). apply dmem_None in E.
    assert (Nu : dget (g_adj g) u = None). { destruct (dget (g_adj g) u) as [r|] eqn:Er; [|reflexivity]. assert (node g u) as [ty Ht] by (apply N; eauto). congruence. }
    assert (HA : forall x y, arc (mkG (dset (g_nodes g) u None) (dset (g_adj g) u [])) x y <-> arc g x y).
    { intros x y. unfold arc. cbn [g_adj]. rewrite dget_set. destruct (beq_spec x u) as [->|]; [|tauto]. rewrite Nu. split; [intros (r & a & E1 & E2); injection E1 as <-; discriminate|intros (r & a & E1 & _); discriminate]. }
    assert (HN : forall x, node (mkG (dset (g_nodes g) u None) (dset (g_adj g) u [])) x <-> node g x \/ x = u).
    { intros x. unfold node. cbn [g_nodes]. rewrite dget_set. destruct (beq_spec x u) as [->|]; [split; [auto|eauto]|]. split; [auto|intros [H|H]; [exact H|contradiction]]. }
    split; [|split; [exact HA|split; [exact HN|]]].
    + unfold graph_ok. cbn [g_nodes g_adj]. split; [now apply dwf_set|]. split; [now apply dwf_set|]. split; [|split].
      * intros x r. rewrite dget_set. destruct (beq x u); [intros E1; injection E1 as <-; apply dwf_nil|apply W3].
      * intros x. rewrite HN, dget_set. destruct (beq_spec x u) as [->|]; [split; [eauto|auto]|]. rewrite N. split; [intros [H|H]; [exact H|contradiction]|auto].
      * intros x y H. apply HA in H. apply HN. left. now apply (A x).
    + intros x. cbn [g_nodes]. rewrite dget_set, E. reflexivity.
Qed.
Definition same_nodes (g g' : graph) : Prop := g_nodes g' = g_nodes g.
Lemma add_node_same g u : node g u -> add_node g u = g.
Proof. intros H. unfold add_node. apply node_iff in H. now rewrite H. Qed.
Lemma add_edge_ok g u v a : graph_ok g -> graph_ok (add_edge g u v a) /\ (forall x y, arc (add_edge g u v a) x y <-> arc g x y \/ (x = u /\ y = v))
  /\ (forall x, node (add_edge g u v a) x <-> node g x \/ x = u \/ x = v)
  /\ (forall x ty, dget (g_nodes (add_edge g u v a)) x = Some (Some ty) <-> dget (g_nodes g) x = Some (Some ty)).
Proof.
  intros G. unfold add_edge. destruct (add_node_ok g u G) as (G1 & A1 & N1 & T1). set (g1 := add_node g u) in *. destruct (add_node_ok g1 v G1) as (G2 & A2 & N2 & T2). set (g2 := add_node g1 v) in *.
  set (r := row (g_adj g2) u). set (a' := update _ a).
  assert (HA : forall x y, arc (mkG (g_nodes g2) (dset (g_adj g2) u (dset r v a'))) x y <-> arc g x y \/ (x = u /\ y = v)).
  { intros x y. rewrite <- A1, <- A2. rewrite !arc_row. cbn [g_adj]. destruct (beq_spec x u) as [->|Hx].
    - rewrite row_set_eq, dget_set. fold r. destruct (beq_spec y v) as [->|Hy]; [split; [auto|eauto]|]. split; [auto|intros [H|[_ H]]; [exact H|contradiction]].
    - rewrite row_set_neq by exact Hx. split; [auto|intros [H|[H _]]; [exact H|contradiction]]. }
  assert (HN : forall x, node (mkG (g_nodes g2) (dset (g_adj g2) u (dset r v a'))) x <-> node g x \/ x = u \/ x = v).
  { intros x. unfold node at 1. cbn [g_nodes]. fold (node g2 x). rewrite N2, N1. tauto. }
  pose proof G2 as (W1 & W2 & W3 & N & A).
  split; [|split; [exact HA|split; [exact HN|]]].
  - unfold graph_ok. cbn [g_nodes g_adj]. split; [exact W1|]. split; [now apply dwf_set|]. split; [|split].
    + intros x r'. rewrite dget_set. destruct (beq x u); [|apply W3]. intros E. injection E as <-. apply dwf_set. now apply row_wf.
    + intros x. rewrite HN, dget_set. destruct (beq_spec x u) as [->|Hx]; [split; [eauto|auto]|]. rewrite <- N, N2, N1. tauto.
    + intros x y H. apply HA in H. apply HN. destruct H as [H|[-> ->]]; [|auto]. left. now apply (arc_nodes g x y G).
  - intros x ty. cbn [g_nodes]. rewrite T2. destruct (beq_spec x v) as [->|Hv]; rewrite T1.
    + destruct (beq_spec v u) as [->|Hu].
      * destruct (dget (g_nodes g) u) as [[?|]|] eqn:E; cbn; split; congruence.
      * destruct (dget (g_nodes g) v) as [[?|]|] eqn:E; cbn; split; congruence.
    + destruct (beq_spec x u) as [->|Hu]; [|tauto]. destruct (dget (g_nodes g) u) as [[?|]|] eqn:E; cbn; split; congruence.
Qed.
Lemma add_edge_same g u v a : node g u -> node g v -> g_nodes (add_edge g u v a) = g_nodes g.
Proof. intros Hu Hv. unfold add_edge. rewrite (add_node_same g u Hu), (add_node_same g v Hv). reflexivity. Qed.
Definition dropped (g : graph) (u v : string) : graph := mkG (g_nodes g) (dset (g_adj g) u (ddel (row (g_adj g) u) v)).
Lemma dropped_ok g u v : graph_ok g -> node g u -> graph_ok (dropped g u v) /\ (forall x y, arc (dropped g u v) x y <-> arc g x y /\ ~ (x = u /\ y = v)).
Proof.
  intros G Hu. pose proof G as (W1 & W2 & W3 & N & A).
  assert (HA : forall x y, arc (dropped g u v) x y <-> arc g x y /\ ~ (x = u /\ y = v)).
  { intros x y. rewrite !arc_row. unfold dropped. cbn [g_adj]. destruct (beq_spec x u) as [->|Hx].
    - rewrite row_set_eq. destruct (beq_spec y v) as [->|Hy].
      + rewrite dget_del_eq. split; [intros [a E]; discriminate|tauto].
      + rewrite dget_del_neq by exact Hy. split; [intros H; split; [exact H|tauto]|tauto].
    - rewrite row_set_neq by exact Hx. split; [intros H; split; [exact H|tauto]|tauto]. }
  split; [|exact HA]. unfold graph_ok. split; [exact W1|]. split; [now apply dwf_set|]. split; [|split].
  - intros x r. unfold dropped. cbn [g_adj]. rewrite dget_set. destruct (beq x u); [|apply W3]. intros E. injection E as <-. apply dwf_del. now apply row_wf.
  - intros x. unfold dropped. cbn [g_adj]. rewrite dget_set. unfold node at 1. cbn [g_nodes]. fold (node g x). destruct (beq_spec x u) as [->|]; [split; [eauto|auto]|apply N].
  - intros x y H. apply HA in H. destruct H as [H _]. apply A in H. exact H.
Qed.
Lemma remove_edge_ok g u v : graph_ok g -> arc g u v -> exists g', remove_edge g u v = Ok g' /\ graph_ok g' /\ (forall x y, arc g' x y <-> arc g x y /\ ~ (x = u /\ y = v)) /\ g_nodes g' = g_nodes g.
Proof.
  intros G H. unfold remove_edge. pose proof H as H'. apply has_edge_iff in H'. rewrite H'. exists (dropped g u v). split; [reflexivity|].
  destruct (dropped_ok g u v G (proj1 (arc_nodes g u v G H))) as [G' A']. auto.
Qed.
Lemma remove_edge_inv g u v g' : graph_ok g -> remove_edge g u v = Ok g' -> arc g u v /\ graph_ok g' /\ (forall x y, arc g' x y <-> arc g x y /\ ~ (x = u /\ y = v)) /\ g_nodes g' = g_nodes g.
Proof.
  intros G E. assert (H : arc g u v). { apply has_edge_iff. unfold remove_edge in E. destruct (has_edge g u v); [reflexivity|discriminate]. }
  destruct (remove_edge_ok g u v G H) as (g2 & E2 & R). rewrite E in E2. injection E2 as <-. auto.
Qed.
Lemma discard_edge_ok g u v : graph_ok g -> graph_ok (discard_edge g u v) /\ (forall x y, arc (discard_edge g u v) x y <-> arc g x y /\ ~ (x = u /\ y = v)) /\ g_nodes (discard_edge g u v) = g_nodes g.
Proof.
  intros G. unfold discard_edge. destruct (has_edge g u v) eqn:E.
  - apply has_edge_iff in E. destruct (dropped_ok g u v G (proj1 (arc_nodes g u v G E))) as [G' A']. auto.
  - apply has_edge_false in E. split; [exact G|]. split; [|reflexivity]. intros x y. split; [intros H; split; [exact H|intros [-> ->]; contradiction]|tauto].
Qed.

(** *** descendants *)
Lemma linked_ext (E E' : string -> string -> Prop) x : (forall u v, E u v -> E' u v) -> linked E x -> linked E' x.
Proof. intros H L. induction L as [|u v L IH Hu]; [constructor|]. eapply linked_step; eauto. Qed.
Section Desc.
Variable g : graph.
Hypothesis G : graph_ok g.
Lemma succ_In u v : In v (dkeys (row (g_adj g) u)) <-> arc g u v.
Proof using. rewrite arc_row, <- dmem_Some. symmetry. apply dmem_keys. Qed.
Lemma expand_In seen x : In x (expand (g_adj g) seen) <-> In x seen \/ exists u, In u seen /\ arc g u x.
Proof using.
  unfold expand. assert (H : forall l acc, In x (fold_left (fun acc u => fold_left (fun acc v => sadd v acc) (dkeys (row (g_adj g) u)) acc) l acc) <-> In x acc \/ exists u, In u l /\ arc g u x).
  { induction l as [|u l IH]; intros acc; cbn [fold_left].
    - split; [auto|intros [H|(u & [] & _)]; exact H].
    - rewrite IH, fold_sadd_In, succ_In. split.
      + intros [[H|H]|(w & H1 & H2)]; [right; exists u; split; [now left|exact H]|auto|right; exists w; split; [now right|exact H2]].
      + intros [H|(w & [->|H1] & H2)]; [auto|auto|right; exists w; auto]. }
  apply H.
Qed.
Lemma expand_NoDup seen : NoDup seen -> NoDup (expand (g_adj g) seen).
Proof using.
  unfold expand. intros N. assert (H : forall l acc, NoDup acc -> NoDup (fold_left (fun acc u => fold_left (fun acc v => sadd v acc) (dkeys (row (g_adj g) u)) acc) l acc)).
  { induction l as [|u l IH]; intros acc Na; cbn [fold_left]; [exact Na|]. apply IH. now apply fold_sadd_NoDup. }
  now apply H.
Qed.
Definition closed (l : list string) : Prop := forall u v, In u l -> arc g u v -> In v l.
Lemma closure_spec n : forall seen, NoDup seen -> incl seen (dkeys (g_nodes g)) -> In SUPERSOURCE seen -> (forall x, In x seen -> linked (arc g) x) ->
  let r := closure n (g_adj g) seen in NoDup r /\ incl r (dkeys (g_nodes g)) /\ In SUPERSOURCE r /\ (forall x, In x r -> linked (arc g) x) /\ (closed r \/ List.length seen + n <= List.length r).
Proof using G.
  induction n as [|n IH]; intros seen N I S0 L r; cbn [closure] in r.
  - unfold r. repeat match goal with |- _ /\ _ => split end; auto. right. lia.
  - assert (Hs : forall x, In x (expand (g_adj g) seen) -> linked (arc g) x).
    { intros x H. apply expand_In in H. destruct H as [H|(u & H1 & H2)]; [auto|]. eapply linked_step; eauto. }
    assert (I' : incl (expand (g_adj g) seen) (dkeys (g_nodes g))).
    { intros x H. apply expand_In in H. destruct H as [H|(u & H1 & H2)]; [auto|]. apply (arc_nodes g u x G) in H2. destruct H2 as [_ H2]. apply node_iff in H2. now apply dmem_keys. }
    assert (Sub : incl seen (expand (g_adj g) seen)) by (intros x H; apply expand_In; auto).
    destruct (IH (expand (g_adj g) seen) (expand_NoDup seen N) I' (Sub _ S0) Hs) as (R1 & R2 & R3 & R4 & R5). fold r in R1, R2, R3, R4, R5.
    repeat match goal with |- _ /\ _ => split end; auto.
    destruct R5 as [R5|R5]; [auto|]. pose proof (NoDup_incl_length N Sub) as Hl.
    destruct (Nat.eq_dec (List.length (expand (g_adj g) seen)) (List.length seen)) as [E|E]; [|right; lia].
    left. assert (Cl : closed seen).
    { intros u v Hu Ha. apply (NoDup_length_incl N) in Sub; [|lia]. apply Sub. apply expand_In. right. eauto. }
    assert (Q : forall k, forall x, In x (closure k (g_adj g) seen) <-> In x seen).
    { clear -Cl. assert (QQ : forall k s, (forall x, In x s <-> In x seen) -> forall x, In x (closure k (g_adj g) s) <-> In x seen).
      { induction k as [|k IH]; intros s Hs; cbn [closure]; [exact Hs|]. apply IH. intros x. rewrite expand_In. split.
        - intros [H|(u & H1 & H2)]; [now apply Hs|]. apply Hs in H1. now apply (Cl u).
        - intros H. left. now apply Hs. }
      intros k. apply QQ. tauto. }
    specialize (Q (S n)). cbn [closure] in Q. fold r in Q. intros u v Hu Ha. apply Q. apply Q in Hu. now apply (Cl u).
Qed.
Lemma descendants_ok : node g SUPERSOURCE -> exists l, descendants g = Ok l /\ lists_all l (fun x => linked (arc g) x /\ x <> SUPERSOURCE).
Proof using G.
  intros Hs. unfold descendants. pose proof Hs as Hs'. apply node_iff in Hs'. rewrite Hs'. eexists. split; [reflexivity|].
  destruct (closure_spec (List.length (g_nodes g)) [SUPERSOURCE]) as (R1 & R2 & R3 & R4 & R5).
  - repeat constructor. intros [].
  - intros x [<-|[]]. now apply dmem_keys.
  - now left.
  - intros x [<-|[]]. constructor.
  - set (r := closure _ _ _) in *.
    assert (Cl : closed r).
    { destruct R5 as [R5|R5]; [exact R5|]. exfalso. pose proof (NoDup_incl_length R1 R2) as H. unfold dkeys in H. rewrite map_length in H. cbn in R5. lia. }
    assert (Hr : forall x, In x r <-> linked (arc g) x).
    { intros x. split; [apply R4|]. intros L. induction L as [|u v L IH Ha]; [exact R3|]. now apply (Cl u). }
    split; [now apply discard_NoDup|]. intros x. rewrite discard_In. rewrite Hr. tauto.
Qed.
Lemma descendants_node l : descendants g = Ok l -> node g SUPERSOURCE.
Proof using. unfold descendants. destruct (dmem (g_nodes g) SUPERSOURCE) eqn:E; [|discriminate]. intros _. now apply node_iff. Qed.
Lemma connected_ok : source_ok g -> exists l, find_connected_demands g = Ok l /\ lists_all l (connected_demand g (arc g)).
Proof using G.
  intros [Hs Hd]. unfold find_connected_demands. destruct (descendants_ok Hs) as (des & -> & _ & Hdes). cbn [rbind]. eexists. split; [reflexivity|].
  pose proof G as (W1 & _). split.
  - assert (X : NoDup (map fst (g_nodes g))) by exact W1. clear -X. induction (g_nodes g) as [|q l IH]; cbn [filter map] in *; [constructor|]. inversion X as [|? ? X1 X2]; subst.
    destruct (_ && _); cbn [map]; auto. constructor; auto. intros H. apply X1. apply in_map_iff in H. destruct H as (q' & E & H). apply filter_In in H. apply in_map_iff. exists q'. tauto.
  - intros x. rewrite in_map_iff. unfold connected_demand, demand_node. split.
    + intros ([x' ty] & <- & H). apply filter_In in H. destruct H as [H1 H2]. cbn [fst] in *. apply andb_true_iff in H2. destruct H2 as [H2 H3]. apply mem_In in H3. apply Hdes in H3.
      unfold is_demand in H2. cbn [snd] in H2. destruct ty as [[| |]|]; try discriminate. split; [now apply In_dget|tauto].
    + intros [H1 H2]. exists (x, Some NDemand). split; [reflexivity|]. apply filter_In. split; [now apply dget_In|]. cbn [fst]. unfold is_demand. cbn [snd andb]. apply mem_In. apply Hdes. split; [exact H2|].
      intros ->. apply Hd. exact H1.
Qed.
End Desc.
