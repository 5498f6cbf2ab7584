From Coq Require Import ZArith Lia.
From Verif Require Import Base Dict MonadLib SetupModel LosRangeModel TopologyModel TopologySpec TopologyLemmas TopologyProofs GraphSpec GraphProofs NxModel NxSpec NxProofs NxFailProofs NxBuildProofs.
Local Open Scope list_scope.

Lemma mcs_cost m : cost_of m (mcs_to_cost m).
Proof.
  unfold cost_of, mcs_to_cost. destruct (Z.ltb_spec 12 m) as [H|H]; [left; split; [lia|reflexivity]|].
  assert (C : (m < 2 \/ m = 2 \/ m = 3 \/ m = 4 \/ m = 5 \/ m = 6 \/ m = 7 \/ m = 8 \/ m = 9 \/ m = 10 \/ m = 11 \/ m = 12)%Z) by lia.
  destruct C as [C|C]; [|repeat (destruct C as [->|C]; [vm_compute; intuition congruence|]); subst; vm_compute; intuition congruence].
  right. right. right. split; [exact C|]. assert (N : forall l : list Z, (forall z, In z l -> (2 <= z)%Z) -> mem m l = false).
  { intros l Hl. destruct (mem m l) eqn:E; [|reflexivity]. apply mem_In, Hl in E. lia. }
  rewrite !N; [reflexivity| | |]; cbn; intros z Hz; intuition lia.
Qed.
Section Good.
Variable P : string -> string -> eattr -> Prop.
Definition good (g : graph) : Prop := forall u v r a, dget (g_adj g) u = Some r -> dget r v = Some a -> P u v a.
Lemma good_row g : good g <-> forall u v a, dget (row (g_adj g) u) v = Some a -> P u v a.
Proof. unfold good, row. split; intros H u v; [intros a E; destruct (dget (g_adj g) u) as [r|] eqn:Er; [eauto|discriminate]|intros r a Er E; apply H; now rewrite Er]. Qed.
Lemma good_add g u v ty c : graph_ok g -> good g -> P u v (mkE (Some ty) (Some c)) -> good (add_edge g u v (mkE (Some ty) (Some c))).
Proof.
  intros G H Hp. apply good_row. intros x y a. rewrite add_edge_row by exact G. destruct (beq_spec x u) as [->|]; [|now apply good_row]. rewrite dget_set. destruct (beq_spec y v) as [->|]; [intros E; injection E as <-; exact Hp|now apply good_row].
Qed.
Lemma good_fold {A} (c : A -> bool) (u v : A -> string) ty co l : forall g, graph_ok g -> good g -> (forall q, In q l -> c q = true -> P (u q) (v q) (mkE (Some (ty q)) (Some (co q)))) ->
  let g' := fold_left (fun g q => if c q then add_edge g (u q) (v q) (mkE (Some (ty q)) (Some (co q))) else g) l g in graph_ok g' /\ good g'.
Proof.
  induction l as [|q l IH]; intros g G H Hp g'; cbn [fold_left] in g'; [auto|]. destruct (c q) eqn:Ec.
  - apply IH; [now apply add_edge_ok| |intros x Hx; apply Hp; now right]. apply good_add; [exact G|exact H|]. apply Hp; [now left|exact Ec].
  - apply IH; [exact G|exact H|]. intros x Hx. apply Hp. now right.
Qed.
End Good.
Theorem graph_costs mcs t f u v r a : reachable t -> dget (g_adj (build_digraph mcs t f)) u = Some r -> dget r v = Some a ->
  (u = SUPERSOURCE /\ site_stored t v /\ e_cost a = Some (Some 1%Z)) \/ (exists k l c, link_stored t k l /\ l_tx l = u /\ l_rx l = v /\ e_cost a = Some c /\ cost_of (mcs k) c)
  \/ (exists d, dget (t_demands t) v = Some d /\ In u (d_sites d) /\ e_cost a = Some (Some 1%Z)).
Proof.
  intros Hr. pose proof (inv_reachable t Hr) as HI.
  set (P := fun u v a => (u = SUPERSOURCE /\ site_stored t v /\ e_cost a = Some (Some 1%Z)) \/ (exists k l c, link_stored t k l /\ l_tx l = u /\ l_rx l = v /\ e_cost a = Some c /\ cost_of (mcs k) c)
  \/ (exists d, dget (t_demands t) v = Some d /\ In u (d_sites d) /\ e_cost a = Some (Some 1%Z))).
  enough (X : good P (build_digraph mcs t f)) by (intros E1 E2; exact (X u v r a E1 E2)). clear u v r a.
  assert (G0 : graph_ok (mkG [] [])). { split; [apply dwf_nil|]. split; [apply dwf_nil|]. split; [discriminate|]. split; [intros u; split; [intros [ty E]; discriminate|intros [r E]; discriminate]|intros u v (r & a & E & _); discriminate]. }
  assert (S1 : graph_ok (source_edges f t (mkG [] [])) /\ good P (source_edges f t (mkG [] []))).
  { unfold source_edges. apply (good_fold P (fun q : string * site => beq (s_type (snd q)) POP && mem (s_status (snd q)) f) (fun _ => SUPERSOURCE) fst (fun _ => ESource) (fun _ => Some 1%Z)); [exact G0|intros u v r a E; discriminate|].
    intros q Hq _. left. split; [reflexivity|]. split; [|reflexivity]. exists (snd q). apply In_dget; [apply HI|now destruct q]. }
  destruct S1 as [G1 S1]. unfold build_digraph. cbv zeta. set (g1 := set_types [(SUPERSOURCE, NSource)] (source_edges f t (mkG [] []))).
  assert (G2 : graph_ok g1) by (apply (proj1 (set_types_ok _ _ G1))). assert (S2 : good P g1) by exact S1. clearbody g1. clear G1 S1.
  assert (S3 : graph_ok (link_edges mcs f t g1) /\ good P (link_edges mcs f t g1)).
  { unfold link_edges. apply (good_fold P (fun q : string * link => mem (l_status (snd q)) f && status_in f t (l_tx (snd q)) && status_in f t (l_rx (snd q))) (fun q => l_tx (snd q)) (fun q => l_rx (snd q)) (fun q => ELink (l_type (snd q))) (fun q => mcs_to_cost (mcs (l_id (snd q))))); [exact G2|exact S2|].
    intros [k l] Hq _. right. left. assert (E : dget (t_links t) k = Some l) by (apply In_dget; [apply HI|exact Hq]). destruct (i_links t HI k l E) as (-> & _). exists (l_id l), l, (mcs_to_cost (mcs (l_id l))). cbn [snd e_cost]. repeat split; auto. apply mcs_cost. }
  destruct S3 as [G3 S3]. set (g2 := set_types (map (fun q => (s_id (snd q), NSite (s_type (snd q)))) (t_sites t)) (link_edges mcs f t g1)). assert (G4 : graph_ok g2) by (apply (proj1 (set_types_ok _ _ G3))). assert (S4 : good P g2) by exact S3. clearbody g2. clear G3 S3 G2 S2 g1.
  assert (S5 : forall L g, incl L (t_demands t) -> graph_ok g -> good P g -> let g' := fold_left (fun g q => fold_left (fun g i => if status_in f t i then add_edge g i (fst q) (mkE (Some EDemand) (Some (Some 1%Z))) else g) (d_sites (snd q)) g) L g in graph_ok g' /\ good P g').
  { induction L as [|[k d] L IH]; intros g Hi G H g'; cbn [fold_left] in g'; [auto|]. cbn [fst snd] in g'.
    destruct (good_fold P (status_in f t) (fun i => i) (fun _ => k) (fun _ => EDemand) (fun _ => Some 1%Z) (d_sites d) g G H) as [Y1 Y2].
    - intros i Hd _. right. right. exists d. split; [apply In_dget; [apply HI|apply Hi; now left]|]. auto.
    - apply IH; [intros z Hz; apply Hi; now right|exact Y1|exact Y2]. }
  destruct (S5 (t_demands t) g2 (incl_refl _) G4 S4) as [_ S6]. exact S6.
Qed.
