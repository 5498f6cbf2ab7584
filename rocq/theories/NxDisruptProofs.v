From Coq Require Import ZArith Lia Sorting.Sorted Sorting.Permutation.
From Verif Require Import Base Dict MonadLib SetupModel LosRangeModel TopologyModel TopologySpec TopologyLemmas TopologyProofs GraphSpec GraphProofs NxModel NxSpec NxProofs NxFailProofs NxBuildProofs NxPathProofs.
Local Open Scope list_scope.

Lemma by_size {A} (size : A -> nat) l : StronglySorted (fun x y => size y <= size x) (sort_by (fun p q => (size q <? size p)%nat) l).
Proof.
  apply Sorted_StronglySorted; [intros x y z; lia|]. unfold sort_by. induction l as [|x l IH]; cbn [fold_right]; [constructor|].
  revert IH. generalize (fold_right (insert_by (fun p q => (size q <? size p)%nat)) [] l). clear l. induction l as [|y l IH]; intros Hs; cbn [insert_by]; [repeat constructor|].
  inversion Hs as [|? ? Hr Hh]; subst. destruct (Nat.ltb_spec (size x) (size y)) as [Hlt|Hge].
  - constructor; [auto|]. destruct l as [|z l]; cbn [insert_by]; [constructor; lia|]. inversion Hh; subst. destruct (Nat.ltb_spec (size x) (size z)); constructor; lia.
  - constructor; [exact Hs|]. constructor. lia.
Qed.

Section Disrupt.
Variables (proposed cand : graph).
Hypothesis Gp : graph_ok proposed.
Hypothesis Gc : graph_ok cand.
Hypothesis NLp : no_loops proposed.
Hypothesis NLc : no_loops cand.
Hypothesis Sp : source_ok proposed.
Hypothesis Sc : source_ok cand.
Variable demands : list string.
Hypothesis HD : lists_all demands (connected_demand cand (arc cand)).
Variable fails : dict (string * string) (list string).
Hypothesis HF : forall u v L, dget fails (u, v) = Some L -> L <> [] -> critical proposed u v.
Definition Inv (c : graph) (acc : list (string * string)) : Prop :=
  graph_ok c /\ g_nodes c = g_nodes cand /\ (forall x y, arc c x y <-> without_all cand acc x y) /\ (forall d, connected_demand cand (arc cand) d -> linked (arc c) d) /\
  NoDup acc /\ (forall x y, In (x, y) acc -> arc cand x y /\ critical proposed x y /\ (arc cand y x -> In (y, x) acc)).
Definition pair_out (c : graph) (u v x y : string) : Prop := arc c x y /\ ~ (x = u /\ y = v) /\ ~ (x = v /\ y = u).
Lemma disruptive_sym u v : critical proposed u v -> critical proposed v u.
Proof using. intros [[d [H1 H2]] H3]. split; [|tauto]. exists d. split; [exact H1|]. intros X. apply H2. eapply linked_ext; [|exact X]. unfold without_pair. tauto. Qed.
(** one link taken out of the candidates *)
Lemma take_out c acc u v c1 c2 : Inv c acc -> remove_edge c u v = Ok c1 -> (if has_edge cand v u then remove_edge c1 v u else Ok c1) = Ok c2 ->
  graph_ok c2 /\ g_nodes c2 = g_nodes cand /\ (forall x y, arc c2 x y <-> pair_out c u v x y) /\ arc c u v /\ (has_edge cand v u = true -> arc c v u).
Proof using NLc.
  intros (Ic & In0 & Ia & _) E1 E2. destruct (remove_edge_inv c u v c1 Ic E1) as (Huv & G1 & A1 & N1). destruct (has_edge cand v u) eqn:Er.
  - destruct (remove_edge_inv c1 v u c2 G1 E2) as (Hvu & G2 & A2 & N2). split; [exact G2|]. split; [congruence|]. apply A1 in Hvu. split; [|tauto]. intros x y. unfold pair_out. rewrite A2, A1. tauto.
  - injection E2 as <-. split; [exact G1|]. split; [congruence|]. split; [|split; [exact Huv|discriminate]]. intros x y. unfold pair_out. rewrite A1. apply has_edge_false in Er. split; [|tauto]. intros [H1 H2]. split; [exact H1|]. split; [exact H2|].
    intros [-> ->]. apply Er. apply Ia in H1. apply H1.
Qed.
Lemma accepted c acc u v c1 c2 des : Inv c acc -> remove_edge c u v = Ok c1 -> (if has_edge cand v u then remove_edge c1 v u else Ok c1) = Ok c2 -> descendants c2 = Ok des -> not_in demands des = [] -> critical proposed u v ->
  Inv c2 (if has_edge cand v u then sadd (v, u) (sadd (u, v) acc) else sadd (u, v) acc).
Proof using NLc Sc HD.
  intros HI E1 E2 Ed Hn Hd. destruct (take_out c acc u v c1 c2 HI E1 E2) as (G2 & N2 & A2 & Huv & Hvu). pose proof HI as (Ic & In0 & Ia & Id & Iu & Ip).
  assert (Hin : forall x y, In (x, y) (if has_edge cand v u then sadd (v, u) (sadd (u, v) acc) else sadd (u, v) acc) <-> (x = u /\ y = v) \/ (has_edge cand v u = true /\ x = v /\ y = u) \/ In (x, y) acc).
  { intros x y. destruct (has_edge cand v u); rewrite ?sadd_In; split.
    - intros [E|[E|H]]; [injection E as -> ->; auto|injection E as -> ->; auto|auto].
    - intros [[-> ->]|[(_ & -> & ->)|H]]; auto.
    - intros [E|H]; [injection E as -> ->; auto|auto].
    - intros [[-> ->]|[(X & _)|H]]; [auto|discriminate|auto]. }
  split; [exact G2|]. split; [exact N2|]. split; [|split; [|split]].
  - intros x y. rewrite A2. unfold pair_out, without_all. rewrite Hin, Ia. unfold without_all. destruct (has_edge cand v u) eqn:Er; [tauto|]. apply has_edge_false in Er.
    split; [|intros (H1 & H2); split; [tauto|]; split; [tauto|]; intros [-> ->]; contradiction]. intros ((H1 & H2) & H3 & H4). split; [exact H1|]. intros [X|[(X & _)|X]]; [tauto|discriminate|tauto].
  - intros d Hcd. assert (Hs2 : node c2 SUPERSOURCE) by (unfold node; rewrite N2; apply Sc). destruct (descendants_ok c2 G2 Hs2) as (des' & Ed' & _ & Hdes). rewrite Ed in Ed'. injection Ed' as <-.
    apply HD in Hcd. assert (X : In d des). { destruct (mem d des) eqn:Em; [now apply mem_In|]. exfalso. assert (Y : In d (not_in demands des)) by (unfold not_in; apply filter_In; split; [exact Hcd|now rewrite Em]). rewrite Hn in Y. destruct Y. }
    now apply Hdes in X.
  - destruct (has_edge cand v u); repeat apply sadd_NoDup; exact Iu.
  - intros x y H. apply Hin in H. rewrite Hin. apply Ia in Huv. destruct H as [[-> ->]|[(Er & -> & ->)|H]].
    + split; [apply Huv|]. split; [exact Hd|]. intros X. apply has_edge_iff in X. tauto.
    + split; [now apply has_edge_iff|]. split; [now apply disruptive_sym|]. tauto.
    + destruct (Ip x y H) as (P1 & P2 & P3). split; [exact P1|]. split; [exact P2|]. tauto.
Qed.
Lemma rejected c acc u v c1 c2 des : Inv c acc -> remove_edge c u v = Ok c1 -> (if has_edge cand v u then remove_edge c1 v u else Ok c1) = Ok c2 -> descendants c2 = Ok des -> not_in demands des <> [] ->
  Inv (if has_edge cand v u then add_edge (add_edge c2 u v no_attr) v u no_attr else add_edge c2 u v no_attr) acc /\ exists d, connected_demand cand (arc cand) d /\ ~ linked (pair_out c u v) d.
Proof using NLc Sc HD.
  intros HI E1 E2 Ed Hn. destruct (take_out c acc u v c1 c2 HI E1 E2) as (G2 & N2 & A2 & Huv & Hvu). pose proof HI as (Ic & In0 & Ia & Id & Iu & Ip). split.
  - assert (X : forall c3, graph_ok c3 -> g_nodes c3 = g_nodes cand -> (forall x y, arc c3 x y <-> arc c x y) -> Inv c3 acc).
    { intros c3 G3 N3 A3. split; [exact G3|]. split; [exact N3|]. split; [intros x y; now rewrite A3|]. split; [|split; [exact Iu|exact Ip]]. intros d Hcd. eapply linked_ext; [|exact (Id d Hcd)]. intros x y H. now apply A3. }
    assert (Hu : node c2 u /\ node c2 v) by (unfold node; rewrite N2, <- In0; exact (arc_nodes c u v Ic Huv)). destruct Hu as [Hu Hv].
    destruct (add_edge_ok c2 u v no_attr G2) as (G3 & A3 & _). pose proof (add_edge_same c2 u v no_attr Hu Hv) as N3.
    destruct (has_edge cand v u) eqn:Er.
    + destruct (add_edge_ok (add_edge c2 u v no_attr) v u no_attr G3) as (G4 & A4 & _). assert (N4 : g_nodes (add_edge (add_edge c2 u v no_attr) v u no_attr) = g_nodes (add_edge c2 u v no_attr)) by (apply add_edge_same; unfold node; rewrite N3; assumption).
      apply X; [exact G4|congruence|]. intros x y. rewrite A4, A3, A2. unfold pair_out. specialize (Hvu eq_refl). split.
      * intros [[H|[-> ->]]|[-> ->]]; tauto.
      * intros H. destruct (beq_spec x u) as [->|H1], (beq_spec y v) as [->|H2]; [tauto| | |]; (destruct (beq_spec x v) as [->|H3] || idtac); (destruct (beq_spec y u) as [->|H4] || idtac); tauto.
    + apply X; [exact G3|congruence|]. intros x y. rewrite A3, A2. unfold pair_out. split.
      * intros [H|[-> ->]]; tauto.
      * intros H. assert (Z : ~ (x = v /\ y = u)). { intros [-> ->]. apply has_edge_false in Er. apply Er. apply Ia in H. apply H. } destruct (beq_spec x u) as [H1|H1], (beq_spec y v) as [H2|H2]; tauto.
  - destruct (not_in demands des) as [|d r] eqn:En; [congruence|]. exists d. assert (X : In d (not_in demands des)) by (rewrite En; now left). unfold not_in in X. apply filter_In in X. destruct X as [X1 X2]. split; [now apply HD|].
    intros L. assert (Hs2 : node c2 SUPERSOURCE) by (unfold node; rewrite N2; apply Sc). destruct (descendants_ok c2 G2 Hs2) as (des' & Ed' & _ & Hdes). rewrite Ed in Ed'. injection Ed' as <-.
    apply negb_true_iff, mem_not_In in X2. apply X2. apply Hdes. split; [eapply linked_ext; [|exact L]; intros x y H; now apply A2|]. intros ->. apply HD in X1. now apply (demand_not_source cand SUPERSOURCE Sc X1).
Qed.
Let size (k : string * string) := match dget fails k with Some m => List.length m | None => 0 end.
Definition larger n (q : string * string) : Prop := exists k, (q = k \/ q = (snd k, fst k)) /\ n <= size k.
Lemma disrupt_sound count l : forall c acc L, Inv c acc -> List.length acc <= S count -> StronglySorted (fun p q => size q <= size p) l -> (forall q k, In q acc -> In k l -> larger (size k) q) ->
  disrupt proposed cand demands count fails c acc l = Ok L ->
  incl acc L /\ (exists c', Inv c' L) /\ List.length L <= S count /\
  (forall u v m, In (u, v) l -> dget fails (u, v) = Some m -> m <> [] -> ~ arc_type proposed u v (Some (ELink WIRELESS_ACCESS)) -> In (u, v) L \/ blocks cand L u v \/ (count <= List.length L /\ forall q, In q L -> larger (List.length m) q)).
Proof using Gp Gc NLp NLc Sp Sc HD HF.
  induction l as [|[u v] l IH]; intros c acc L HI Hlen Hso Hbig E; cbn [disrupt] in E.
  - injection E as <-. split; [apply incl_refl|]. split; [eauto|]. split; [exact Hlen|]. intros u v m [].
  - destruct (Nat.leb_spec count (List.length acc)) as [Hc|Hc].
    { injection E as <-. split; [apply incl_refl|]. split; [eauto|]. split; [exact Hlen|]. intros u' v' m Hin Hm _ _. right. right. split; [exact Hc|]. intros q Hq. pose proof (Hbig q (u', v') Hq Hin) as X. unfold size in X at 1. now rewrite Hm in X. }
    assert (Hbig' : forall q k, In q acc -> In k l -> larger (size k) q) by (intros q k Hq Hk; apply Hbig; [exact Hq|now right]).
    inversion Hso as [|? ? Hso' Hall]; subst. apply rbind_ok in E. destruct E as (m & Em & E). apply get_ok in Em. destruct m as [|d0 m].
    { injection E as <-. split; [apply incl_refl|]. split; [eauto|]. split; [exact Hlen|]. intros u' v' m Hin Hm Hne. exfalso. assert (X : m = []).
      { destruct Hin as [X|Hin]; [injection X as <- <-; congruence|]. pose proof (proj1 (Forall_forall _ _) Hall _ Hin) as X. cbn beta in X. unfold size in X. rewrite Hm, Em in X. destruct m; [reflexivity|cbn in X; lia]. } contradiction. }
    apply rbind_ok in E. destruct E as (r & Er & E). apply get_ok in Er. apply rbind_ok in E. destruct E as (a & Ea & E). apply get_ok in Ea. apply rbind_ok in E. destruct E as (ty & Ety & E).
    destruct (e_type a) as [ty'|] eqn:Eta; [|discriminate]. injection Ety as ->.
    assert (Hty : arc_type proposed u v (Some ty)) by (exists r, a; auto).
    assert (Hdis : critical proposed u v) by (apply (HF u v _ Em); discriminate).
    destruct (match ty with ELink WIRELESS_ACCESS => true | _ => false end) eqn:Eacc.
    { assert (ty = ELink WIRELESS_ACCESS) by (destruct ty as [|[]|]; try discriminate; reflexivity). subst ty. destruct (IH c acc L HI Hlen Hso' Hbig' E) as (I1 & I2 & I3 & I4). split; [exact I1|]. split; [exact I2|]. split; [exact I3|].
      intros u' v' m' [X|Hin] Hm Hne Hna; [injection X as <- <-; contradiction|]. now apply (I4 u' v' m'). }
    destruct (mem (u, v) acc) eqn:Emem.
    { apply mem_In in Emem. destruct (IH c acc L HI Hlen Hso' Hbig' E) as (I1 & I2 & I3 & I4). split; [exact I1|]. split; [exact I2|]. split; [exact I3|].
      intros u' v' m' [X|Hin] Hm Hne Hna; [injection X as <- <-; left; now apply I1|]. now apply (I4 u' v' m'). }
    apply rbind_ok in E. destruct E as (c1 & E1 & E). apply rbind_ok in E. destruct E as (c2 & E2 & E). apply rbind_ok in E. destruct E as (des & Ed & E).
    destruct (not_in demands des) as [|d1 rest] eqn:En.
    + pose proof (accepted c acc u v c1 c2 des HI E1 E2 Ed En Hdis) as HI2.
      assert (Hlen2 : List.length (if has_edge cand v u then sadd (v, u) (sadd (u, v) acc) else sadd (u, v) acc) <= S count).
      { assert (Y : forall (x : string * string) l, List.length (sadd x l) <= S (List.length l)) by (intros x l0; unfold sadd; destruct (mem x l0); [lia|rewrite ?app_length; cbn; lia]). destruct (has_edge cand v u); [pose proof (Y (v, u) (sadd (u, v) acc))|]; pose proof (Y (u, v) acc); lia. }
      assert (Hbig2 : forall q k, In q (if has_edge cand v u then sadd (v, u) (sadd (u, v) acc) else sadd (u, v) acc) -> In k l -> larger (size k) q).
      { intros q k Hq Hk. pose proof (proj1 (Forall_forall _ _) Hall _ Hk) as Y. cbn beta in Y. destruct (has_edge cand v u); rewrite ?sadd_In in Hq; [destruct Hq as [->|[->|Hq]]|destruct Hq as [->|Hq]]; try (now apply Hbig'); exists (u, v); cbn; auto. }
      cbn zeta in E. destruct (IH c2 _ L HI2 Hlen2 Hso' Hbig2 E) as (I1 & I2 & I3 & I4).
      assert (Hacc : incl acc L /\ In (u, v) L). { split; [intros q Hq|]; apply I1; destruct (has_edge cand v u); rewrite ?sadd_In; auto. }
      split; [apply Hacc|]. split; [exact I2|]. split; [exact I3|]. intros u' v' m' [X|Hin] Hm Hne Hna; [injection X as <- <-; left; apply Hacc|]. now apply (I4 u' v' m').
    + destruct (rejected c acc u v c1 c2 des HI E1 E2 Ed) as [HI2 (d & Hd1 & Hd2)]; [rewrite En; discriminate|].
      cbn zeta in E. destruct (IH _ _ L HI2 Hlen Hso' Hbig' E) as (I1 & I2 & I3 & I4). split; [exact I1|]. split; [exact I2|]. split; [exact I3|].
      intros u' v' m' [X|Hin] Hm Hne Hna; [|now apply (I4 u' v' m')]. injection X as <- <-. right. left. exists d. split; [exact Hd1|]. intros Lk. apply Hd2. eapply linked_ext; [|exact Lk]. cbn beta. intros x y ((H1 & H2) & H3 & H4).
      destruct HI as (_ & _ & Ia & _). split; [|auto]. apply Ia. split; [exact H1|]. intros X. apply H2. now apply I1.
Qed.
(** nothing is raised if every link of the plan is there in both directions, and among the candidates *)
Lemma disrupt_total count l : (forall u v, In (u, v) l -> (exists m, dget fails (u, v) = Some m) /\ (exists ty, arc_type proposed u v (Some ty)) /\ arc cand u v) ->
  forall c acc, Inv c acc -> exists L, disrupt proposed cand demands count fails c acc l = Ok L.
Proof using Gp Gc NLp NLc Sp Sc HD HF.
  induction l as [|[u v] l IH]; intros Hl c acc HI; cbn [disrupt]; [eauto|]. destruct (count <=? List.length acc); [eauto|].
  assert (IH' := IH (fun a b H => Hl a b (or_intror H))). clear IH. destruct (Hl u v) as ((m & Em) & (ty & r & a & Er & Ea & Et) & Huv); [now left|].
  unfold get at 1. rewrite Em. cbn [rbind]. destruct m as [|d0 m]; [eauto|]. unfold get at 1. rewrite Er. cbn [rbind]. unfold get at 1. rewrite Ea. cbn [rbind]. rewrite Et. cbn [rbind].
  assert (Hdis : critical proposed u v) by (apply (HF u v _ Em); discriminate).
  destruct (match ty with ELink WIRELESS_ACCESS => true | _ => false end); [now apply IH'|]. destruct (mem (u, v) acc) eqn:Emem; [now apply IH'|]. apply mem_not_In in Emem.
  pose proof HI as (Ic & In0 & Ia & _ & _ & Ip). destruct (remove_edge_ok c u v Ic) as (c1 & E1 & G1 & A1 & N1); [now apply Ia|]. rewrite E1. cbn [rbind].
  assert (X : exists c2, (if has_edge cand v u then remove_edge c1 v u else Ok c1) = Ok c2).
  { destruct (has_edge cand v u) eqn:Eh; [|eauto]. apply has_edge_iff in Eh. destruct (remove_edge_ok c1 v u G1) as (c2 & E2 & _); [|eauto]. apply A1. split; [apply Ia; split; [exact Eh|]; intros X; apply Emem; destruct (Ip _ _ X) as (_ & _ & Y); now apply Y|].
    intros [-> _]. exact (NLc u Huv). }
  destruct X as [c2 E2]. rewrite E2. cbn [rbind]. destruct (take_out c acc u v c1 c2 HI E1 E2) as (G2 & N2 & _). assert (Hs2 : node c2 SUPERSOURCE) by (unfold node; rewrite N2; apply Sc). destruct (descendants_ok c2 G2 Hs2) as (des & Ed & _). rewrite Ed. cbn [rbind].
  destruct (not_in demands des) as [|d1 rest] eqn:En.
  - apply (IH' c2). now apply (accepted c acc u v c1 c2 des).
  - apply (IH' _ acc). apply (rejected c acc u v c1 c2 des HI E1 E2 Ed). rewrite En. discriminate.
Qed.
End Disrupt.
Section Main.
Variables (proposed cand : graph) (count : Z).
Hypothesis Gp : graph_ok proposed.
Hypothesis Gc : graph_ok cand.
Hypothesis NLp : no_loops proposed.
Hypothesis NLc : no_loops cand.
Hypothesis Sp : source_ok proposed.
Hypothesis Sc : source_ok cand.
Lemma start_inv : Inv proposed cand cand [].
Proof using Gc.
  split; [exact Gc|]. split; [reflexivity|]. split; [intros x y; unfold without_all; cbn; tauto|]. split; [intros d Hd; apply Hd|]. split; [constructor|intros x y []].
Qed.
Lemma fails_disruptive fails : single_edge_failures proposed = Ok fails -> forall u v L, dget fails (u, v) = Some L -> L <> [] -> critical proposed u v.
Proof using Gp NLp Sp.
  intros E u v L HL Hne. destruct (edge_failures_exact proposed Gp NLp Sp) as (D & E' & D1 & D2). rewrite E in E'. injection E' as <-. destruct (D1 _ _ HL) as (a & b & Hx & Hk). destruct (D2 a b (u, v) Hx Hk) as (L' & EL & _ & HL').
  assert (L' = L) by congruence. subst L'. destruct L as [|d L]; [congruence|]. split; [|destruct Hk as [[Hk|Hk] _]; injection Hk as -> ->; auto]. exists d. assert (X : lost proposed (without_pair proposed a b) d) by (apply HL'; now left). destruct Hk as [[Hk|Hk] _]; injection Hk as -> ->; [exact X|].
  destruct X as [X1 X2]. split; [exact X1|]. intros X. apply X2. eapply linked_ext; [|exact X]. unfold without_pair. tauto.
Qed.
Lemma lost_pair_sym u v d : lost proposed (without_pair proposed u v) d <-> lost proposed (without_pair proposed v u) d.
Proof using. unfold lost. assert (X : linked (without_pair proposed u v) d <-> linked (without_pair proposed v u) d) by (split; intros X; (eapply linked_ext; [|exact X]); unfold without_pair; tauto). tauto. Qed.
Lemma same_length (P Q : string -> Prop) a b : lists_all a P -> lists_all b Q -> (forall x, P x <-> Q x) -> List.length a = List.length b.
Proof using. intros [N1 H1] [N2 H2] H. apply Nat.le_antisymm; apply NoDup_incl_length; try assumption; intros x Hx; [apply H2, H, H1|apply H1, H, H2]; exact Hx. Qed.
Theorem disruptive_links L : find_most_disruptive_links proposed cand count = Ok L ->
  NoDup L /\ (0 < count -> Z.of_nat (List.length L) <= count + 1)%Z /\ (count <= 0 -> L = [])%Z /\
  (forall u v, In (u, v) L -> arc cand u v /\ critical proposed u v /\ (arc cand v u -> In (v, u) L)) /\
  (forall d, connected_demand cand (arc cand) d -> linked (without_all cand L) d) /\
  ((0 < count)%Z -> forall u v k, examined proposed u v -> sorted_pair k u v -> disruptive proposed u v -> ~ arc_type proposed (fst k) (snd k) (Some (ELink WIRELESS_ACCESS)) -> In k L \/ blocks cand L u v \/
    ((count <= Z.of_nat (List.length L))%Z /\ forall x y, In (x, y) L -> no_more (lost proposed (without_pair proposed u v)) (lost proposed (without_pair proposed x y)))).
Proof using Gp Gc NLp NLc Sp Sc.
  unfold find_most_disruptive_links. destruct (Z.leb_spec count 0) as [Hc|Hc].
  - intros E. injection E as <-. split; [constructor|]. split; [lia|]. split; [reflexivity|]. split; [intros u v []|]. split; [|lia].
    intros d [_ H]. eapply linked_ext; [|exact H]. unfold without_all. cbn. tauto.
  - intros E. apply rbind_ok in E. destruct E as (fails & Ef & E). apply rbind_ok in E. destruct E as (demands & Ed & E).
    destruct (connected_ok cand Gc Sc) as (dl & Edl & Hdl). rewrite Ed in Edl. injection Edl as <-.
    destruct (disrupt_sound proposed cand Gp Gc NLp NLc Sp Sc demands Hdl fails (fails_disruptive fails Ef) (Z.to_nat count) (sort_by (fun p q => (match dget fails q with Some l => List.length l | None => 0 end <? match dget fails p with Some l => List.length l | None => 0 end)%nat) (dkeys fails)) cand [] L start_inv (Nat.le_0_l _)) with (3 := E) as (I1 & (c' & HI) & I3 & I4).
    + apply (by_size (fun k => match dget fails k with Some l => List.length l | None => 0 end)).
    + intros q k [].
    + destruct HI as (_ & _ & Ia & Id & Iu & Ip). split; [exact Iu|]. split; [lia|]. split; [lia|]. split; [exact Ip|]. split; [intros d Hd; eapply linked_ext; [|exact (Id d Hd)]; intros x y H; now apply Ia|].
      intros _ u v k Hx Hk [d Hd] Hna. destruct (edge_failures_exact proposed Gp NLp Sp) as (D & E' & D1 & D2). rewrite Ef in E'. injection E' as <-. destruct (D2 u v k Hx Hk) as (m & Em & Lm & Hm).
      assert (Hne : m <> []) by (intros ->; now apply Hm in Hd). destruct k as [a b]. cbn [fst snd] in *. destruct (I4 a b m) as [X|[(x & X1 & X2)|[X1 X2]]]; [|exact Em|exact Hne|exact Hna|now left| |].
      * apply (Permutation_in (a, b) (Permutation_sym (sort_by_perm _ _))). apply dmem_keys, dmem_Some. eauto.
      * right. left. exists x. split; [exact X1|]. intros Y. apply X2. eapply linked_ext; [|exact Y]. cbn beta. destruct Hk as [[Hk|Hk] _]; injection Hk as -> ->; tauto.
      * right. right. split; [lia|]. intros x y Hxy la lb Hla Hlb. destruct (X2 _ Hxy) as (k & Ek & Hle). rewrite (same_length _ _ la m Hla (conj Lm Hm)) by tauto. destruct (dget fails k) as [mk|] eqn:Emk; [|destruct m; [congruence|cbn in Hle; lia]].
        destruct (D1 _ _ Emk) as (u1 & v1 & Hx1 & Hk1). destruct (D2 u1 v1 k Hx1 Hk1) as (mk' & Emk' & Lk). assert (mk' = mk) by congruence. subst mk'. rewrite (same_length _ _ lb mk Hlb Lk); [exact Hle|]. intros z.
        assert (Z : (x = u1 /\ y = v1) \/ (x = v1 /\ y = u1)) by (destruct Hk1 as [[->| ->] _]; cbn [fst snd] in Ek; destruct Ek as [Ek|Ek]; injection Ek as -> ->; auto). destruct Z as [[-> ->]|[-> ->]]; [tauto|apply lost_pair_sym].
Qed.
Theorem disruptive_total : (forall u v, examined proposed u v -> (exists ty, arc_type proposed u v (Some ty)) /\ (exists ty, arc_type proposed v u (Some ty)) /\ arc cand u v /\ arc cand v u) ->
  exists L, find_most_disruptive_links proposed cand count = Ok L.
Proof using Gp Gc NLp NLc Sp Sc.
  intros H. unfold find_most_disruptive_links. destruct (count <=? 0)%Z; [eauto|]. destruct (edge_failures_exact proposed Gp NLp Sp) as (fails & Ef & D1 & D2). rewrite Ef. cbn [rbind].
  destruct (connected_ok cand Gc Sc) as (dl & Edl & Hdl). rewrite Edl. cbn [rbind]. apply (disrupt_total proposed cand Gp Gc NLp NLc Sp Sc dl Hdl fails (fails_disruptive fails Ef)); [|exact start_inv].
  intros u v Hin. apply (Permutation_in (u, v) (sort_by_perm _ _)) in Hin. apply dmem_keys, dmem_Some in Hin. destruct Hin as [m Em]. split; [eauto|]. destruct (D1 _ _ Em) as (a & b & Hx & [[Hk|Hk] _]); injection Hk as -> ->; destruct (H _ _ Hx) as (H1 & H2 & H3 & H4); auto.
Qed.
End Main.
