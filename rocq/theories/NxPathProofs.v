From Coq Require Import ZArith Lia.
From Verif Require Import Base Dict MonadLib SetupModel LosRangeModel TopologyModel TopologySpec TopologyLemmas TopologyProofs GraphSpec GraphProofs NxModel NxSpec NxProofs NxFailProofs NxBuildProofs.
Local Open Scope list_scope.

Lemma step_app p u v : step_of p u v <-> exists a b, p = a ++ u :: v :: b.
Proof.
  split.
  - intros H. induction H as [u v r|w r u v H (a & b & ->)]; [exists [], r; reflexivity|exists (w :: a), b; reflexivity].
  - intros (a & b & ->). induction a as [|w a IH]; cbn [app]; constructor. exact IH.
Qed.
Lemma step_in p u v : step_of p u v -> In u p /\ In v p.
Proof. intros H. induction H; cbn; tauto. Qed.
Lemma step_one w u v : ~ step_of [w] u v.
Proof. intros H. inversion H as [|? ? ? ? H']. inversion H'. Qed.
Lemma step_cons w x r u v : step_of (w :: x :: r) u v <-> (u = w /\ v = x) \/ step_of (x :: r) u v.
Proof. split; [intros H; inversion H; subst; auto|intros [[-> ->]|H]; [constructor|now constructor]]. Qed.
Lemma step_dec p u v : step_of p u v \/ ~ step_of p u v.
Proof.
  induction p as [|w [|x r] IH]; [right; intros H; inversion H|right; apply step_one|]. rewrite step_cons. destruct (beq_spec u w) as [H1|H1], (beq_spec v x) as [H2|H2]; tauto.
Qed.
Lemma step_more p q u v : step_of p u v -> step_of (p ++ q) u v.
Proof. rewrite !step_app. intros (a & b & ->). exists a, (b ++ q). now rewrite <- app_assoc. Qed.
Lemma step_after p q u v : step_of q u v -> step_of (p ++ q) u v.
Proof. rewrite !step_app. intros (a & b & ->). exists (p ++ a), b. now rewrite <- app_assoc. Qed.
Lemma follows_step E p : follows E p <-> forall u v, step_of p u v -> E u v.
Proof.
  induction p as [|w [|x r] IH]; [split; [intros _ u v H; inversion H|exact (fun _ => I)]|split; [intros _ u v H; destruct (step_one _ _ _ H)|exact (fun _ => I)]|].
  change (follows E (w :: x :: r)) with (E w x /\ follows E (x :: r)). rewrite IH. split.
  - intros [H1 H2] u v H. apply step_cons in H. destruct H as [[-> ->]|H]; auto.
  - intros H. split; [apply H; constructor|]. intros u v H'. apply H. now constructor.
Qed.
Lemma add_edge_types g u v a x y ty : graph_ok g -> ~ arc g u v -> (arc_type (add_edge g u v a) x y ty <-> arc_type g x y ty \/ (x = u /\ y = v /\ ty = e_type a)).
Proof.
  intros G Hn. rewrite !arc_type_row, add_edge_row by exact G. assert (E0 : dget (row (g_adj g) u) v = None). { destruct (dget (row (g_adj g) u) v) as [b|] eqn:E; [|reflexivity]. exfalso. apply Hn. apply arc_row. eauto. }
  destruct (beq_spec x u) as [->|Hx]; [|split; [auto|intros [H|(H & _)]; [exact H|contradiction]]]. rewrite dget_set. destruct (beq_spec y v) as [->|Hy].
  - rewrite E0. split.
    + intros (b & E & <-). injection E as <-. right. unfold update, no_attr. cbn [e_type]. destruct (e_type a); auto.
    + intros [(b & E & _)|(_ & _ & ->)]; [discriminate|]. eexists. split; [reflexivity|]. unfold update, no_attr. cbn [e_type]. now destruct (e_type a).
  - split; [intros H; left; exact H|intros [H|(_ & H & _)]; [exact H|contradiction]].
Qed.
Lemma remove_edge_types g u v g' x y ty : graph_ok g -> remove_edge g u v = Ok g' -> (arc_type g' x y ty <-> arc_type g x y ty /\ ~ (x = u /\ y = v)).
Proof.
  intros G E. unfold remove_edge in E. destruct (has_edge g u v) eqn:Eh; [|discriminate]. injection E as <-. pose proof G as (_ & _ & W & _).
  rewrite !arc_type_row. cbn [g_adj]. destruct (beq_spec x u) as [->|Hx].
  - rewrite row_set_eq. destruct (beq_spec y v) as [->|Hy].
    + split; [intros (b & E & _)|intros [_ H]; tauto]. rewrite dget_del_eq in E. discriminate.
    + rewrite dget_del_neq by exact Hy. tauto.
  - rewrite row_set_neq by exact Hx. tauto.
Qed.
Lemma node_at_app pre x post n : n = List.length pre -> node_at (pre ++ x :: post) n = Ok x.
Proof. intros ->. unfold node_at. rewrite nth_error_app2 by lia. now rewrite Nat.sub_diag. Qed.
Lemma prefix_of {A} (m : list A) : forall r q d, m ++ r = q ++ [d] -> r <> [] -> exists r', q = m ++ r'.
Proof.
  induction m as [|x m IH]; intros r q d E Hr; [exists q; reflexivity|]. destruct q as [|y q]; cbn [app] in E.
  - injection E as -> E. destruct m; [cbn in E; congruence|discriminate].
  - injection E as -> E. destruct (IH _ _ _ E Hr) as [r' ->]. exists r'. reflexivity.
Qed.

Section Cut.
Variable t : topo.
Fixpoint upto (l : list string) : list string :=
  match l with
  | [] => []
  | x :: r => match dget (t_sites t) x with Some s => if beq (s_type s) CN then [] else x :: upto r | None => [] end
  end.
Definition not_cn (x : string) : Prop := forall s, dget (t_sites t) x = Some s -> s_type s <> CN.
Lemma upto_prefix l : exists r, l = upto l ++ r.
Proof.
  induction l as [|x l [r IH]]; [exists []; reflexivity|]. cbn [upto]. destruct (dget (t_sites t) x) as [s|]; [|eexists; reflexivity]. destruct (beq (s_type s) CN); [eexists; reflexivity|].
  exists r. cbn [app]. now rewrite <- IH.
Qed.
Lemma upto_not l x : In x (upto l) -> not_cn x.
Proof.
  induction l as [|y l IH]; [intros []|]. cbn [upto]. destruct (dget (t_sites t) y) as [s|] eqn:Es; [|intros []]. destruct (beq (s_type s) CN) eqn:Et; [intros []|]. intros [->|H]; [|auto]. intros s' E. assert (s' = s) by congruence. subst s'. now apply beq_false in Et.
Qed.
Lemma upto_long m : forall l r, l = m ++ r -> (forall x, In x m -> not_cn x) -> (forall x, In x m -> site_stored t x) -> exists r', upto l = m ++ r'.
Proof.
  induction m as [|x m IH]; intros l r -> H1 H2; [eexists; reflexivity|]. cbn [app upto]. destruct (H2 x) as [s Es]; [now left|]. rewrite Es. destruct (beq_spec (s_type s) CN) as [E|_]; [destruct (H1 x (or_introl eq_refl) s Es E)|].
  destruct (IH (m ++ r) r eq_refl) as [r' E]; [intros y Hy; apply H1; now right|intros y Hy; apply H2; now right|]. exists r'. now rewrite E.
Qed.
Lemma cut_ok d : forall mid pre a g stop, graph_ok g -> (forall x, In x mid -> site_stored t x) -> (forall u v, step_of (a :: mid) u v -> arc g u v) -> NoDup (a :: mid) ->
  exists g' stop', cut_path t (pre ++ (a :: mid) ++ [d]) (List.length pre) (List.length mid) g stop = Ok (g', stop') /\ graph_ok g' /\ g_nodes g' = g_nodes g
  /\ (forall x y, arc g' x y <-> arc g x y /\ ~ step_of (a :: upto mid) x y) /\ (forall x y ty, arc_type g' x y ty <-> arc_type g x y ty /\ ~ step_of (a :: upto mid) x y)
  /\ stop' = match upto mid with [] => stop | _ => List.length pre + List.length (upto mid) end.
Proof.
  induction mid as [|b mid IH]; intros pre a g stop G Hs Ha Nd; cbn [List.length cut_path upto].
  - exists g, stop. split; [reflexivity|]. split; [exact G|]. split; [reflexivity|]. split; [|split; [|reflexivity]].
    + intros x y. split; [intros H; split; [exact H|exact (step_one _ _ _)]|tauto].
    + intros x y ty. split; [intros H; split; [exact H|exact (step_one _ _ _)]|tauto].
  - replace (pre ++ (a :: b :: mid) ++ [d]) with ((pre ++ [a]) ++ b :: (mid ++ [d])) by (rewrite <- app_assoc; reflexivity).
    rewrite (node_at_app (pre ++ [a]) b) by (rewrite app_length; cbn; lia). cbn [rbind]. destruct (Hs b) as [s Es]; [now left|]. rewrite Es. unfold get. rewrite Es. cbn [rbind].
    destruct (beq (s_type s) CN) eqn:Et.
    + exists g, stop. split; [reflexivity|]. split; [exact G|]. split; [reflexivity|]. split; [|split; [|reflexivity]].
      * intros x y. split; [intros H; split; [exact H|exact (step_one _ _ _)]|tauto].
      * intros x y ty. split; [intros H; split; [exact H|exact (step_one _ _ _)]|tauto].
    + assert (En : node_at ((pre ++ [a]) ++ b :: mid ++ [d]) (List.length pre) = Ok a) by (rewrite <- app_assoc; cbn [app]; now apply node_at_app). rewrite En. cbn [rbind].
      assert (Hab : arc g a b) by (apply Ha; constructor). destruct (remove_edge_ok g a b G Hab) as (g1 & E1 & G1 & A1 & N1). rewrite E1. cbn [rbind].
      pose proof (fun x y ty => remove_edge_types g a b g1 x y ty G E1) as T1.
      destruct (IH (pre ++ [a]) b g1 (S (List.length pre))) as (g2 & st & E2 & G2 & N2 & A2 & T2 & S2).
      * exact G1.
      * intros x Hx. apply Hs. now right.
      * intros u v H. apply A1. split; [apply Ha; now constructor|]. intros [-> ->]. inversion Nd as [|? ? X _]; subst. apply X. now apply step_in in H.
      * now inversion Nd.
      * rewrite app_length in E2, S2. cbn [List.length] in E2, S2. rewrite Nat.add_1_r in E2, S2.
        exists g2, st. split; [|split; [exact G2|split; [congruence|split; [|split]]]].
        -- replace ((pre ++ [a]) ++ b :: mid ++ [d]) with ((pre ++ [a]) ++ (b :: mid) ++ [d]) by reflexivity. exact E2.
        -- intros x y. rewrite A2, A1, step_cons. tauto.
        -- intros x y ty. rewrite T2, T1, step_cons. tauto.
        -- rewrite S2. destruct (upto mid); cbn [List.length]; lia.
Qed.
End Cut.
Lemma mend_ok m : forall pre a post g, graph_ok g -> (forall x, In x (a :: m) -> node g x) -> (forall u v, step_of (a :: m) u v -> ~ arc g u v) -> NoDup (a :: m) ->
  exists g', mend_path (pre ++ (a :: m) ++ post) (List.length pre) (List.length m) g = Ok g' /\ graph_ok g' /\ g_nodes g' = g_nodes g
  /\ (forall x y, arc g' x y <-> arc g x y \/ step_of (a :: m) x y) /\ (forall x y ty, arc_type g' x y ty <-> arc_type g x y ty \/ (step_of (a :: m) x y /\ ty = None)).
Proof.
  induction m as [|b m IH]; intros pre a post g G Hn Ha Nd; cbn [List.length mend_path].
  - exists g. split; [reflexivity|]. split; [exact G|]. split; [reflexivity|]. split.
    + intros x y. split; [auto|]. intros [H|H]; [exact H|]. destruct (step_one _ _ _ H).
    + intros x y ty. split; [auto|]. intros [H|[H _]]; [exact H|]. destruct (step_one _ _ _ H).
  - replace (pre ++ (a :: b :: m) ++ post) with (pre ++ a :: (b :: m ++ post)) by reflexivity. rewrite (node_at_app pre a) by reflexivity. cbn [rbind].
    replace (pre ++ a :: b :: m ++ post) with ((pre ++ [a]) ++ (b :: m) ++ post) by (rewrite <- app_assoc; reflexivity).
    rewrite (node_at_app (pre ++ [a]) b (m ++ post)) by (rewrite app_length; cbn; lia). cbn [rbind].
    assert (Hab : ~ arc g a b) by (apply Ha; constructor). destruct (add_edge_ok g a b no_attr G) as (G1 & A1 & _). pose proof (fun x y ty => add_edge_types g a b no_attr x y ty G Hab) as T1.
    assert (N1 : g_nodes (add_edge g a b no_attr) = g_nodes g) by (apply add_edge_same; apply Hn; cbn; auto).
    destruct (IH (pre ++ [a]) b post (add_edge g a b no_attr) G1) as (g2 & E2 & G2 & N2 & A2 & T2).
    + intros x Hx. unfold node. rewrite N1. apply Hn. now right.
    + intros u v H X. apply A1 in X. destruct X as [X|[-> ->]]; [apply (Ha u v); [now constructor|exact X]|]. inversion Nd as [|? ? Y _]; subst. apply Y. now apply step_in in H.
    + now inversion Nd.
    + rewrite app_length, Nat.add_1_r in E2. exists g2. split; [exact E2|]. split; [exact G2|]. split; [congruence|]. split.
      * intros x y. rewrite A2, A1, step_cons. tauto.
      * intros x y ty. rewrite T2, T1, step_cons. cbn [e_type no_attr]. tauto.
Qed.
(** what the paths need to know about the graph *)
Definition shape (t : topo) (g : graph) : Prop :=
  (forall v, arc g SUPERSOURCE v -> exists s, dget (t_sites t) v = Some s /\ s_type s = POP) /\
  (forall u v, arc g u v -> u = SUPERSOURCE \/ site_stored t u) /\
  (forall d D, dget (t_demands t) d = Some D -> ~ site_stored t d /\ d <> SUPERSOURCE).
Section Disjoint.
Variables (t : topo) (g : graph) (paths : dict string (list string)).
Hypothesis G : graph_ok g.
Hypothesis Hs : node g SUPERSOURCE.
Hypothesis Sh : shape t g.
Hypothesis P : forall d D p, dget (t_demands t) d = Some D -> dget paths d = Some p -> path_to (arc g) d p.
Lemma path_form d D p : dget (t_demands t) d = Some D -> dget paths d = Some p ->
  exists a mid s, p = SUPERSOURCE :: (a :: mid) ++ [d] /\ NoDup (a :: mid) /\ dget (t_sites t) a = Some s /\ s_type s = POP /\ (forall x, In x (a :: mid) -> site_stored t x) /\ (forall u v, step_of p u v -> arc g u v).
Proof using Sh P.
  intros Hd Hp. destruct Sh as (S1 & S2 & S3). destruct (S3 _ _ Hd) as [Hd1 Hd2]. destruct (P _ _ _ Hd Hp) as (q & -> & Nd & F).
  pose proof (proj1 (follows_step _ _) F) as F'. inversion Nd as [|? ? N1 N2]; subst.
  assert (HS : forall x, In x q -> site_stored t x).
  { intros x Hx. apply in_split in Hx. destruct Hx as (l1 & l2 & ->). assert (X : exists y, arc g x y). { destruct l2 as [|y l2]; [exists d|exists y]; apply F'; apply step_app; [exists (SUPERSOURCE :: l1), []|exists (SUPERSOURCE :: l1), (l2 ++ [d])]; cbn [app]; rewrite <- app_assoc; reflexivity. }
    destruct X as [y X]. destruct (S2 _ _ X) as [->|H]; [|exact H]. exfalso. apply N1. rewrite <- app_assoc. apply in_or_app. right. now left. }
  destruct q as [|a mid].
  - exfalso. destruct (S1 d) as (s & Es & _); [apply F'; constructor|]. apply Hd1. exists s. exact Es.
  - destruct (S1 a) as (s & Es & Et); [apply F'; constructor|]. exists a, mid, s. split; [reflexivity|]. split; [|auto]. rewrite <- (app_nil_r (a :: mid)). apply NoDup_remove_1 with (a := d). exact N2.
Qed.
Lemma before_upto a mid d s u v : dget (t_sites t) a = Some s -> s_type s = POP -> (forall x, In x (a :: mid) -> site_stored t x) ->
  (before_cn t (SUPERSOURCE :: (a :: mid) ++ [d]) u v <-> step_of (a :: upto t mid) u v).
Proof using.
  intros Ea Et HS. assert (U : upto t (a :: mid) = a :: upto t mid) by (cbn [upto]; rewrite Ea, Et; reflexivity). split.
  - intros (m & r & E & Hr & Hm & Hc). injection E as E. symmetry in E. destruct (prefix_of m r (a :: mid) d E Hr) as [r' E'].
    destruct (upto_long t m (a :: mid) r' E') as [r2 E2]; [intros x Hx s' Es'; now apply (Hc x)|intros x Hx; apply HS; rewrite E'; apply in_or_app; now left|]. rewrite <- U, E2. now apply step_more.
  - intros H. destruct (upto_prefix t (a :: mid)) as [r E]. rewrite U in E. exists (a :: upto t mid), (r ++ [d]). split; [rewrite E at 1; now rewrite <- app_assoc|]. split; [destruct r; discriminate|]. split; [exact H|].
    intros x s' Hx Es'. rewrite <- U in Hx. now apply (upto_not t _ _ Hx).
Qed.
Definition same (c : graph) : Prop := graph_ok c /\ (forall x y, arc c x y <-> arc g x y) /\ g_nodes c = g_nodes g.
Definition apart (d : string) (p : list string) : Prop := linked (fun u v => arc g u v /\ ~ before_cn t p u v) d.
Lemma one_disjoint c j i D : same c -> dget (t_demands t) i = Some D ->
  exists c' j', disjoint_step t paths (c, j) i = Ok (c', j') /\ same c'
  /\ (forall u v ty, (exists p, dget paths i = Some p /\ before_cn t p u v) -> (arc_type c' u v ty <-> ty = None))
  /\ (forall u v ty, ~ (exists p, dget paths i = Some p /\ before_cn t p u v) -> (arc_type c' u v ty <-> arc_type c u v ty))
  /\ (forall x, In x (j_two j') <-> In x (j_two j) \/ (x = i /\ exists p, dget paths i = Some p /\ 3 < List.length p /\ apart i p))
  /\ (forall x, In x (j_none j') <-> In x (j_none j) \/ (x = i /\ dget paths i = None))
  /\ (forall x, In x (j_pop j') <-> In x (j_pop j) \/ (x = i /\ exists p, dget paths i = Some p /\ List.length p = 3))
  /\ (NoDup (j_two j) -> NoDup (j_two j')) /\ (NoDup (j_none j) -> NoDup (j_none j')) /\ (NoDup (j_pop j) -> NoDup (j_pop j')).
Proof using G Hs Sh P.
  intros (Gc & Ac & Nc) HD. unfold disjoint_step. destruct (dget paths i) as [p|] eqn:Ep.
  2:{ exists c. eexists. split; [reflexivity|]. cbn [j_two j_none j_pop]. split; [split; auto|]. split; [intros u v ty (p & E & _); discriminate|]. split; [tauto|].
      split; [intros x; split; [auto|intros [H|(_ & p & E & _)]; [exact H|discriminate]]|]. split; [intros x; rewrite sadd_In; tauto|]. split; [intros x; split; [auto|intros [H|(_ & p & E & _)]; [exact H|discriminate]]|].
      split; [auto|]. split; [apply sadd_NoDup|auto]. }
  destruct (path_form i D p HD Ep) as (a & mid & s & E & Nd & Ea & Et & HS & F). assert (Lp : List.length p = 3 + List.length mid) by (rewrite E; cbn [List.length app]; rewrite app_length; cbn [List.length]; lia).
  assert (BU : forall u v, before_cn t p u v <-> step_of (a :: upto t mid) u v) by (intros u v; rewrite E; now apply (before_upto a mid i s)).
  destruct (Nat.leb_spec (List.length p) 3) as [Hle|Hgt].
  - assert (mid = []) by (destruct mid; [reflexivity|cbn in Lp; lia]). subst mid. cbn [List.length] in Lp. rewrite Lp. cbn [Nat.eqb negb]. assert (En : node_at p 1 = Ok a) by (rewrite E; reflexivity). rewrite En. cbn [rbind].
    unfold get. rewrite Ea. cbn [rbind]. rewrite Et. exists c. eexists. split; [reflexivity|]. cbn [j_two j_none j_pop]. split; [split; auto|].
    split; [intros u v ty (p' & Ep' & H); injection Ep' as <-; apply BU in H; destruct (step_one _ _ _ H)|]. split; [tauto|].
    split; [intros x; split; [auto|intros [H|(_ & p' & Ep' & H & _)]; [exact H|injection Ep' as <-; lia]]|]. split; [intros x; split; [auto|intros [H|(_ & X)]; [exact H|discriminate]]|].
    split; [intros x; rewrite sadd_In; split; [intros [->|H]; [right; eauto|auto]|intros [H|(-> & _)]; auto]|]. split; [auto|]. split; [auto|apply sadd_NoDup].
  - replace (List.length p - 3) with (List.length mid) by lia.
    destruct (cut_ok t i mid [SUPERSOURCE] a c 0 Gc) as (c1 & st & E1 & G1 & N1 & A1 & T1 & S1).
    + intros x Hx. apply HS. now right.
    + intros u v H. apply Ac. apply F. rewrite E. apply step_later. now apply step_more.
    + exact Nd.
    + replace (cut_path t p 1 (List.length mid) c 0) with (Ok (c1, st)) by (rewrite E; symmetry; exact E1). cbn [rbind].
      assert (Hs1 : node c1 SUPERSOURCE) by (unfold node; rewrite N1, Nc; exact Hs). destruct (descendants_ok c1 G1 Hs1) as (des & Ed & _ & Hdes). rewrite Ed. cbn [rbind].
      assert (Hi : i <> SUPERSOURCE) by (destruct Sh as (_ & _ & S3); now apply (S3 i D)).
      assert (Mi : mem i des = true <-> apart i p). { rewrite mem_In, Hdes. unfold apart. split.
        - intros [H _]. eapply linked_ext; [|exact H]. cbn beta. intros u v X. apply A1 in X. rewrite Ac in X. now rewrite BU.
        - intros H. split; [|exact Hi]. eapply linked_ext; [|exact H]. cbn beta. intros u v X. apply A1. rewrite Ac. now rewrite BU in X. }
      assert (Hm : exists r, p = [SUPERSOURCE] ++ (a :: upto t mid) ++ r). { destruct (upto_prefix t mid) as [r Er]. exists (r ++ [i]). rewrite E. cbn [app]. f_equal. f_equal. rewrite Er at 1. now rewrite <- app_assoc. }
      destruct Hm as [r Er]. assert (Hst : st - 1 = List.length (upto t mid)) by (rewrite S1; destruct (upto t mid); cbn [List.length]; lia). rewrite Hst.
      assert (Hin : forall x, In x (a :: upto t mid) -> In x (a :: mid)). { intros x [->|Hx]; [now left|]. right. destruct (upto_prefix t mid) as [r2 Er2]. rewrite Er2. apply in_or_app. now left. }
      destruct (mend_ok (upto t mid) [SUPERSOURCE] a r c1 G1) as (c2 & E2 & G2 & N2 & A2 & T2).
      * intros x Hx. assert (Hx' : In x (SUPERSOURCE :: (a :: mid) ++ [i])) by (right; apply in_or_app; left; auto).
        unfold node. rewrite N1, Nc. change (node g x). apply in_split in Hx'. destruct Hx' as (l1 & l2 & El). assert (X : exists y, arc g x y).
        { destruct l2 as [|y l2]; [|exists y; apply F; rewrite E, El; apply step_app; exists l1, l2; reflexivity]. exfalso. assert (i = x). { change (SUPERSOURCE :: (a :: mid) ++ [i]) with ((SUPERSOURCE :: a :: mid) ++ [i]) in El. now apply app_inj_tail in El. } subst x.
          destruct Sh as (_ & _ & S3). destruct (S3 i D HD) as [Y _]. apply Y. apply HS. auto. }
        destruct X as [y X]. now apply (arc_nodes g _ _ G) in X.
      * intros u v H X. apply A1 in X. tauto.
      * destruct (upto_prefix t mid) as [r2 Er2]. rewrite Er2 in Nd. change (NoDup ((a :: upto t mid) ++ r2)) in Nd. now apply NoDup_app_iff in Nd.
      * replace (mend_path p 1 (List.length (upto t mid)) c1) with (Ok c2) by (rewrite Er; symmetry; exact E2). cbn [rbind]. exists c2. eexists. split; [reflexivity|].
        assert (BA : forall x y, before_cn t p x y -> arc g x y).
        { intros x y H. apply F. rewrite E. apply step_later. rewrite BU in H. destruct (upto_prefix t mid) as [r2 Er2]. rewrite Er2. change (step_of ((a :: upto t mid ++ r2) ++ [i]) x y). apply step_more. change (step_of ((a :: upto t mid) ++ r2) x y). now apply step_more. }
        split; [split; [exact G2|split; [|congruence]]|].
        { intros x y. rewrite A2, A1, Ac. pose proof (BA x y) as B. rewrite BU in B. pose proof (step_dec (a :: upto t mid) x y). tauto. }
        split; [|split; [|split; [|split; [|split; [|split; [|split]]]]]].
        -- intros u v ty (p' & Ep' & H). injection Ep' as <-. rewrite T2, T1. apply BU in H. tauto.
        -- intros u v ty H. rewrite T2, T1. assert (X : ~ step_of (a :: upto t mid) u v) by (rewrite <- BU; intros X; apply H; eauto). tauto.
        -- intros x. destruct (mem i des) eqn:Em; cbn [j_two].
           ++ rewrite sadd_In. split; [intros [->|H]; [right; split; [reflexivity|exists p; tauto]|auto]|intros [H|(-> & _)]; auto].
           ++ split; [auto|]. intros [H|(-> & p' & Ep' & _ & H)]; [exact H|]. injection Ep' as <-. apply Mi in H. congruence.
        -- intros x. replace (j_none (if mem i des then _ else _)) with (j_none j) by (destruct (mem i des); reflexivity). split; [auto|intros [H|(_ & X)]; [exact H|discriminate]].
        -- intros x. replace (j_pop (if mem i des then _ else _)) with (j_pop j) by (destruct (mem i des); reflexivity). split; [auto|intros [H|(_ & p' & Ep' & H)]; [exact H|injection Ep' as <-; lia]].
        -- destruct (mem i des); [apply sadd_NoDup|auto].
        -- destruct (mem i des); auto.
        -- destruct (mem i des); auto.
Qed.
Definition blank_in (l : list string) (u v : string) : Prop := exists d p, In d l /\ dget paths d = Some p /\ before_cn t p u v.
Lemma before_dec p u v d D : dget (t_demands t) d = Some D -> dget paths d = Some p -> before_cn t p u v \/ ~ before_cn t p u v.
Proof using Sh P. intros HD Hp. destruct (path_form d D p HD Hp) as (a & mid & s & -> & Nd & Ea & Et & HS & F). rewrite (before_upto a mid d s) by assumption. apply step_dec. Qed.
Lemma fold_disjoint l : forall c j, same c -> (forall d, In d l -> exists D, dget (t_demands t) d = Some D) ->
  exists c' j', foldM (disjoint_step t paths) (c, j) l = Ok (c', j') /\ same c'
  /\ (forall u v ty, blank_in l u v -> (arc_type c' u v ty <-> ty = None)) /\ (forall u v ty, ~ blank_in l u v -> (arc_type c' u v ty <-> arc_type c u v ty))
  /\ (forall x, In x (j_two j') <-> In x (j_two j) \/ (In x l /\ exists p, dget paths x = Some p /\ 3 < List.length p /\ apart x p))
  /\ (forall x, In x (j_none j') <-> In x (j_none j) \/ (In x l /\ dget paths x = None))
  /\ (forall x, In x (j_pop j') <-> In x (j_pop j) \/ (In x l /\ exists p, dget paths x = Some p /\ List.length p = 3))
  /\ (NoDup (j_two j) -> NoDup (j_two j')) /\ (NoDup (j_none j) -> NoDup (j_none j')) /\ (NoDup (j_pop j) -> NoDup (j_pop j')).
Proof using G Hs Sh P.
  induction l as [|i l IH]; intros c j Hc Hl; cbn [foldM].
  - exists c, j. split; [reflexivity|]. split; [exact Hc|]. split; [intros u v ty (d & p & [] & _)|]. split; [tauto|]. cbn [In]. repeat match goal with |- _ /\ _ => split end; try tauto; intros x; tauto.
  - destruct (Hl i) as [D HD]; [now left|]. destruct (one_disjoint c j i D Hc HD) as (c1 & j1 & E1 & S1 & B1 & O1 & W1 & N1 & P1 & D1 & D2 & D3). rewrite E1. cbn [rbind].
    destruct (IH c1 j1 S1) as (c2 & j2 & E2 & S2 & B2 & O2 & W2 & N2 & P2 & F1 & F2 & F3); [intros d Hd; apply Hl; now right|].
    exists c2, j2. split; [exact E2|]. split; [exact S2|].
    assert (Dec : forall u v l, (forall d, In d l -> exists D, dget (t_demands t) d = Some D) -> blank_in l u v \/ ~ blank_in l u v).
    { clear -Sh P. intros u v. induction l as [|d l IH]; intros Hl; [right; intros (d & p & [] & _)|]. destruct IH as [H|H]; [intros x Hx; apply Hl; now right|left; destruct H as (x & p & Hx & H); exists x, p; cbn; tauto|].
      destruct (Hl d) as [D HD]; [now left|]. destruct (dget paths d) as [p|] eqn:Ep.
      - destruct (before_dec p u v d D HD Ep) as [B|B]; [left; exists d, p; cbn; auto|]. right. intros (x & p' & [<-|Hx] & E & X); [congruence|]. apply H. exists x, p'. auto.
      - right. intros (x & p' & [<-|Hx] & E & X); [congruence|]. apply H. exists x, p'. auto. }
    assert (Split : forall u v, blank_in (i :: l) u v <-> (exists p, dget paths i = Some p /\ before_cn t p u v) \/ blank_in l u v).
    { intros u v. split; [intros (d & p & [<-|Hd] & H); [left; eauto|right; exists d, p; auto]|intros [(p & H)|(d & p & Hd & H)]; [exists i, p; cbn; auto|exists d, p; cbn; auto]]. }
    assert (Hl' : forall d, In d l -> exists D, dget (t_demands t) d = Some D) by (intros d Hd; apply Hl; now right).
    split; [|split; [|split; [|split; [|split; [|split; [|split]]]]]].
    + intros u v ty H. apply Split in H. destruct (Dec u v l Hl') as [X|X]; [now apply B2|]. rewrite O2 by exact X. apply B1. tauto.
    + intros u v ty H. rewrite Split in H. rewrite O2 by tauto. apply O1. tauto.
    + intros x. rewrite W2, W1. cbn [In]. split; [intros [[H|(-> & H)]|H]; [tauto|right; auto|tauto]|]. intros [H|([<-|H] & H')]; [tauto|left; right; auto|tauto].
    + intros x. rewrite N2, N1. cbn [In]. split; [intros [[H|(-> & H)]|H]; [tauto|right; auto|tauto]|]. intros [H|([<-|H] & H')]; [tauto|left; right; auto|tauto].
    + intros x. rewrite P2, P1. cbn [In]. split; [intros [[H|(-> & H)]|H]; [tauto|right; auto|tauto]|]. intros [H|([<-|H] & H')]; [tauto|left; right; auto|tauto].
    + auto.
    + auto.
    + auto.
Qed.
End Disjoint.
(** *** from being connected to a path *)
Lemma follows_cut E p q : follows E (p ++ q) -> follows E p.
Proof. rewrite !follows_step. intros H u v X. apply H. now apply step_more. Qed.
Lemma linked_path E x : linked E x -> exists p, hd_error p = Some SUPERSOURCE /\ NoDup p /\ follows E p /\ exists q, p = q ++ [x].
Proof.
  intros L. induction L as [|u v L (p & H1 & H2 & H3 & q & ->) He].
  - exists [SUPERSOURCE]. split; [reflexivity|]. split; [repeat constructor; intros []|]. split; [exact I|]. exists []. reflexivity.
  - destruct (mem v (q ++ [u])) eqn:Em.
    + apply mem_In, in_split in Em. destruct Em as (l1 & l2 & El). rewrite El in *. exists (l1 ++ [v]). split; [destruct l1; exact H1|]. replace (l1 ++ v :: l2) with ((l1 ++ [v]) ++ l2) in * by (rewrite <- app_assoc; reflexivity).
      split; [now apply NoDup_app_iff in H2|]. split; [now apply follows_cut in H3|]. exists l1. reflexivity.
    + apply mem_not_In in Em. exists ((q ++ [u]) ++ [v]). split; [destruct q; exact H1|]. split; [apply NoDup_app_iff; split; [exact H2|]; split; [repeat constructor; intros []|]; intros x Hx [<-|[]]; contradiction|].
      split; [|eexists; reflexivity]. apply follows_step. intros a b H. apply step_app in H. destruct H as (l1 & l2 & El). destruct l2 as [|y l2] using rev_ind.
      * replace (l1 ++ [a; b]) with ((l1 ++ [a]) ++ [b]) in El by (rewrite <- app_assoc; reflexivity). apply app_inj_tail in El. destruct El as [El ->]. apply app_inj_tail in El. destruct El as [_ ->]. exact He.
      * replace (l1 ++ a :: b :: l2 ++ [y]) with ((l1 ++ a :: b :: l2) ++ [y]) in El by (rewrite <- app_assoc; reflexivity). apply app_inj_tail in El. destruct El as [El _]. apply (proj1 (follows_step _ _) H3). apply step_app. exists l1, l2. exact El.
Qed.
Lemma linked_path_to E x : linked E x -> x <> SUPERSOURCE -> exists p, path_to E x p.
Proof.
  intros L Hx. destruct (linked_path E x L) as (p & H1 & H2 & H3 & q & ->). destruct q as [|y q]; [cbn in H1; congruence|]. cbn in H1. injection H1 as ->. exists ((SUPERSOURCE :: q) ++ [x]). exists q. auto.
Qed.
Lemma path_linked E d p : path_to E d p -> linked E d.
Proof.
  intros (q & -> & _ & F). change (SUPERSOURCE :: q ++ [d]) with ((SUPERSOURCE :: q) ++ [d]) in F.
  assert (X : forall p x y, linked E x -> follows E ((x :: p) ++ [y]) -> linked E y).
  { clear. induction p as [|z p IH]; intros x y L F; cbn [app] in F.
    - destruct F as [F _]. eapply linked_step; eauto.
    - destruct F as [F F']. apply (IH z y); [eapply linked_step; eauto|exact F']. }
  apply (X q SUPERSOURCE d); [constructor|exact F].
Qed.
