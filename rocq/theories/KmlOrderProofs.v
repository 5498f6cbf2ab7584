(** Proofs: sorting and grouping. *)
From Coq Require Import ZArith QArith Lia Permutation Sorting.Sorted.
From Verif Require Import Base Dict TopologyModel TopologyLemmas SetupModel LosRangeModel RfModel ConfModel MonadLib KmlModel KmlSpec KmlReadProofs QLib.
From Verif Require TopologyProofs.
Local Open Scope list_scope.

Section sorting.
Context {A : Type} (lt : A -> A -> bool).
Definition le (a b : A) : Prop := lt b a = false.
Hypothesis asym : forall a b, lt a b = true -> lt b a = false.
Hypothesis trans : forall a b c, le a b -> le b c -> le a c.
Lemma insert_In x y l : In y (TopologyModel.insert_by lt x l) -> y = x \/ In y l.
Proof. induction l as [|z l IH]; cbn; [intuition|]. destruct (lt z x); cbn; intuition. Qed.
Lemma insert_sorted x l : StronglySorted le l -> StronglySorted le (TopologyModel.insert_by lt x l).
Proof.
  induction 1 as [|y l S1 IH F]; cbn [TopologyModel.insert_by]; [constructor; constructor|]. destruct (lt y x) eqn:E.
  - constructor; [exact IH|]. apply Forall_forall. intros z Hz. apply insert_In in Hz. destruct Hz as [->|Hz]; [apply asym, E|]. rewrite Forall_forall in F. auto.
  - constructor; [constructor; auto|]. constructor; [exact E|]. rewrite Forall_forall in *. intros z Hz. apply (trans _ y); [exact E|auto].
Qed.
Lemma sort_sorted l : StronglySorted le (TopologyModel.sort_by lt l).
Proof. unfold TopologyModel.sort_by. induction l as [|x l IH]; cbn [fold_right]; [constructor|]. now apply insert_sorted. Qed.
End sorting.

Lemma ss_app {A} (R : A -> A -> Prop) a b : StronglySorted R a -> StronglySorted R b -> (forall x y, In x a -> In y b -> R x y) -> StronglySorted R (a ++ b).
Proof.
  intros Ha Hb H. induction Ha as [|x a Ha IH F]; [exact Hb|]. cbn. constructor; [apply IH; intros; apply H; [now right|auto]|].
  apply Forall_app. split; [exact F|]. apply Forall_forall. intros y Hy. apply H; [now left|exact Hy].
Qed.
Lemma ss_app_inv {A} (R : A -> A -> Prop) a b : StronglySorted R (a ++ b) -> StronglySorted R a /\ StronglySorted R b.
Proof.
  induction a as [|x a IH]; cbn; [intros H; split; [constructor|exact H]|]. intros H. apply StronglySorted_inv in H. destruct H as [H F].
  destruct (IH H) as [A1 A2]. split; [|exact A2]. constructor; [exact A1|]. apply Forall_app in F. apply F.
Qed.
Lemma ss_imp {A} (R T : A -> A -> Prop) l : (forall x y, In x l -> In y l -> R x y -> T x y) -> StronglySorted R l -> StronglySorted T l.
Proof.
  intros H S1. induction S1 as [|x l S1 IH F]; [constructor|]. constructor; [apply IH; intros; apply H; auto; now right|].
  apply Forall_forall. intros y Hy. rewrite Forall_forall in F. apply H; [now left|now right|auto].
Qed.
Lemma ss_group {A K} `{EqB K} (R : A -> A -> Prop) (key : A -> K) l k g : StronglySorted R l -> In (k, g) (group_by key l) -> StronglySorted R g.
Proof.
  intros S1 Hg. rewrite <- (group_flat key l) in S1. apply in_split in Hg. destruct Hg as (a & b & E). rewrite E in S1.
  rewrite flat_map_app in S1. apply ss_app_inv in S1. destruct S1 as [_ S1]. cbn [flat_map snd] in S1. apply ss_app_inv in S1. apply S1.
Qed.
Lemma groups_sorted {A K} `{EqB K} (le : K -> K -> Prop) (key : A -> K) l :
  (forall a b, le a b -> le b a -> a = b) -> StronglySorted (fun a b => le (key a) (key b)) l ->
  StronglySorted (fun g h => le (fst g) (fst h) /\ fst g <> fst h) (group_by key l).
Proof.
  intros anti S1. induction S1 as [|x l S1 IH F]; [constructor|]. cbn [group_by]. destruct (group_by key l) as [|[k g] gs] eqn:E; [constructor; constructor|].
  destruct (beq_spec (key x) k) as [Ek|Nk].
  - apply StronglySorted_inv in IH. destruct IH as [I1 I2]. constructor; [exact I1|exact I2].
  - assert (G : forall k' g', In (k', g') ((k, g) :: gs) -> le (key x) k').
    { intros k' g' Hg. rewrite <- E in Hg. destruct (group_key _ _ _ _ Hg) as [N G]. destruct g' as [|y g']; [congruence|].
      destruct (G y (or_introl eq_refl)) as [<- Hy]. rewrite Forall_forall in F. now apply F. }
    constructor; [exact IH|]. apply Forall_forall. intros [k' g'] Hg. cbn [fst]. split; [eapply G, Hg|]. intros Ex. subst k'.
    destruct Hg as [Hg|Hg]; [congruence|]. apply StronglySorted_inv in IH. destruct IH as [_ I2]. rewrite Forall_forall in I2.
    destruct (I2 _ Hg) as [L _]. cbn in L. apply Nk. apply anti; [|exact L]. eapply G. now left.
Qed.
Lemma ss_nodup {A B} (R : A -> A -> Prop) (f : A -> B) l : (forall x y, R x y -> f x <> f y) -> StronglySorted R l -> NoDup (map f l).
Proof.
  intros H S1. induction S1 as [|x l S1 IH F]; cbn; constructor; [|exact IH]. intros Hin. apply in_map_iff in Hin. destruct Hin as (y & E & Hy).
  rewrite Forall_forall in F. apply (H x y (F y Hy)). now symmetry.
Qed.

(** The orders used *)
Definition sle (a b : string) : Prop := str_ltb b a = false.
Lemma str_asym a b : str_ltb a b = true -> str_ltb b a = false.
Proof. intros H. destruct (str_ltb b a) eqn:E; [|reflexivity]. pose proof (str_ltb_trans _ _ _ H E) as X. now rewrite str_ltb_irrefl in X. Qed.
Lemma sle_cases a b : sle a b <-> str_ltb a b = true \/ a = b.
Proof.
  unfold sle. split.
  - intros H. destruct (str_ltb a b) eqn:E; [auto|]. right. now apply str_ltb_total.
  - intros [H| ->]; [now apply str_asym|apply str_ltb_irrefl].
Qed.
Lemma sle_trans a b c : sle a b -> sle b c -> sle a c.
Proof.
  rewrite !sle_cases. intros [A1| ->] [A2| ->]; auto. left. eapply str_ltb_trans; eassumption.
Qed.
Lemma sle_anti a b : sle a b -> sle b a -> a = b.
Proof. unfold sle. intros H1 H2. now apply str_ltb_total. Qed.
Definition ple (p q : nat * string) : Prop := pair_ltb q p = false.
Lemma ple_cases p q : ple p q <-> (fst p < fst q)%nat \/ (fst p = fst q /\ sle (snd p) (snd q)).
Proof.
  unfold ple, pair_ltb, sle. rewrite orb_false_iff, Nat.ltb_ge, andb_false_iff, Nat.eqb_neq. destruct (str_ltb (snd q) (snd p)) eqn:E; split; intros H.
  - destruct H as [H1 [H2|H2]]; [lia|discriminate].
  - destruct H as [H|[_ H]]; [lia|discriminate].
  - destruct H as [H1 _]. destruct (Nat.eq_dec (fst p) (fst q)); [right; auto|left; lia].
  - split; [lia|]. auto.
Qed.
Lemma ple_trans p q r : ple p q -> ple q r -> ple p r.
Proof.
  rewrite !ple_cases. intros [A1|[A1 B1]] [A2|[A2 B2]]; try (left; lia). right. split; [lia|]. eapply sle_trans; eassumption.
Qed.
Lemma pair_asym p q : pair_ltb p q = true -> pair_ltb q p = false.
Proof.
  intros H. apply ple_cases. unfold pair_ltb in H. apply orb_prop in H. destruct H as [H|H]; [apply Nat.ltb_lt in H; lia|].
  apply andb_prop in H. destruct H as [H1 H2]. apply Nat.eqb_eq in H1. right. split; [exact H1|]. now apply str_asym.
Qed.
Lemma qgtb_true a b : qgtb a b = true <-> (b < a)%Q.
Proof. unfold qgtb. rewrite negb_true_iff, <- not_true_iff_false, Qle_bool_iff. split; [apply Qnot_le_lt|apply Qlt_not_le]. Qed.
Lemma qgtb_false a b : qgtb a b = false <-> (a <= b)%Q.
Proof. unfold qgtb. now rewrite negb_false_iff, Qle_bool_iff. Qed.

Lemma link_order_sorted ls : StronglySorted link_before (link_order ls).
Proof.
  unfold link_order. set (s := TopologyModel.sort_by _ ls).
  assert (S1 : StronglySorted (fun a b => sle (e_hash a) (e_hash b)) s).
  { unfold s. apply (sort_sorted (fun a b => str_ltb (e_hash a) (e_hash b))); [intros a b; apply str_asym|intros a b c; apply sle_trans]. }
  pose proof (groups_sorted sle e_hash s sle_anti S1) as G.
  assert (K : forall k g, In (k, g) (group_by e_hash s) -> forall x, In x g -> e_hash x = k) by (intros k g Hg x Hx; now apply (proj2 (group_key _ _ _ _ Hg) x)).
  induction G as [|[k g] gs G IH F]; [constructor|]. cbn [flat_map snd]. apply ss_app.
  - eapply ss_imp; [|apply (sort_sorted (fun a b => qgtb (e_util a) (e_util b)))].
    + intros x y Hx Hy L. right. apply (Permutation_in _ (TopologyProofs.sort_by_perm _ _)) in Hx, Hy. split.
      * rewrite (K k g (or_introl eq_refl) x Hx), (K k g (or_introl eq_refl) y Hy). reflexivity.
      * unfold le in L. now apply qgtb_false in L.
    + intros a b L. apply qgtb_false. apply qgtb_true in L. now apply Qlt_le_weak.
    + unfold le. intros a b c. rewrite !qgtb_false. intros L1 L2. eapply Qle_trans; eassumption.
  - apply IH. intros k' g' Hg. apply K. now right.
  - intros x y Hx Hy. left. apply (Permutation_in _ (TopologyProofs.sort_by_perm _ _)) in Hx. apply in_flat_map in Hy. destruct Hy as ([k' g'] & Hg & Hy).
    cbn [snd] in Hy. apply (Permutation_in _ (TopologyProofs.sort_by_perm _ _)) in Hy. rewrite (K k g (or_introl eq_refl) x Hx), (K k' g' (or_intror Hg) y Hy).
    rewrite Forall_forall in F. destruct (F _ Hg) as [L N]. cbn in L, N. apply sle_cases in L. destruct L as [L|L]; [exact L|contradiction].
Qed.
Lemma sites_sorted t st : StronglySorted (fun a b => ple (site_type_value (k_type a), k_name a) (site_type_value (k_type b), k_name b)) (sites_of t st).
Proof.
  apply (sort_sorted (fun a b => pair_ltb (site_type_value (k_type a), k_name a) (site_type_value (k_type b), k_name b))); [intros a b; apply pair_asym|intros a b c; apply ple_trans].
Qed.
Lemma links_sorted t st : StronglySorted (fun a b => ple (link_type_value (e_type a), e_hash a) (link_type_value (e_type b), e_hash b)) (links_of t st).
Proof.
  apply (sort_sorted (fun a b => pair_ltb (link_type_value (e_type a), e_hash a) (link_type_value (e_type b), e_hash b))); [intros a b; apply pair_asym|intros a b c; apply ple_trans].
Qed.
Lemma site_groups t st : StronglySorted (fun g h => (site_type_value (fst g) <= site_type_value (fst h))%nat /\ fst g <> fst h) (group_by k_type (sites_of t st)).
Proof.
  apply (groups_sorted (fun a b => (site_type_value a <= site_type_value b)%nat) k_type).
  - intros [] []; cbn; try reflexivity; lia.
  - eapply ss_imp; [|apply sites_sorted]. cbn. intros x y _ _ H. apply ple_cases in H. cbn in H. lia.
Qed.
Lemma link_groups t st : StronglySorted (fun g h => (link_type_value (fst g) <= link_type_value (fst h))%nat /\ fst g <> fst h) (group_by e_type (links_of t st)).
Proof.
  apply (groups_sorted (fun a b => (link_type_value a <= link_type_value b)%nat) e_type).
  - intros [] []; cbn; try reflexivity; lia.
  - eapply ss_imp; [|apply links_sorted]. cbn. intros x y _ _ H. apply ple_cases in H. cbn in H. lia.
Qed.
Lemma group_all {A K} `{EqB K} (key : A -> K) l x : NoDup (map fst (group_by key l)) -> In x l -> forall k g, In (k, g) (group_by key l) -> key x = k -> In x g.
Proof.
  intros N Hx k g Hg E. rewrite <- (group_flat key l) in Hx. apply in_flat_map in Hx. destruct Hx as ([k' g'] & Hg' & Hx). cbn in Hx.
  assert (k' = k) by (rewrite <- E; symmetry; now apply (proj2 (group_key _ _ _ _ Hg') x)). subst k'.
  replace g with g'; [exact Hx|]. clear Hx E. induction (group_by key l) as [|[k0 g0] gs IH]; [contradiction|]. cbn in N. apply NoDup_cons_iff in N. destruct N as [N1 N2].
  destruct Hg as [Hg|Hg], Hg' as [Hg'|Hg'].
  - congruence.
  - injection Hg as -> ->. exfalso. apply N1. apply (in_map fst) in Hg'. exact Hg'.
  - injection Hg' as -> ->. exfalso. apply N1. apply (in_map fst) in Hg. exact Hg.
  - auto.
Qed.
