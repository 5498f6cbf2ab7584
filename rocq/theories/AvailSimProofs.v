From Coq Require Import ZArith QArith Lqa Lia Sorting.Sorted Sorting.Permutation.
From Verif Require Import Base Dict QLib MonadLib SetupModel LosRangeModel TopologyModel TopologySpec TopologyLemmas TopologyProofs NxModel NxSpec NxProofs NxFailProofs AvailModel AvailSpec AvailProofs.
Local Open Scope string_scope.
Local Open Scope list_scope.

Definition on (k : string * string) (e : event) : bool := beq k (snd (fst e)).
Lemma perm_filter {A} (f : A -> bool) l l' : Permutation l l' -> Permutation (filter f l) (filter f l').
Proof.
  induction 1 as [|x l l' H IH|x y l|l l' l'' H1 IH1 H2 IH2]; cbn [filter].
  - constructor.
  - destruct (f x); [now constructor|exact IH].
  - destruct (f x), (f y); try apply Permutation_refl. apply perm_swap.
  - eapply Permutation_trans; eauto.
Qed.
Lemma filter_all {A} (f : A -> bool) l : (forall x, In x l -> f x = true) -> filter f l = l.
Proof. induction l as [|x l IH]; intros H; cbn [filter]; [reflexivity|]. rewrite (H x (or_introl eq_refl)), IH; [reflexivity|]. intros y Hy. apply H. now right. Qed.
Lemma filter_none {A} (f : A -> bool) l : (forall x, In x l -> f x = false) -> filter f l = [].
Proof. induction l as [|x l IH]; intros H; cbn [filter]; [reflexivity|]. rewrite (H x (or_introl eq_refl)), IH; [reflexivity|]. intros y Hy. apply H. now right. Qed.
Lemma backhaul_iff ty : backhaul ty = true <-> ty = Some (ELink WIRELESS_BACKHAUL).
Proof. destruct ty as [[|[]|]|]; cbn; split; congruence. Qed.

Section Sim.
Variable draw : string * string -> nat -> Q * Q.
Variable g : graph.
Variables mttf mttr sim : Q.
Local Notation starts := (starts draw mttf mttr).
Local Notation fails_at := (fails_at draw mttf mttr).
Local Notation down := (down draw mttf mttr).
Local Notation chain := (chain draw mttf mttr).
Local Notation works := (works draw mttf mttr g).
Hypothesis Hg : graph_ok g.
Hypothesis loops : no_loops g.
Hypothesis Hs : source_ok g.
Hypothesis both : forall u v, arc_type g u v (Some (ELink WIRELESS_BACKHAUL)) -> arc g v u.
Hypothesis Hsim : (0 < sim)%Q.
Hypothesis up : forall k, joined g k -> forall n, (0 < mttf * fst (draw k n))%Q.
Hypothesis repair : forall k, joined g k -> forall n, (0 <= mttr * snd (draw k n))%Q.

Lemma joined_edge u v : arc_type g u v (Some (ELink WIRELESS_BACKHAUL)) -> joined g (sorted_edge u v).
Proof. intros H. exists u, v. split; [exact H|apply sorted_edge_pair]. Qed.
Lemma joined_arcs u v : joined g (u, v) -> arc g u v /\ arc g v u /\ u <> v /\ sorted_edge u v = (u, v).
Proof.
  intros (x & y & H & HP). pose proof (sorted_pair_edge _ _ _ HP) as E. assert (arc g x y) as A1 by (apply arc_typed; eauto). pose proof (both _ _ H) as A2.
  assert (x <> y) as N by (intros ->; now apply (loops y)). destruct HP as [[E1|E1] _]; injection E1 as -> ->; auto. rewrite sorted_edge_sym. auto.
Qed.
Lemma end_not_joined : ~ joined g ("", "").
Proof. intros H. apply joined_arcs in H. tauto. Qed.

Section Collect.
Variable fuel : nat.
Hypothesis enough : forall k, joined g k -> (sim <= starts k fuel)%Q.
Definition collected (s : list (string * string) * list event) : Prop :=
  (forall k, In k (fst s) -> joined g k /\ exists m, filter (on k) (snd s) = chain k 0 m /\ (sim <= starts k m)%Q) /\
  (forall e, In e (snd s) -> In (snd (fst e)) (fst s)).
Lemma collect_ok : forall es s, (forall u v ty, In (u, v, ty) es -> arc_type g u v ty) -> collected s ->
  exists s', foldM (collect_step draw fuel g mttf mttr sim) s es = Ok s' /\ collected s' /\ (forall k, In k (fst s) -> In k (fst s')) /\
             (forall u v, In (u, v, Some (ELink WIRELESS_BACKHAUL)) es -> In (sorted_edge u v) (fst s')).
Proof.
  induction es as [|[[u v] ty] es IH]; intros s Hes C.
  - exists s. cbn [foldM]. split; [reflexivity|]. split; [exact C|]. split; [auto|]. intros u v [].
  - assert (forall s', collect_step draw fuel g mttf mttr sim s (u, v, ty) = Ok s' -> collected s' -> (forall k, In k (fst s) -> In k (fst s')) -> (ty = Some (ELink WIRELESS_BACKHAUL) -> In (sorted_edge u v) (fst s')) ->
      exists s'', foldM (collect_step draw fuel g mttf mttr sim) s ((u, v, ty) :: es) = Ok s'' /\ collected s'' /\ (forall k, In k (fst s) -> In k (fst s'')) /\
             (forall x y, In (x, y, Some (ELink WIRELESS_BACKHAUL)) ((u, v, ty) :: es) -> In (sorted_edge x y) (fst s''))) as Next.
    { intros s' E C' I1 I2. destruct (IH s') as (s'' & E2 & C2 & I3 & I4); [intros x y z H; apply Hes; now right|exact C'|]. exists s''. cbn [foldM]. rewrite E. cbn [rbind]. split; [exact E2|]. split; [exact C2|]. split; [auto|].
      intros x y [H|H]; [|auto]. injection H as -> -> ->. auto. }
    cbn [collect_step] in Next. destruct (backhaul ty) eqn:Eb; cbn [negb] in Next.
    2: { apply (Next s); [reflexivity|exact C|auto|]. intros ->. discriminate. }
    apply backhaul_iff in Eb. subst ty. pose proof (Hes _ _ _ (or_introl eq_refl)) as Ht. set (k := sorted_edge u v) in *. destruct (mem k (fst s)) eqn:Em.
    { apply (Next s); [reflexivity|exact C|auto|]. intros _. now apply mem_In. }
    rewrite (proj2 (has_edge_iff g v u) (both _ _ Ht)) in Next. pose proof (joined_edge _ _ Ht) as Hj. fold k in Hj.
    destruct (schedule_ok draw mttf mttr sim k fuel 0 (enough k Hj)) as (m & E & L). change (AvailSpec.starts draw mttf mttr k 0) with 0%Q in E. rewrite E in Next. cbn [rbind] in Next. destruct C as [C1 C2]. apply mem_not_In in Em.
    eapply Next; [reflexivity| |intros k' H; cbn [fst]; apply sadd_In; auto|intros _; cbn [fst]; apply sadd_In; auto]. split; cbn [fst snd].
    + intros k' H. rewrite filter_app. destruct (eqb_dec k' k) as [->|Hn].
      * split; [exact Hj|]. exists m. split; [|exact L]. rewrite filter_none, filter_all; [reflexivity| |].
        -- intros e He. unfold on. rewrite (chain_key draw mttf mttr k _ _ _ He). apply beq_refl.
        -- intros e He. unfold on. apply beq_neq. intros E1. apply Em. rewrite E1. now apply C2.
      * apply sadd_In in H. destruct H as [H|H]; [congruence|]. destruct (C1 _ H) as (H1 & m' & E1 & L1). split; [exact H1|]. exists m'. split; [|exact L1]. rewrite E1, (filter_none (on k') (chain k 0 m)), app_nil_r; [reflexivity|].
        intros e He. unfold on. rewrite (chain_key draw mttf mttr k _ _ _ He). now apply beq_neq.
    + intros e He. apply sadd_In. apply in_app_or in He. destruct He as [He|He]; [right; auto|left]. eapply chain_key; eauto.
Qed.
End Collect.

Definition SIM_END : event := (sim, ("", ""), 2%nat).
Definition pos (k : string * string) (l : list event) (last : Q) (missing : list (string * string)) : Prop :=
  exists n m, (~ In k missing /\ filter (on k) l = chain k n m /\ (starts k n <= last)%Q /\ (sim <= starts k (n + m))%Q)
           \/ (In k missing /\ filter (on k) l = (starts k (S n), k, 1%nat) :: chain k (S n) m /\ (fails_at k n <= last)%Q /\ (sim <= starts k (S n + m))%Q).
Record Inv (l : list event) (last : Q) (c : graph) (missing : list (string * string)) : Prop := {
  i_sorted : StronglySorted before l;
  i_time : forall e, In e l -> (last <= fst (fst e))%Q /\ (0 < fst (fst e))%Q;
  i_last : (0 <= last)%Q;
  i_key : forall e, In e l -> joined g (snd (fst e)) \/ e = SIM_END;
  i_end : In SIM_END l;
  i_missing : forall k, In k missing -> joined g k;
  i_pos : forall k, joined g k -> pos k l last missing;
  i_graph : graph_ok c;
  i_nodes : g_nodes c = g_nodes g;
  i_arcs : forall x y, arc c x y <-> arc g x y /\ ~ In (sorted_edge x y) missing }.

Lemma head_time t k ty l last c missing : Inv ((t, k, ty) :: l) last c missing -> (last <= t)%Q /\ (t <= sim)%Q /\ (0 < t)%Q /\ forall e, In e l -> (t <= fst (fst e))%Q.
Proof.
  intros IN. assert (forall e, In e l -> (t <= fst (fst e))%Q) as H.
  { pose proof (i_sorted _ _ _ _ IN) as S1. inversion S1 as [|? ? S2 F]; subst. rewrite Forall_forall in F. intros e He. exact (before_time _ _ (F _ He)). }
  destruct (i_time _ _ _ _ IN _ (or_introl eq_refl)) as [L1 L2]. cbn [fst] in L1, L2. split; [exact L1|]. split; [|auto].
  destruct (i_end _ _ _ _ IN) as [E|E]; [injection E as -> _ _; lra|exact (H _ E)].
Qed.
Lemma between t k0 ty l last c missing s : Inv ((t, k0, ty) :: l) last c missing -> (last <= s)%Q -> (s < t)%Q -> forall k, joined g k -> (down k s <-> In k missing).
Proof.
  intros IN L1 L2 k Hk. destruct (head_time _ _ _ _ _ _ _ IN) as (L3 & L4 & L5 & L6).
  assert (forall e, In e (filter (on k) ((t, k0, ty) :: l)) -> (t <= fst (fst e))%Q) as Hf.
  { intros e He. apply filter_In in He. destruct He as [[<-|He] _]; [cbn [fst]; lra|auto]. }
  destruct (i_pos _ _ _ _ IN k Hk) as (n & m & [(N & E & L7 & L8)|(N & E & L7 & L8)]); rewrite E in Hf.
  - split; [|tauto]. intros D. exfalso. destruct m as [|m].
    + rewrite Nat.add_0_r in L8. lra.
    + specialize (Hf _ (or_introl eq_refl)). cbn [fst] in Hf. revert D. apply (not_down draw mttf mttr k (up k Hk) (repair k Hk) n s); lra.
  - split; [tauto|]. intros _. specialize (Hf _ (or_introl eq_refl)). cbn [fst] in Hf. exists n. split; lra.
Qed.
Lemma works_now t k0 ty l last c missing s : Inv ((t, k0, ty) :: l) last c missing -> (last <= s)%Q -> (s < t)%Q -> forall x y, works s x y <-> arc c x y.
Proof.
  intros IN L1 L2 x y. rewrite (i_arcs _ _ _ _ IN). pose proof (between _ _ _ _ _ _ _ s IN L1 L2) as B. split.
  - intros [H1 H2]. split; [exact H1|]. intros Hm. pose proof (i_missing _ _ _ _ IN _ Hm) as Hj. apply (H2 _ Hj (sorted_edge_pair x y)). now apply B.
  - intros [H1 H2]. split; [exact H1|]. intros k Hj HP D. apply B in D; [|exact Hj]. rewrite (sorted_pair_edge _ _ _ HP) in D. contradiction.
Qed.
Lemma pos_other t k0 ty l last missing missing' k : (last <= t)%Q -> k <> k0 -> (In k missing <-> In k missing') -> pos k ((t, k0, ty) :: l) last missing -> pos k l t missing'.
Proof.
  intros L N E (n & m & H). assert (filter (on k) ((t, k0, ty) :: l) = filter (on k) l) as Ef. { cbn [filter]. unfold on at 1. cbn [fst snd]. apply beq_neq in N. now rewrite N. }
  rewrite Ef in H. exists n, m. destruct H as [(H1 & H2 & H3 & H4)|(H1 & H2 & H3 & H4)]; [left|right]; (split; [tauto|]); (split; [exact H2|]); (split; [lra|exact H4]).
Qed.
(** one failure or repair *)
Lemma inv_step t u v ty l last c missing : Inv ((t, (u, v), ty) :: l) last c missing -> joined g (u, v) ->
  (ty = 0%nat /\ ~ In (u, v) missing /\ exists c1 c2, remove_edge c u v = Ok c1 /\ remove_edge c1 v u = Ok c2 /\ Inv l t c2 (sadd (u, v) missing))
  \/ (ty = 1%nat /\ In (u, v) missing /\ Inv l t (add_edge (add_edge c u v no_attr) v u no_attr) (discard (u, v) missing)).
Proof.
  intros IN Hj. destruct (head_time _ _ _ _ _ _ _ IN) as (L1 & L2 & L3 & L4). destruct (joined_arcs _ _ Hj) as (A1 & A2 & Nuv & Ek).
  assert (In SIM_END l) as He. { destruct (i_end _ _ _ _ IN) as [E|E]; [|exact E]. injection E as _ E2 E3 _. subst. exfalso. now apply end_not_joined. }
  assert (StronglySorted before l) as Hso by (pose proof (i_sorted _ _ _ _ IN) as S1; now inversion S1).
  assert (forall e, In e l -> (t <= fst (fst e))%Q /\ (0 < fst (fst e))%Q) as Ht by (intros e H; split; [auto|]; apply (i_time _ _ _ _ IN); now right).
  assert (forall e, In e l -> joined g (snd (fst e)) \/ e = SIM_END) as Hk by (intros e H; apply (i_key _ _ _ _ IN); now right).
  assert (filter (on (u, v)) ((t, (u, v), ty) :: l) = (t, (u, v), ty) :: filter (on (u, v)) l) as Ef. { cbn [filter]. unfold on at 1. cbn [fst snd]. now rewrite beq_refl. }
  assert (forall x y, sorted_edge x y = (u, v) -> (x = u /\ y = v) \/ (x = v /\ y = u)) as Hinj. { intros x y E. rewrite <- Ek in E. apply sorted_edge_inj in E. tauto. }
  assert (sorted_edge v u = (u, v)) as Ek' by now rewrite sorted_edge_sym.
  pose proof (i_graph _ _ _ _ IN) as Gc. pose proof (i_arcs _ _ _ _ IN) as Ac.
  destruct (i_pos _ _ _ _ IN _ Hj) as (n & m & [(N & E & L5 & L6)|(N & E & L5 & L6)]); rewrite Ef in E.
  - left. destruct m as [|m]; [discriminate|]. cbn [AvailProofs.chain] in E. injection E as -> -> E. split; [reflexivity|]. split; [exact N|].
    assert (arc c u v) as C1 by (apply Ac; rewrite Ek; auto). destruct (remove_edge_ok _ _ _ Gc C1) as (c1 & E1 & G1 & R1 & N1).
    assert (arc c1 v u) as C2. { apply R1. split; [apply Ac; rewrite Ek'; auto|]. intros [-> _]. auto. }
    destruct (remove_edge_ok _ _ _ G1 C2) as (c2 & E2 & G2 & R2 & N2). exists c1, c2. split; [exact E1|]. split; [exact E2|]. constructor; auto.
    + lra.
    + intros k H. apply sadd_In in H. destruct H as [->|H]; [exact Hj|]. now apply (i_missing _ _ _ _ IN).
    + intros k Hk'. destruct (eqb_dec k (u, v)) as [->|Nk].
      * exists n, m. right. split; [apply sadd_In; auto|]. split; [exact E|]. split; [apply Qle_refl|]. now rewrite Nat.add_succ_comm.
      * eapply pos_other; [exact L1|exact Nk| |apply (i_pos _ _ _ _ IN _ Hk')]. rewrite sadd_In. tauto.
    + rewrite N2, N1. apply (i_nodes _ _ _ _ IN).
    + intros x y. rewrite R2, R1, Ac, sadd_In. split.
      * intros [[[H1 H2] H3] H4]. split; [exact H1|]. intros [H|H]; [|contradiction]. apply Hinj in H. tauto.
      * intros [H1 H2]. repeat split; [exact H1|tauto| |]; intros [-> ->]; apply H2; left; [now rewrite Ek|now rewrite Ek'].
  - right. injection E as -> -> E. split; [reflexivity|]. split; [exact N|].
    assert (node c u) as Nu. { destruct (arc_nodes g u v Hg A1) as [H _]. unfold node in *. now rewrite (i_nodes _ _ _ _ IN). }
    assert (node c v) as Nv. { destruct (arc_nodes g u v Hg A1) as [_ H]. unfold node in *. now rewrite (i_nodes _ _ _ _ IN). }
    destruct (add_edge_ok c u v no_attr Gc) as (G1 & R1 & _). destruct (add_edge_ok _ v u no_attr G1) as (G2 & R2 & _). constructor; auto.
    + lra.
    + intros k H. apply discard_In in H. apply (i_missing _ _ _ _ IN). tauto.
    + intros k Hk'. destruct (eqb_dec k (u, v)) as [->|Nk].
      * exists (S n), m. left. split; [rewrite discard_In; tauto|]. split; [exact E|]. split; [apply Qle_refl|exact L6].
      * eapply pos_other; [exact L1|exact Nk| |apply (i_pos _ _ _ _ IN _ Hk')]. rewrite discard_In. tauto.
    + rewrite add_edge_same, add_edge_same; [apply (i_nodes _ _ _ _ IN)|assumption|assumption| |]; unfold node; rewrite add_edge_same; assumption.
    + intros x y. rewrite R2, R1, Ac, discard_In. split.
      * intros [[[H1 H2]|[-> ->]]|[-> ->]].
        -- split; [exact H1|]. tauto.
        -- split; [exact A1|]. rewrite Ek. tauto.
        -- split; [exact A2|]. rewrite Ek'. tauto.
      * intros [H1 H2]. destruct (eqb_dec (sorted_edge x y) (u, v)) as [E1|E1].
        -- apply Hinj in E1. tauto.
        -- left. left. split; [exact H1|]. intros H. apply H2. auto.
Qed.
End Sim.
