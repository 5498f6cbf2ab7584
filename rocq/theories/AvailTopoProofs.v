From Coq Require Import ZArith QArith Lqa Lia.
From Verif Require Import Base Dict QLib MonadLib SetupModel LosRangeModel TopologyModel TopologySpec TopologyLemmas TopologyProofs GraphSpec GraphProofs NxModel NxSpec NxProofs NxFailProofs NxBuildProofs NxFinalProofs AvailModel AvailSpec AvailProofs AvailSimProofs AvailFinalProofs.
Local Open Scope string_scope.
Local Open Scope list_scope.

(** *** a backhaul link in one direction only *)
Lemma collect_one_way draw g mttf mttr sim fuel : (forall k, joined g k -> (sim <= starts draw mttf mttr k fuel)%Q) -> forall es s, (forall u v ty, In (u, v, ty) es -> arc_type g u v ty) ->
  (forall k, In k (fst s) -> exists x y, k = sorted_edge x y /\ arc g x y /\ arc g y x) -> (exists u v, In (u, v, Some (ELink WIRELESS_BACKHAUL)) es /\ ~ arc g v u) ->
  foldM (collect_step draw fuel g mttf mttr sim) s es = Err OptExn.
Proof.
  intros Hf. induction es as [|[[u v] ty] es IH]; intros s Hes Hd (a & b & Hi & Hn); [destruct Hi|]. cbn [foldM collect_step].
  assert (forall x y z, In (x, y, z) es -> arc_type g x y z) as Hes' by (intros x y z H; apply Hes; now right).
  destruct (backhaul ty) eqn:Eb; cbn [negb].
  2: { cbn [rbind]. apply IH; [exact Hes'|exact Hd|]. exists a, b. split; [|exact Hn]. destruct Hi as [E|Hi]; [injection E as -> -> ->; discriminate|exact Hi]. }
  apply backhaul_iff in Eb. subst ty. pose proof (Hes _ _ _ (or_introl eq_refl)) as Ht. destruct (mem (sorted_edge u v) (fst s)) eqn:Em.
  - cbn [rbind]. apply IH; [exact Hes'|exact Hd|]. exists a, b. split; [|exact Hn]. destruct Hi as [E|Hi]; [|exact Hi]. injection E as -> ->. apply mem_In, Hd in Em. destruct Em as (x & y & E & A1 & A2). apply sorted_edge_inj in E. destruct E as [[-> ->]|[-> ->]]; contradiction.
  - destruct (has_edge g v u) eqn:Eh; [|reflexivity]. apply has_edge_iff in Eh.
    destruct (schedule_ok draw mttf mttr sim _ fuel 0 (Hf _ (joined_edge g _ _ Ht))) as (m & E & L). change (AvailSpec.starts draw mttf mttr (sorted_edge u v) 0) with 0%Q in E. rewrite E. cbn [rbind]. apply IH; [exact Hes'| |].
    + cbn [fst]. intros k Hk. apply sadd_In in Hk. destruct Hk as [->|Hk]; [|auto]. exists u, v. split; [reflexivity|]. split; [apply arc_typed; eauto|exact Eh].
    + exists a, b. split; [|exact Hn]. destruct Hi as [E1|Hi]; [injection E1 as -> ->; contradiction|exact Hi].
Qed.
Lemma one_way draw over fuel g p sim u v : graph_ok g -> source_ok g -> (0 <= p)%Q -> (p <= 100)%Q -> (0 < sim)%Q -> (forall k, joined g k -> (sim <= starts draw (p / 100) (1 - p / 100) k fuel)%Q) ->
  arc_type g u v (Some (ELink WIRELESS_BACKHAUL)) -> ~ arc g v u -> compute_availability draw over fuel g p sim = Err OptExn.
Proof.
  intros Hg Hs P1 P2 L Hf Ht Hn. unfold compute_availability. assert (Qle_bool 0 p = true) as -> by (apply qle_true; lra). assert (Qle_bool p 100 = true) as -> by (apply qle_true; lra). cbn [andb negb].
  assert (Qle_bool sim 0 = false) as -> by (apply qle_false; exact L). destruct (connected_ok g Hg Hs) as (dem & Ed & Hd). rewrite Ed. cbn [rbind].
  rewrite (collect_one_way draw g (p / 100) (1 - p / 100) sim fuel Hf); [reflexivity| | |].
  - intros x y ty. now apply edges_In.
  - intros k [].
  - exists u, v. split; [now apply edges_In|exact Hn].
Qed.

(** *** links that never fail *)
Lemma never_down draw mttr k s : (mttr == 0)%Q -> forall mttf, ~ down draw mttf mttr k s.
Proof. intros E mttf (n & L1 & L2). unfold fails_at in L1. cbn [starts] in L2. assert (mttr * snd (draw k n) == 0)%Q as Z by (rewrite E; ring). lra. Qed.
Lemma perfect draw over fuel g p sim A LA : graph_ok g -> no_loops g -> source_ok g -> two_way g -> (0 < sim)%Q -> (p == 100)%Q ->
  (forall k n, joined g k -> (0 < fst (draw k n))%Q /\ (0 <= snd (draw k n))%Q) -> (forall k, joined g k -> (sim <= starts draw (p / 100) (1 - p / 100) k fuel)%Q) -> (forall n, over n = false) ->
  compute_availability draw over fuel g p sim = Ok (A, LA) -> (forall d v, dget A d = Some v -> v == 1)%Q /\ (forall k v, dget LA k = Some v -> v == 1)%Q.
Proof.
  intros Hg Hl Hs Hb L Ep Hd Hf Ho E. destruct (compute_fuel draw over g p sim Hg Hl Hs Hb L ltac:(lra) Hd fuel Hf) as (A' & LA' & T & E' & T1 & T2 & T3 & KA & GA & _ & _ & GLA). rewrite E in E'. injection E' as <- <-. specialize (T3 Ho).
  assert (forall k s, ~ down draw (p / 100) (1 - p / 100) k s) as Nd by (intros k s; apply never_down; rewrite Ep; reflexivity). split.
  - intros d v H. destruct (GA _ _ H) as (_ & _ & H1). apply holds_always in H1.
    + apply (Qmult_inj_r _ _ T); lra.
    + intros s _ _. assert (In d (dkeys A)) as Hi by (apply dmem_keys, dmem_Some; eauto). apply KA in Hi. destruct Hi as [_ Hi]. eapply linked_ext; [|exact Hi]. intros x y Ha. split; [exact Ha|]. intros k _ _. apply Nd.
  - intros k v H. destruct (GLA _ _ H) as (_ & _ & H1). apply holds_always in H1; [|intros s _ _; apply Nd]. apply (Qmult_inj_r _ _ sim); lra.
Qed.

(** *** the graph of a topology *)
Section Topo.
Variable draw : string * string -> nat -> Q * Q.
Variable over : nat -> bool.
Variables (mcs : string -> Z) (t : topo) (f : list status).
Variables p sim : Q.
Hypothesis Hr : reachable t.
Hypothesis Hids : ids_apart t.
Hypothesis Hpop : exists i, site_with t f (fun s => s_type s = POP) i.
Hypothesis Hself : forall k l, link_stored t k l -> l_tx l <> l_rx l.
Hypothesis Hboth : forall u v, carries t f u v -> carries t f v u.
Let g := build_digraph mcs t f.
Lemma typed_carries u v : arc_type g u v (Some (ELink WIRELESS_BACKHAUL)) <-> carries t f u v.
Proof using Hr Hids.
  unfold g. destruct (graph_exact mcs t f Hr Hids) as [T _]. rewrite T. split.
  - intros (e & E & [(_ & _ & ->)|[(k & l & X1 & X2 & X3 & X4 & X5 & X6 & ->)|(d & _ & _ & _ & ->)]]); try discriminate. injection E as E. exists k, l. auto 10.
  - intros (k & l & X1 & X2 & X3 & X4 & X5 & X6 & X7). exists (ELink WIRELESS_BACKHAUL). split; [reflexivity|]. right. left. exists k, l. rewrite X4. auto 10.
Qed.
Lemma joined_radio k : joined g k <-> radio_pair t f k.
Proof using Hr Hids. unfold joined, radio_pair. split; intros (u & v & H & HP); exists u, v; (split; [|exact HP]); now apply typed_carries. Qed.
Lemma works_at mttf mttr s d : linked (works draw mttf mttr g s) d <-> served_at draw mttf mttr t f s d.
Proof using Hr Hids.
  unfold served_at. split; apply linked_ext; intros x y [H1 H2].
  - split; [apply (arc_link mcs t f Hr Hids); exact H1|]. intros k Hk. apply H2. now apply joined_radio.
  - split; [apply (arc_link mcs t f Hr Hids); exact H1|]. intros k Hk. apply H2. now apply joined_radio.
Qed.
Hypothesis Hsim : (0 < sim)%Q.
Hypothesis Hp : (0 < p)%Q /\ (p <= 100)%Q.
Hypothesis drawn : forall k n, radio_pair t f k -> (0 < fst (draw k n))%Q /\ (0 <= snd (draw k n))%Q.
Lemma topo_exact : (forall k, radio_pair t f k -> exists n, (sim <= starts draw (p / 100) (1 - p / 100) k n)%Q) ->
  exists N, forall fuel, (N <= fuel)%nat -> exists A LA T, compute_availability draw over fuel g p sim = Ok (A, LA) /\ (0 < T)%Q /\ (T <= sim)%Q /\ ((forall n, over n = false) -> T == sim)%Q /\
  lists_all (dkeys A) (served t f) /\ (forall d v, dget A d = Some v -> (0 <= v)%Q /\ (v <= 1)%Q /\ holds_for (fun s => served_at draw (p / 100) (1 - p / 100) t f s d) 0 T (v * T)) /\
  NoDup (dkeys LA) /\ (forall k, In k (dkeys LA) <-> radio_pair t f k) /\ (forall k v, dget LA k = Some v -> (0 <= v)%Q /\ (v <= 1)%Q /\ holds_for (fun s => ~ down draw (p / 100) (1 - p / 100) k s) 0 T (v * sim)).
Proof using Hr Hids Hpop Hself Hboth Hsim Hp drawn.
  intros Hn. destruct (compute_exact draw over g p sim) as [N HN].
  - exact (build_graph_ok mcs t f Hr Hids).
  - exact (no_self mcs t f Hr Hids Hself).
  - exact (source_in mcs t f Hr Hids Hpop).
  - intros u v H. apply typed_carries, Hboth, typed_carries in H. apply arc_typed. eauto.
  - exact Hsim.
  - exact Hp.
  - intros k n Hk. apply drawn. now apply joined_radio.
  - intros k Hk. apply Hn. now apply joined_radio.
  - exists N. intros fuel L. destruct (HN fuel L) as (A & LA & T & E & T1 & T2 & T3 & [K1 K2] & GA & W & KLA & GLA). exists A, LA, T. split; [exact E|]. split; [exact T1|]. split; [exact T2|]. split; [exact T3|]. split; [|split; [|split; [exact W|split; [|exact GLA]]]].
    + split; [exact K1|]. intros d. rewrite K2. apply (connected_served mcs t f Hr Hids).
    + intros d v H. destruct (GA _ _ H) as (B1 & B2 & B3). split; [exact B1|]. split; [exact B2|]. eapply holds_ext; [|exact B3]. intros s. apply works_at.
    + intros k. rewrite KLA. apply joined_radio.
Qed.
End Topo.
