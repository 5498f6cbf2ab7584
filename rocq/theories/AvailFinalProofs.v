From Coq Require Import ZArith QArith Lqa Lia Sorting.Sorted Sorting.Permutation.
From Verif Require Import Base Dict QLib MonadLib SetupModel LosRangeModel TopologyModel TopologySpec TopologyLemmas TopologyProofs NxModel NxSpec NxProofs NxFailProofs AvailModel AvailSpec AvailProofs AvailSimProofs.
Local Open Scope string_scope.
Local Open Scope list_scope.

Section Sim.
Variable draw : string * string -> nat -> Q * Q.
Variable over : nat -> bool.
Variable g : graph.
Variables mttf mttr sim : Q.
Local Notation starts := (starts draw mttf mttr).
Local Notation down := (down draw mttf mttr).
Local Notation works := (works draw mttf mttr g).
Local Notation Inv := (Inv draw g mttf mttr sim).
Hypothesis Hg : graph_ok g.
Hypothesis loops : no_loops g.
Hypothesis Hs : source_ok g.
Hypothesis both : forall u v, arc_type g u v (Some (ELink WIRELESS_BACKHAUL)) -> arc g v u.
Hypothesis Hsim : (0 < sim)%Q.
Hypothesis up : forall k, joined g k -> forall n, (0 < mttf * fst (draw k n))%Q.
Hypothesis repair : forall k, joined g k -> forall n, (0 <= mttr * snd (draw k n))%Q.

Definition site_up (d : string) (s : Q) : Prop := linked (works s) d.
Definition link_up (k : string * string) (s : Q) : Prop := ~ down k s.
Definition good_a (T scale : Q) (a : dict string Q) : Prop := forall d v, In (d, v) a -> d <> SUPERSOURCE /\ holds_for (site_up d) 0 T (v * scale).
Definition good_la (T : Q) (la : dict (string * string) Q) : Prop := forall k v, In (k, v) la -> joined g k /\ holds_for (link_up k) 0 T (v * sim).

Lemma sites_step t k ty l last c missing des a : Inv ((t, k, ty) :: l) last c missing -> lists_all des (fun x => linked (arc c) x /\ x <> SUPERSOURCE) -> good_a last sim a ->
  good_a t sim (map (fun q => (fst q, if mem (fst q) des then (snd q + (t - last) / sim)%Q else snd q)) a).
Proof.
  intros IN [_ D] A d v H. destruct (head_time _ _ _ _ _ _ _ _ _ _ _ _ IN) as (L1 & _). apply in_map_iff in H. destruct H as ([d' v'] & E & H). cbn [fst snd] in E. injection E as -> E. destruct (A _ _ H) as [N H1]. split; [exact N|].
  assert (forall s, (last <= s)%Q -> (s < t)%Q -> (site_up d s <-> linked (arc c) d)) as W.
  { intros s L2 L3. pose proof (works_now draw g mttf mttr sim up repair _ _ _ _ _ _ _ s IN L2 L3) as W. unfold site_up. split; apply linked_ext; intros u w Hw; now apply W. }
  destruct (mem d des) eqn:Em.
  - apply mem_In, D in Em. apply (holds_app _ 0 last t (v' * sim) (t - last) (v * sim)); [exact H1| |].
    + apply (holds_on _ last t t 0); [exact L1| |constructor; reflexivity|lra]. intros s L2 L3. apply W; [assumption..|]. tauto.
    + rewrite <- E. field. lra.
  - apply (holds_app _ 0 last t (v' * sim) 0 (v * sim)); [exact H1| |rewrite E; lra].
    apply (holds_off _ last t t 0); [exact L1| |constructor; reflexivity]. intros s L2 L3 H2. apply W in H2; [|assumption..]. apply mem_not_In in Em. apply Em, D. auto.
Qed.
Lemma links_step t k ty l last c missing la : Inv ((t, k, ty) :: l) last c missing -> good_la last la ->
  good_la t (map (fun q => (fst q, if mem (fst q) missing then snd q else (snd q + (t - last) / sim)%Q)) la).
Proof.
  intros IN A d v H. destruct (head_time _ _ _ _ _ _ _ _ _ _ _ _ IN) as (L1 & _). apply in_map_iff in H. destruct H as ([d' v'] & E & H). cbn [fst snd] in E. injection E as -> E. destruct (A _ _ H) as [N H1]. split; [exact N|].
  assert (forall s, (last <= s)%Q -> (s < t)%Q -> (down d s <-> In d missing)) as W.
  { intros s L2 L3. exact (between draw g mttf mttr sim up repair _ _ _ _ _ _ _ s IN L2 L3 d N). }
  destruct (mem d missing) eqn:Em.
  - apply mem_In in Em. apply (holds_app _ 0 last t (v' * sim) 0 (v * sim)); [exact H1| |rewrite E; lra].
    apply (holds_off _ last t t 0); [exact L1| |constructor; reflexivity]. intros s L2 L3 H2. apply H2, W; assumption.
  - apply mem_not_In in Em. apply (holds_app _ 0 last t (v' * sim) (t - last) (v * sim)); [exact H1| |].
    + apply (holds_on _ last t t 0); [exact L1| |constructor; reflexivity|lra]. intros s L2 L3 H2. apply W in H2; [contradiction|assumption..].
    + rewrite <- E. field. lra.
Qed.
Lemma rescale_ok t a : (0 < t)%Q -> good_a t sim a -> exists a', rescale sim t a = Ok a' /\ dkeys a' = dkeys a /\ good_a t t a'.
Proof.
  intros L A. destruct a as [|q a]; [exists []; split; [reflexivity|]; split; [reflexivity|intros d v []]|]. unfold rescale. destruct (Qeq_bool t 0) eqn:E; [qb; lra|].
  eexists. split; [reflexivity|]. split; [unfold dkeys; now rewrite map_map|]. intros d v H. apply in_map_iff in H. destruct H as ([d' v'] & E1 & H). injection E1 as -> E1. cbn [snd] in E1. destruct (A _ _ H) as [N H1]. split; [exact N|].
  apply (holds_eq _ _ _ _ _ H1). rewrite <- E1. field. lra.
Qed.
Definition outcome (a : dict string Q) (la : dict (string * string) Q) (r : result (dict string Q * dict (string * string) Q)) : Prop :=
  exists A LA T, r = Ok (A, LA) /\ (0 < T)%Q /\ (T <= sim)%Q /\ ((forall n, over n = false) -> T == sim)%Q /\ dkeys A = dkeys a /\ dkeys LA = dkeys la /\ good_a T T A /\ good_la T LA.
Lemma outcome_keys a la a' la' r : dkeys a' = dkeys a -> dkeys la' = dkeys la -> outcome a' la' r -> outcome a la r.
Proof. unfold outcome. intros E1 E2. rewrite E1, E2. tauto. Qed.
Lemma simulate_ok : forall l n last c missing a la, Inv l last c missing -> good_a last sim a -> good_la last la -> outcome a la (simulate over sim n l last c missing a la).
Proof.
  induction l as [|[[t [u v]] ty] l IH]; intros n last c missing a la IN A LA; [destruct (i_end _ _ _ _ _ _ _ _ _ IN)|].
  destruct (head_time _ _ _ _ _ _ _ _ _ _ _ _ IN) as (L1 & L2 & L3 & _). cbn [simulate]. destruct (Qle_bool t sim) eqn:El; [|qb; lra]. cbn [negb].
  assert (node c SUPERSOURCE) as Nc. { destruct Hs as [H _]. unfold node in *. now rewrite (i_nodes _ _ _ _ _ _ _ _ _ IN). }
  destruct (descendants_ok c (i_graph _ _ _ _ _ _ _ _ _ IN) Nc) as (des & Ed & Hd). rewrite Ed. cbn [rbind].
  pose proof (sites_step _ _ _ _ _ _ _ des a IN Hd A) as A'. pose proof (links_step _ _ _ _ _ _ _ la IN LA) as LA'.
  set (a' := map _ a) in *. set (la' := map _ la) in *.
  assert (dkeys a' = dkeys a) as Ka by (unfold dkeys, a'; now rewrite map_map). assert (dkeys la' = dkeys la) as Kla by (unfold dkeys, la'; now rewrite map_map).
  clearbody a' la'. apply (outcome_keys a la a' la' _ Ka Kla).
  assert (over n = true -> outcome a' la' (do a <- rescale sim t a' ; Ok (a, la'))) as Stop.
  { intros Eo. destruct (rescale_ok t a' L3 A') as (a2 & E2 & K2 & A2). rewrite E2. cbn [rbind]. exists a2, la', t. split; [reflexivity|]. split; [exact L3|]. split; [exact L2|]. split; [intros H; congruence|]. auto. }
  destruct (i_key _ _ _ _ _ _ _ _ _ IN _ (or_introl eq_refl)) as [Hj|Hj]; cbn [fst snd] in Hj.
  - destruct (inv_step draw g mttf mttr sim Hg loops both _ _ _ _ _ _ _ _ IN Hj) as [(-> & N & c1 & c2 & E1 & E2 & IN')|(-> & N & IN')].
    + rewrite E1. cbn [rbind]. rewrite E2. cbn [rbind]. rewrite (proj2 (mem_not_In _ _) N). destruct (over n) eqn:Eo; [auto|]. apply IH; assumption.
    + rewrite (proj2 (mem_In _ _) N). destruct (over n) eqn:Eo; [auto|]. apply IH; assumption.
  - injection Hj as -> -> -> ->. exists a', la', sim. split; [reflexivity|]. split; [exact L3|]. split; [exact L2|]. split; [reflexivity|]. auto.
Qed.

Lemma start_inv ev done : collected draw g mttf mttr sim (done, ev) -> (forall k, joined g k -> In k done) -> Inv (sort_by event_ltb (SIM_END sim :: ev)) 0 g [].
Proof.
  intros [C1 C2] C3. cbn [fst snd] in *. set (l := sort_by _ _). assert (Permutation l (SIM_END sim :: ev)) as Pl by apply sort_by_perm.
  assert (forall k, joined g k -> exists m, filter (on k) l = chain draw mttf mttr k 0 m /\ (sim <= starts k m)%Q) as F.
  { intros k Hk. destruct (C1 _ (C3 _ Hk)) as (_ & m & E & L). exists m. split; [|exact L]. apply sorted_unique; [apply chain_sorted; auto|apply sorted_filter, sort_sorted|].
    apply (perm_filter (on k)) in Pl. cbn [filter] in Pl. unfold on at 2 in Pl. cbn [SIM_END fst snd] in Pl. destruct (beq_spec k ("", "")) as [Ek|_]; [exfalso; apply (end_not_joined g loops both); now rewrite <- Ek|]. now rewrite E in Pl. }
  assert (forall e, In e l -> joined g (snd (fst e)) \/ e = SIM_END sim) as K.
  { intros e He. apply (Permutation_in e Pl) in He. destruct He as [<-|He]; [auto|]. left. apply C1. auto. }
  constructor.
  - apply sort_sorted.
  - assert (forall e, In e l -> (0 < fst (fst e))%Q) as Hp; [|intros e He; specialize (Hp e He); split; lra].
    intros e He. destruct (K e He) as [Hk| ->]; [|exact Hsim]. destruct (F _ Hk) as (m & E & _). assert (In e (filter (on (snd (fst e))) l)) as Hf by (apply filter_In; split; [exact He|apply beq_refl]).
    rewrite E in Hf. exact (chain_le draw mttf mttr _ (up _ Hk) (repair _ Hk) _ _ _ Hf).
  - lra.
  - exact K.
  - apply (Permutation_in _ (Permutation_sym Pl)). now left.
  - intros k [].
  - intros k Hk. destruct (F _ Hk) as (m & E & L). exists 0%nat, m. left. split; [auto|]. split; [exact E|]. split; [apply Qle_refl|exact L].
  - exact Hg.
  - reflexivity.
  - intros x y. cbn [In]. tauto.
Qed.
End Sim.

Lemma link_dict es : forall d, dwf d -> let D := fold_left (fun (d : dict (string * string) Q) e => let '(u, v, ty) := e in if backhaul ty then dset d (sorted_edge u v) 0%Q else d) es d in
  dwf D /\ (forall k, In k (dkeys D) <-> In k (dkeys d) \/ exists u v, In (u, v, Some (ELink WIRELESS_BACKHAUL)) es /\ k = sorted_edge u v) /\ ((forall k v, In (k, v) d -> v = 0%Q) -> forall k v, In (k, v) D -> v = 0%Q).
Proof.
  induction es as [|[[u v] ty] es IH]; intros d W; cbn [fold_left].
  - split; [exact W|]. split; [|auto]. intros k. split; [auto|]. intros [H|(u & v & [] & _)]. exact H.
  - destruct (backhaul ty) eqn:E.
    + apply backhaul_iff in E. subst ty. pose proof (dwf_set d (sorted_edge u v) 0%Q W) as W'. destruct (IH _ W') as (H1 & H2 & H3). split; [exact H1|]. split.
      * intros k. rewrite H2. rewrite <- !dmem_keys, !dmem_Some. rewrite dget_set. destruct (beq_spec k (sorted_edge u v)) as [->|N].
        -- split; [intros _|eauto]. right. exists u, v. split; [now left|reflexivity].
        -- split; (intros [H|(x & y & H & Hk)]; [auto|right; exists x, y]); [split; [now right|exact Hk]|]. destruct H as [H|H]; [injection H as -> ->; contradiction|auto].
      * intros Hz. apply H3. intros k w Hk. apply In_dget in Hk; [|exact W']. rewrite dget_set in Hk. destruct (beq k (sorted_edge u v)); [congruence|]. apply dget_In in Hk. eauto.
    + destruct (IH _ W) as (H1 & H2 & H3). split; [exact H1|]. split; [|exact H3]. intros k. rewrite H2. split; (intros [H|(x & y & H & Hk)]; [auto|right; exists x, y]); [split; [now right|exact Hk]|]. destruct H as [H|H]; [injection H as -> -> ->; discriminate|auto].
Qed.

(** the graph and the drawn numbers *)
Definition two_way (g : graph) : Prop := forall u v, arc_type g u v (Some (ELink WIRELESS_BACKHAUL)) -> arc g v u.
Section Final.
Variable draw : string * string -> nat -> Q * Q.
Variable over : nat -> bool.
Variable g : graph.
Variables p sim : Q.
Let mttf := (p / 100)%Q.
Let mttr := (1 - p / 100)%Q.
Hypothesis Hg : graph_ok g.
Hypothesis loops : no_loops g.
Hypothesis Hs : source_ok g.
Hypothesis both : two_way g.
Hypothesis Hsim : (0 < sim)%Q.
Hypothesis Hp : (0 < p)%Q /\ (p <= 100)%Q.
Hypothesis drawn : forall k n, joined g k -> (0 < fst (draw k n))%Q /\ (0 <= snd (draw k n))%Q.
Lemma up_pos k : joined g k -> forall n, (0 < mttf * fst (draw k n))%Q.
Proof. intros H n. destruct (drawn k n H) as [L _]. apply Qmult_lt_0_compat; [|exact L]. unfold mttf. apply Qlt_shift_div_l; lra. Qed.
Lemma repair_pos k : joined g k -> forall n, (0 <= mttr * snd (draw k n))%Q.
Proof. intros H n. destruct (drawn k n H) as [_ L]. apply Qmult_le_0_compat; [|exact L]. unfold mttr. assert (p / 100 <= 1)%Q by (apply Qle_shift_div_r; lra). lra. Qed.
Definition answer (fuel : nat) : Prop := exists A LA T, compute_availability draw over fuel g p sim = Ok (A, LA) /\ (0 < T)%Q /\ (T <= sim)%Q /\ ((forall n, over n = false) -> T == sim)%Q /\
  lists_all (dkeys A) (connected_demand g (arc g)) /\ (forall d v, dget A d = Some v -> (0 <= v)%Q /\ (v <= 1)%Q /\ holds_for (fun s => linked (works draw mttf mttr g s) d) 0 T (v * T)) /\
  NoDup (dkeys LA) /\ (forall k, In k (dkeys LA) <-> joined g k) /\ (forall k v, dget LA k = Some v -> (0 <= v)%Q /\ (v <= 1)%Q /\ holds_for (fun s => ~ down draw mttf mttr k s) 0 T (v * sim)).
Theorem compute_fuel fuel : (forall k, joined g k -> (sim <= starts draw mttf mttr k fuel)%Q) -> answer fuel.
Proof.
  intros Hf. unfold answer, compute_availability. destruct Hp as [P1 P2]. assert (Qle_bool 0 p = true) as -> by (apply qle_true; lra). assert (Qle_bool p 100 = true) as -> by (apply qle_true; lra). cbn [andb negb].
  assert (Qle_bool sim 0 = false) as -> by (apply qle_false; exact Hsim). destruct (connected_ok g Hg Hs) as (dem & Ed & Hd). rewrite Ed. cbn [rbind]. fold mttf. change (1 - mttf)%Q with mttr.
  destruct (link_dict (edges g) [] dwf_nil) as (W & Kl & Z). set (la := fold_left _ _ _) in *. set (a := map _ dem).
  destruct (collect_ok draw g mttf mttr sim both fuel Hf (edges g) ([], [])) as ([done ev] & Ec & C & _ & C3); [intros u v ty; apply edges_In; exact Hg|split; [intros k []|intros e []]|].
  rewrite Ec. cbn [rbind snd]. cbn [fst] in C3.
  assert (Inv draw g mttf mttr sim (sort_by event_ltb (SIM_END sim :: ev)) 0 g []) as IN.
  { apply (start_inv draw g mttf mttr sim Hg loops both Hsim up_pos repair_pos ev done C). intros k (u & v & H & HP). rewrite (sorted_pair_edge _ _ _ HP). apply C3. now apply edges_In. }
  assert (forall k, In k (dkeys la) <-> joined g k) as Kj.
  { intros k. rewrite Kl. split.
    - intros [[]|(u & v & H & ->)]. apply joined_edge. now apply edges_In.
    - intros (u & v & H & HP). right. exists u, v. split; [now apply edges_In|now apply sorted_pair_edge]. }
  destruct (simulate_ok draw over g mttf mttr sim Hg loops Hs both Hsim up_pos repair_pos _ 0 0%Q g [] a la IN) as (A & LA & T & E & T1 & T2 & T3 & KA & KLA & GA & GLA).
  { intros d v H. apply in_map_iff in H. destruct H as (d' & E & H). injection E as -> <-. apply Hd in H. split; [now apply (demand_not_source g)|]. constructor; reflexivity. }
  { intros k v H. split; [apply Kj; apply (in_map fst) in H; exact H|]. assert (v = 0)%Q as -> by (eapply Z; [intros ? ? []|exact H]). constructor; reflexivity. }
  exists A, LA, T. split; [exact E|]. split; [exact T1|]. split; [exact T2|]. split; [exact T3|].
  assert (dkeys a = dem) as Ka by (unfold dkeys, a; rewrite map_map; apply map_id). rewrite KA, Ka. split; [exact Hd|]. split.
  - intros d v H. apply dget_In in H. destruct (GA _ _ H) as [_ H1]. pose proof (holds_bound _ _ _ _ H1) as [B1 B2]. split; [|split; [|exact H1]].
    + apply Qmult_le_r with T; lra.
    + apply Qmult_le_r with T; lra.
  - rewrite KLA. split; [exact W|]. split; [exact Kj|]. intros k v H. apply dget_In in H. destruct (GLA _ _ H) as [_ H1]. pose proof (holds_bound _ _ _ _ H1) as [B1 B2]. split; [|split; [|exact H1]].
    + apply Qmult_le_r with sim; lra.
    + apply Qmult_le_r with sim; lra.
Qed.
(** some fuel is enough for all links *)
Theorem compute_exact : (forall k, joined g k -> exists n, (sim <= starts draw mttf mttr k n)%Q) -> exists N, forall fuel, (N <= fuel)%nat -> answer fuel.
Proof.
  intros H. assert (exists N, forall u v, In (u, v, Some (ELink WIRELESS_BACKHAUL)) (edges g) -> (sim <= starts draw mttf mttr (sorted_edge u v) N)%Q) as [N HN].
  { assert (forall u v ty, In (u, v, ty) (edges g) -> arc_type g u v ty) as He by (intros u v ty; now apply edges_In). induction (edges g) as [|[[u v] ty] es IH]; [exists 0%nat; intros u v []|].
    destruct IH as [N HN]; [intros x y z Hi; apply He; now right|]. destruct (backhaul ty) eqn:Eb.
    - apply backhaul_iff in Eb. subst ty. pose proof (joined_edge g _ _ (He _ _ _ (or_introl eq_refl))) as Hj. destruct (H _ Hj) as [n Hn]. exists (max N n). intros x y [E|Hi].
      + injection E as -> ->. eapply Qle_trans; [exact Hn|]. apply (starts_mono draw mttf mttr _ (up_pos _ Hj) (repair_pos _ Hj)). lia.
      + eapply Qle_trans; [exact (HN _ _ Hi)|]. assert (joined g (sorted_edge x y)) as Hj' by (apply joined_edge, He; now right). apply (starts_mono draw mttf mttr _ (up_pos _ Hj') (repair_pos _ Hj')). lia.
    - exists N. intros x y [E|Hi]; [injection E as -> -> ->; discriminate|auto]. }
  exists N. intros fuel L. apply compute_fuel. intros k Hk. pose proof Hk as (u & v & Ht & HP). eapply Qle_trans; [|apply (starts_mono draw mttf mttr _ (up_pos _ Hk) (repair_pos _ Hk) N fuel L)].
  rewrite (sorted_pair_edge _ _ _ HP). apply HN. now apply edges_In.
Qed.
End Final.

(** *** errors *)
Lemma bad_percentage draw over fuel g p sim : (p < 0)%Q \/ (100 < p)%Q -> compute_availability draw over fuel g p sim = Err OptExn.
Proof. intros [H|H]; unfold compute_availability; [assert (Qle_bool 0 p = false) as -> by (apply qle_false; exact H)|assert (Qle_bool p 100 = false) as -> by (apply qle_false; exact H); rewrite andb_false_r]; reflexivity. Qed.
Lemma bad_length draw over fuel g p sim : (sim <= 0)%Q -> compute_availability draw over fuel g p sim = Err OptExn.
Proof. intros H. unfold compute_availability. destruct (negb _); [reflexivity|]. assert (Qle_bool sim 0 = true) as -> by (apply qle_true; exact H). reflexivity. Qed.
Lemma no_pop draw over fuel g p sim : ~ node g SUPERSOURCE -> (0 <= p)%Q -> (p <= 100)%Q -> (0 < sim)%Q -> compute_availability draw over fuel g p sim = Err NetworkXExn.
Proof.
  intros H P1 P2 L. unfold compute_availability. assert (Qle_bool 0 p = true) as -> by (apply qle_true; lra). assert (Qle_bool p 100 = true) as -> by (apply qle_true; lra). cbn [andb negb].
  assert (Qle_bool sim 0 = false) as -> by (apply qle_false; exact L). destruct (no_source g H) as [-> _]. reflexivity.
Qed.
