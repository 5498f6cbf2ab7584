(** Proofs for C34 and C63. *)
From Coq Require Import QArith Qminmax Lqa.
From Verif Require Import Base Dict QLib SumLib TopologyModel TopologySpec TopologyProofs StatusModel GraphModel GraphSpec GraphProofs ApplyModel ApplySpec ApplyProofs OpsModel OpsSpec.
Local Open Scope Q_scope.
Local Open Scope list_scope.

Ltac evs := repeat match goal with
  | |- context [beq ?a ?b] => let v := eval vm_compute in (beq a b) in change (beq a b) with v
  | |- context [active ?a] => let v := eval vm_compute in (active a) in change (active a) with v
  | |- context [immutable ?a] => let v := eval vm_compute in (immutable a) in change (immutable a) with v
  end; cbv iota.
Lemma on_node_of x n : on_node x n <-> node_of x = n.
Proof. unfold on_node, node_of. destruct n as [a b]. cbn. split; [intros [-> ->]; reflexivity|intros E; injection E as <- <-; auto]. Qed.

(** ** the first sector of each node *)
Fixpoint firsts (seen : list node) (l : list sector) : list sector :=
  match l with [] => [] | x :: r => if mem (node_of x) seen then firsts seen r else x :: firsts (sadd (node_of x) seen) r end.
Lemma firsts_In l : forall seen x, In x (firsts seen l) -> In x l /\ ~ In (node_of x) seen.
Proof.
  induction l as [|a l IH]; cbn; intros seen x Hx; [contradiction|]. destruct (mem (node_of a) seen) eqn:M.
  - apply IH in Hx. tauto.
  - apply mem_not_In in M. destruct Hx as [->|Hx]; [tauto|]. apply IH in Hx. destruct Hx as [Hx N]. rewrite sadd_In in N. tauto.
Qed.
Lemma firsts_NoDup l : forall seen, NoDup (map node_of (firsts seen l)).
Proof.
  induction l as [|a l IH]; cbn; intros seen; [constructor|]. destruct (mem (node_of a) seen) eqn:M; [apply IH|]. cbn. constructor; [|apply IH].
  intros Hin. apply in_map_iff in Hin. destruct Hin as (y & Ey & Hy). apply firsts_In in Hy. destruct Hy as [_ N]. apply N. rewrite sadd_In, Ey. now left.
Qed.
Lemma firsts_cover l : forall seen x, In x l -> ~ In (node_of x) seen -> exists y, In y (firsts seen l) /\ node_of y = node_of x.
Proof.
  induction l as [|a l IH]; cbn; intros seen x Hx N; [contradiction|]. destruct (mem (node_of a) seen) eqn:M.
  - destruct Hx as [->|Hx]; [apply mem_In in M; contradiction|]. now apply IH.
  - destruct (beq_spec (node_of x) (node_of a)) as [E|Na]; [exists a; split; [now left|auto]|]. destruct Hx as [->|Hx]; [congruence|].
    destruct (IH (sadd (node_of a) seen) x Hx) as (y & Hy & Ey); [rewrite sadd_In; tauto|]. exists y. split; [now right|exact Ey].
Qed.

Section Capex.
Variables (nc : string -> Q) (sc : site_type -> Q).
Definition wt (st goal : status) (q : Q) : Q := if beq st goal then q else 0.
Lemma add_cost_proposed st q c : c_proposed (add_cost st q c) == c_proposed c + wt st PROPOSED q.
Proof. unfold add_cost, wt. destruct st; evs; cbn [c_proposed c_existing]; lra. Qed.
Lemma add_cost_existing st q c : c_existing (add_cost st q c) == c_existing c + wt st EXISTING q.
Proof. unfold add_cost, wt. destruct st; evs; cbn [c_proposed c_existing]; lra. Qed.
Notation step := (fun (sc : list (string * nat) * costs) x => let (seen, c) := sc in
    if mem (node_of x) seen then (seen, c) else (sadd (node_of x) seen, add_cost (x_status x) (nc (x_site x)) c)).
Lemma node_costs_sum l : forall seen c,
  c_proposed (snd (fold_left step l (seen, c))) == c_proposed c + total (fun x => wt (x_status x) PROPOSED (nc (x_site x))) (firsts seen l) /\
  c_existing (snd (fold_left step l (seen, c))) == c_existing c + total (fun x => wt (x_status x) EXISTING (nc (x_site x))) (firsts seen l).
Proof.
  induction l as [|x l IH]; intros seen c; cbn [fold_left firsts]; [rewrite !tot_nil; cbn [snd]; split; lra|].
  destruct (mem (node_of x) seen); [apply IH|]. destruct (IH (sadd (node_of x) seen) (add_cost (x_status x) (nc (x_site x)) c)) as [A B]. rewrite A, B, add_cost_proposed, add_cost_existing, !tot_cons. split; lra.
Qed.
Lemma site_costs_sum l : forall c,
  c_proposed (site_costs sc l c) == c_proposed c + total (fun s => wt (s_status s) PROPOSED (sc (s_type s))) l /\
  c_existing (site_costs sc l c) == c_existing c + total (fun s => wt (s_status s) EXISTING (sc (s_type s))) l.
Proof.
  induction l as [|x l IH]; intros c; [rewrite !tot_nil; cbn; split; lra|]. change (site_costs sc (x :: l) c) with (site_costs sc l (add_cost (s_status x) (sc (s_type x)) c)).
  destruct (IH (add_cost (s_status x) (sc (s_type x)) c)) as [A B]. rewrite A, B, add_cost_proposed, add_cost_existing, !tot_cons. split; lra.
Qed.
Definition pick (pb : status -> bool) (t : topo) : Q :=
  total (fun x => nc (x_site x)) (filter (fun x => pb (x_status x)) (firsts [] (dvals (t_sectors t)))) +
  total (fun s => sc (s_type s)) (filter (fun s => pb (s_status s)) (dvals (t_sites t))).
Lemma pick_eq pb t : pick pb t == total (fun x => if pb (x_status x) then nc (x_site x) else 0) (firsts [] (dvals (t_sectors t))) + total (fun s => if pb (s_status s) then sc (s_type s) else 0) (dvals (t_sites t)).
Proof. unfold pick. now rewrite !tot_filter. Qed.
Lemma capex_picks t : fst (compute_capex nc sc t) == pick active t /\ snd (compute_capex nc sc t) == pick (fun st => beq st PROPOSED) t.
Proof.
  unfold compute_capex. cbn [fst snd]. rewrite !pick_eq.
  destruct (site_costs_sum (dvals (t_sites t)) (snd (node_costs nc (dvals (t_sectors t)) (mkCosts 0 0)))) as [A B]. rewrite A, B.
  unfold node_costs. destruct (node_costs_sum (dvals (t_sectors t)) [] (mkCosts 0 0)) as [C D]. rewrite C, D. cbn [c_proposed c_existing]. unfold wt. split; [|lra].
  assert (E1 : forall (l : list sector), total (fun x => if active (x_status x) then nc (x_site x) else 0) l == total (fun x => if beq (x_status x) PROPOSED then nc (x_site x) else 0) l + total (fun x => if beq (x_status x) EXISTING then nc (x_site x) else 0) l).
  { intros l. rewrite <- tot_plus. apply tot_ext. intros x _. destruct (x_status x); evs; lra. }
  assert (E2 : forall (l : list site), total (fun x => if active (s_status x) then sc (s_type x) else 0) l == total (fun x => if beq (s_status x) PROPOSED then sc (s_type x) else 0) l + total (fun x => if beq (s_status x) EXISTING then sc (s_type x) else 0) l).
  { intros l. rewrite <- tot_plus. apply tot_ext. intros x _. destruct (s_status x); evs; lra. }
  rewrite E1, E2. lra.
Qed.

Section Pick.
Variables (P : status -> Prop) (pb : status -> bool) (t : topo).
Hypothesis Pb : forall st, pb st = true <-> P st.
Hypothesis W : well_formed t.
Let Ws : dwf (t_sites t). Proof. apply W. Qed.
Let Wx : dwf (t_sectors t). Proof. apply W. Qed.
Definition first_nodes : list node := map node_of (filter (fun x => pb (x_status x)) (firsts [] (dvals (t_sectors t)))).
Definition first_sites : list string := map fst (filter (fun p => pb (s_status (snd p))) (t_sites t)).
Lemma NoDup_map_filter {A B} (f : A -> B) p l : NoDup (map f l) -> NoDup (map f (filter p l)).
Proof.
  induction l as [|a l IH]; cbn; intros N; [constructor|]. inversion N as [|? ? Na N']; subst. destruct (p a); cbn; [constructor|]; auto.
  intros Hin. apply Na. apply in_map_iff in Hin. destruct Hin as (y & Ey & Hy). apply filter_In in Hy. rewrite <- Ey. apply in_map. tauto.
Qed.
Lemma pick_lists : NoDup first_nodes /\ NoDup first_sites /\
  (forall i, In i first_sites <-> exists s, dget (t_sites t) i = Some s /\ P (s_status s)) /\
  pick pb t == total (fun n => nc (fst n)) first_nodes + total (fun i => match dget (t_sites t) i with Some s => sc (s_type s) | None => 0 end) first_sites.
Proof.
  split; [apply NoDup_map_filter, firsts_NoDup|]. split; [apply NoDup_map_filter, Ws|]. split.
  - intros i. unfold first_sites. rewrite in_map_iff. split.
    + intros ([j s] & <- & Hin). apply filter_In in Hin. destruct Hin as [Hin B]. exists s. split; [now apply In_dget|now apply Pb].
    + intros (s & E & Hp). exists (i, s). split; [reflexivity|]. apply filter_In. split; [now apply dget_In|now apply Pb].
  - unfold pick, first_nodes, first_sites. rewrite !tot_map. cbn [node_of fst]. apply Qplus_comp; [reflexivity|]. unfold dvals. rewrite !tot_filter, tot_map. apply tot_ext.
    intros [i s] Hin. cbn [fst snd]. rewrite (In_dget _ _ _ Ws Hin). reflexivity.
Qed.
Lemma first_nodes_have n : In n first_nodes -> has_sector P t n.
Proof.
  unfold first_nodes. rewrite in_map_iff. intros (x & <- & Hx). apply filter_In in Hx. destruct Hx as [Hx B]. apply firsts_In in Hx. destruct Hx as [Hx _]. apply In_dvals in Hx; [|exact Wx]. destruct Hx as [k E].
  exists k, x. split; [exact E|]. split; [now apply on_node_of|now apply Pb].
Qed.
Lemma pick_exact : nodes_agree P t -> expenditure P nc sc t (pick pb t).
Proof.
  intros Ag. destruct pick_lists as (N1 & N2 & L2 & E). exists first_nodes, first_sites. repeat match goal with |- _ /\ _ => split end; auto.
  intros n. split; [apply first_nodes_have|]. intros (k & x & Ex & On & Hp).
  assert (Hx : In x (dvals (t_sectors t))) by (apply In_dvals; [exact Wx|eauto]). destruct (firsts_cover _ [] x Hx (fun F => F)) as (y & Hy & Ey).
  pose proof (firsts_In _ _ _ Hy) as [Hy' _]. apply In_dvals in Hy'; [|exact Wx]. destruct Hy' as [k' Ek'].
  apply on_node_of in On. unfold first_nodes. apply in_map_iff. exists y. split; [congruence|]. apply filter_In. split; [exact Hy|]. apply Pb.
  apply (Ag k x k' y n); [exact Ex|exact Ek'|now apply on_node_of|apply on_node_of; congruence|exact Hp].
Qed.
Lemma tot_sub {A} (f : A -> Q) l : forall r, (forall x, 0 <= f x) -> NoDup l -> incl l r -> total f l <= total f r.
Proof.
  induction l as [|a l IH]; intros r Hf N Hi; [rewrite tot_nil; apply tot_nonneg; auto|]. inversion N as [|? ? Na N']; subst.
  assert (Ha : In a r) by (apply Hi; now left). apply in_split in Ha. destruct Ha as (r1 & r2 & ->). rewrite tot_remove, tot_cons.
  assert (total f l <= total f (r1 ++ r2)); [|lra]. apply IH; [exact Hf|exact N'|]. intros x Hx. assert (a <> x) by (intros ->; contradiction). specialize (Hi x (or_intror Hx)). rewrite in_app_iff in *. cbn in Hi. tauto.
Qed.
Lemma pick_below q : (forall i, 0 <= nc i) -> expenditure P nc sc t q -> pick pb t <= q.
Proof.
  intros Hn (ns & ss & N1 & N2 & L1 & L2 & ->). destruct pick_lists as (M1 & M2 & K2 & E). rewrite E.
  assert (E2 : total (fun i => match dget (t_sites t) i with Some s => sc (s_type s) | None => 0 end) first_sites == total (fun i => match dget (t_sites t) i with Some s => sc (s_type s) | None => 0 end) ss).
  { apply tot_same; auto. intros x. rewrite K2, L2. tauto. }
  rewrite E2. assert (total (fun n => nc (fst n)) first_nodes <= total (fun n => nc (fst n)) ns); [|lra].
  apply tot_sub; auto. intros n Hin. apply L1. now apply first_nodes_have.
Qed.
Lemma expenditure_unique q q' : expenditure P nc sc t q -> expenditure P nc sc t q' -> q == q'.
Proof.
  intros (ns & ss & N1 & N2 & L1 & L2 & ->) (ns' & ss' & N1' & N2' & L1' & L2' & ->).
  rewrite (tot_same _ ns ns'); auto; [|intros x; rewrite L1, L1'; tauto]. rewrite (tot_same _ ss ss'); auto; [reflexivity|intros x; rewrite L2, L2'; tauto].
Qed.
End Pick.

Lemma active_iff st : active st = true <-> active_status st.
Proof. unfold active_status. destruct st; evs; intuition discriminate. Qed.
Lemma proposed_iff st : beq st PROPOSED = true <-> st = PROPOSED.
Proof. split; [apply beq_true|intros ->; apply beq_refl]. Qed.
Lemma exp_eq P t q q' : q == q' -> expenditure P nc sc t q -> expenditure P nc sc t q'.
Proof. intros E (ns & ss & N1 & N2 & L1 & L2 & H). exists ns, ss. repeat match goal with |- _ /\ _ => split end; auto. now rewrite <- E. Qed.
Lemma capex_exact t : well_formed t -> 
  (nodes_agree active_status t -> expenditure active_status nc sc t (fst (compute_capex nc sc t))) /\
  (nodes_agree (fun st => st = PROPOSED) t -> expenditure (fun st => st = PROPOSED) nc sc t (snd (compute_capex nc sc t))).
Proof.
  intros W. destruct (capex_picks t) as [A B]. split; intros Ag.
  - eapply exp_eq; [symmetry; exact A|]. apply pick_exact; auto using active_iff.
  - eapply exp_eq; [symmetry; exact B|]. apply (pick_exact (fun st => st = PROPOSED)); auto using proposed_iff.
Qed.
Lemma capex_below t q : well_formed t -> (forall i, 0 <= nc i) -> expenditure active_status nc sc t q -> fst (compute_capex nc sc t) <= q.
Proof. intros W Hn E. destruct (capex_picks t) as [A _]. rewrite A. eapply pick_below; eauto using active_iff. Qed.
Lemma capex_proposed_below t q : well_formed t -> (forall i, 0 <= nc i) -> expenditure (fun st => st = PROPOSED) nc sc t q -> snd (compute_capex nc sc t) <= q.
Proof. intros W Hn E. destruct (capex_picks t) as [_ B]. rewrite B. apply (pick_below (fun st => st = PROPOSED) _ t proposed_iff W q Hn E). Qed.
End Capex.

(** ** sectors of one node *)
Lemma proposed_nodes_In t n : well_formed t -> (In n (proposed_nodes t) <-> has_sector (fun st => st = PROPOSED) t n).
Proof.
  intros W. assert (Wx : dwf (t_sectors t)) by apply W. unfold proposed_nodes.
  assert (G : forall (l : dict string sector) acc, In n (fold_left (fun acc p => if beq (x_status (snd p)) PROPOSED then sadd (node_of (snd p)) acc else acc) l acc) <-> In n acc \/ exists k x, In (k, x) l /\ node_of x = n /\ x_status x = PROPOSED).
  { induction l as [|[k x] l IH]; intros acc; cbn [fold_left]; [split; [tauto|intros [H|(? & ? & [] & _)]; exact H]|]. rewrite IH. cbn [snd]. destruct (beq_spec (x_status x) PROPOSED) as [E|E].
    - rewrite sadd_In. split.
      + intros [[->|H]|(k' & x' & H & H')]; [right; exists k, x; cbn; auto|auto|right; exists k', x'; cbn; auto].
      + intros [H|(k' & x' & [H|H] & H')]; [auto| |right; eauto]. injection H as <- <-. left; left. symmetry. apply H'.
    - split; [intros [H|(k' & x' & H & H')]; [auto|right; exists k', x'; cbn; auto]|]. intros [H|(k' & x' & [H|H] & H')]; [auto| |right; eauto]. injection H as <- <-. destruct H'. contradiction. }
  rewrite G. split.
  - intros [[]|(k & x & Hin & Hn & Hp)]. exists k, x. split; [now apply In_dget|]. split; [now apply on_node_of|exact Hp].
  - intros (k & x & E & On & Hp). right. exists k, x. split; [now apply dget_In|]. split; [now apply on_node_of|exact Hp].
Qed.
Section SameNode.
Variable t : topo.
Hypothesis W : well_formed t.
Notation nodes := (proposed_nodes t).
Definition node_f (k : string) (x : sector) : sector := if mem (node_of x) nodes then with_sector_status x PROPOSED else x.
Definition node_good (k : string) (x : sector) : bool :=
  negb (mem (node_of x) nodes) || (negb (immutable (x_status x)) && match dget (t_sites t) (x_site x) with Some s => active (s_status s) | None => false end).
Lemma compat_proposed st : sector_compat st PROPOSED = active st. Proof. destruct st; reflexivity. Qed.
Lemma same_node_loop : if forallb (goodb t_sectors node_good t) (dkeys (t_sectors t)) then set_sector_status_in_same_node t = ok (set_sectors t (mapk node_f (t_sectors t)))
  else fst (set_sector_status_in_same_node t) = Err TopologyExn.
Proof.
  assert (Wx : dwf (t_sectors t)) by apply W. unfold set_sector_status_in_same_node. cbv zeta.
  apply (loop_all t_sectors set_sectors (fun k t0 => match dget (t_sectors t0) k with None => fail PyKeyError t0 | Some x => if mem (node_of x) nodes then set_sector_status k PROPOSED t0 else ok t0 end) node_f node_good t TopologyExn Wx).
  - intros d k x E0 E Hg. change (t_sectors (set_sectors t d)) with d. rewrite E. unfold node_good in Hg. unfold node_f. destruct (mem (node_of x) nodes); cbn [negb orb] in Hg; [|rewrite (dset_same _ _ _ E); reflexivity].
    apply andb_true_iff in Hg. destruct Hg as [G1 G2]. unfold set_sector_status. change (t_sectors (set_sectors t d)) with d. rewrite E. change (t_sites (set_sectors t d)) with (t_sites t).
    destruct (dget (t_sites t) (x_site x)) as [s|]; [|discriminate]. unfold assign_ok. rewrite G1, compat_proposed, G2. reflexivity.
  - intros d k x E0 E Hg. change (t_sectors (set_sectors t d)) with d. rewrite E. unfold node_good in Hg. apply orb_false_iff in Hg. destruct Hg as [M Hg]. apply negb_false_iff in M. rewrite M. unfold set_sector_status. change (t_sectors (set_sectors t d)) with d. rewrite E. change (t_sites (set_sectors t d)) with (t_sites t).
    destruct (wf_sector _ _ _ W E0) as [s Es]. rewrite Es in *. unfold assign_ok. rewrite compat_proposed. apply andb_false_iff in Hg. destruct Hg as [-> | ->]; rewrite ?andb_false_r; reflexivity.
  - now destruct t.
Qed.
Lemma imm_iff st : negb (immutable st) = true <-> st <> EXISTING /\ st <> UNAVAILABLE.
Proof. destruct st; evs; cbn [negb]; intuition congruence. Qed.
Lemma goods_iff : forallb (goodb t_sectors node_good t) (dkeys (t_sectors t)) = true <-> node_settable t.
Proof.
  rewrite forallb_forall. unfold goodb. split.
  - intros H k x E In_. assert (Hk : In k (dkeys (t_sectors t))) by (apply In_dkeys; eauto). specialize (H k Hk). unfold sector_stored in E. rewrite E in H. unfold node_good in H.
    assert (M : mem (node_of x) nodes = true) by (apply mem_In; apply proposed_nodes_In; [exact W|exact In_]). rewrite M in H. cbn [negb orb] in H. apply andb_true_iff in H. destruct H as [H1 H2]. apply imm_iff in H1. split; [tauto|]. split; [tauto|].
    destruct (dget (t_sites t) (x_site x)) as [s|]; [|discriminate]. exists s. split; [reflexivity|now apply active_iff].
  - intros H k Hk. apply In_dkeys in Hk. destruct Hk as [x E]. rewrite E. unfold node_good. destruct (mem (node_of x) nodes) eqn:M; [|reflexivity]. apply mem_In in M. apply proposed_nodes_In in M; [|exact W].
    destruct (H k x E M) as (H1 & H2 & s & Es & Ha). rewrite Es. apply active_iff in Ha. rewrite Ha. cbn [negb orb]. rewrite (proj2 (imm_iff _)); auto.
Qed.
Lemma same_node_returns : (fst (set_sector_status_in_same_node t) = Ok tt <-> node_settable t) /\ (~ node_settable t -> fst (set_sector_status_in_same_node t) = Err TopologyExn).
Proof.
  pose proof same_node_loop as L. rewrite <- goods_iff. destruct (forallb _ _); [rewrite L; cbn; split; [tauto|congruence]|]. rewrite L. split; [split; discriminate|auto].
Qed.
Lemma same_node_exact t' : set_sector_status_in_same_node t = (Ok tt, t') -> nodes_completed t t'.
Proof.
  intros E. pose proof same_node_loop as L. destruct (forallb _ _); [|rewrite E in L; discriminate]. rewrite E in L. injection L as ->.
  unfold nodes_completed. cbn [t_sites t_demands t_links t_secidx t_conn t_rconn t_sectors set_sectors]. repeat match goal with |- _ /\ _ => split end; try reflexivity; [apply mapk_keys|].
  intros k x Ex. exists (node_f k x). unfold sector_stored. cbn [t_sectors set_sectors]. rewrite mapk_get. unfold sector_stored in Ex. rewrite Ex. cbn [option_map].
  assert (M : mem (node_of x) nodes = true <-> in_proposed_node t x) by (rewrite mem_In; apply proposed_nodes_In; exact W).
  unfold node_f. destruct (mem (node_of x) nodes) eqn:Em; (split; [reflexivity|]; split; [reflexivity|]); split; intros Hp; cbn; try reflexivity.
  - tauto.
  - apply M in Hp. discriminate.
Qed.
End SameNode.
Lemma completed_agree t t' : well_formed t -> nodes_completed t t' -> nodes_agree (fun st => st = PROPOSED) t' /\ (nodes_agree (fun st => st = EXISTING) t -> nodes_agree active_status t').
Proof.
  intros W (_ & _ & _ & _ & _ & _ & K & C).
  assert (B : forall k x', sector_stored t' k x' -> exists x, sector_stored t k x /\ x_key x' = x_key x /\ (in_proposed_node t x -> x_status x' = PROPOSED) /\ (~ in_proposed_node t x -> x_status x' = x_status x)).
  { intros k x' E. assert (Hk : In k (dkeys (t_sectors t))) by (rewrite <- K; apply In_dkeys; eauto). apply In_dkeys in Hk. destruct Hk as [x Ex]. exists x. split; [exact Ex|]. destruct (C k x Ex) as (y & Ey & H). unfold sector_stored in *. rewrite E in Ey. injection Ey as ->. exact H. }
  assert (D : forall x, in_proposed_node t x \/ ~ in_proposed_node t x).
  { intros x. unfold in_proposed_node. rewrite <- proposed_nodes_In by exact W. destruct (mem (x_site x, k_node (x_key x)) (proposed_nodes t)) eqn:M; [left; now apply mem_In|right; now apply mem_not_In]. }
  assert (T : forall x y n, on_node x n -> on_node y n -> in_proposed_node t x -> in_proposed_node t y).
  { intros x y n Ox Oy. unfold in_proposed_node. apply on_node_of in Ox. apply on_node_of in Oy. unfold node_of in *. congruence. }
  assert (S : forall x' x n, x_key x' = x_key x -> on_node x' n -> on_node x n). { intros x' x n E. unfold on_node, x_site. now rewrite E. }
  assert (Q1 : forall k (x' x : sector), sector_stored t k x -> x_status x = PROPOSED -> in_proposed_node t x). { intros k x' x E Ep. exists k, x. repeat split; auto. }
  split.
  - intros k x' k' y' n Ex Ey Ox Oy Hp. destruct (B _ _ Ex) as (x & Sx & Kx & Px & Nx). destruct (B _ _ Ey) as (y & Sy & Ky & Py & Ny).
    apply Py. apply (T x y n); [eapply S; eauto|eapply S; eauto|]. destruct (D x) as [H|H]; [exact H|]. apply (Q1 k x' x Sx). rewrite <- (Nx H). exact Hp.
  - intros Ag k x' k' y' n Ex Ey Ox Oy Hp. destruct (B _ _ Ex) as (x & Sx & Kx & Px & Nx). destruct (B _ _ Ey) as (y & Sy & Ky & Py & Ny).
    pose proof (S _ _ _ Kx Ox) as Ox2. pose proof (S _ _ _ Ky Oy) as Oy2. destruct (D x) as [H|H].
    + left. apply Py. now apply (T x y n).
    + assert (Hy : ~ in_proposed_node t y) by (intros G; apply H; now apply (T y x n)). rewrite (Ny Hy). rewrite (Nx H) in Hp. destruct Hp as [Hp|Hp]; [exfalso; apply H; now apply (Q1 k x' x)|]. right. now apply (Ag k x k' y n).
Qed.
Lemma completed_wf t t' : well_formed t -> nodes_completed t t' -> well_formed t'.
Proof.
  intros W (E1 & E2 & E3 & E4 & E5 & E6 & K & C). apply (shape_wf t t'); [|exact W]. unfold same_shape. rewrite E1, E2, E3, E4, E5, E6.
  repeat match goal with |- _ /\ _ => split end; auto.
  - intros i s E. exists s. auto.
  - intros k l E. exists l. repeat split; auto.
  - intros k x E. destruct (C k x E) as (x' & E' & H & _). exists x'. auto.
Qed.
Lemma capex_after nc sc t t' : well_formed t -> nodes_agree (fun st => st = EXISTING) t -> set_sector_status_in_same_node t = (Ok tt, t') ->
  expenditure active_status nc sc t' (fst (compute_capex nc sc t')) /\ expenditure (fun st => st = PROPOSED) nc sc t' (snd (compute_capex nc sc t')).
Proof.
  intros W Ag E. pose proof (same_node_exact t W t' E) as C. destruct (completed_agree t t' W C) as [A B]. destruct (capex_exact nc sc t' (completed_wf _ _ W C)). auto.
Qed.
