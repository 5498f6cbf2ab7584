(** Proofs for C64. *)
From Coq Require Import Lia ZArith Permutation.
From Verif Require Import Base Dict QLib TopologyModel TopologySpec TopologyProofs TopologyLemmas TopologyQueryProofs GraphModel GraphSpec GraphProofs SetupModel MonadLib LosPickProofs OpsProofs DeploySpec DeployProofs CountModel CountSpec.
Local Open Scope list_scope.

Lemma card_ext {A} (P Q : A -> Prop) n : (forall x, P x <-> Q x) -> card P n -> card Q n.
Proof. intros H (l & N & M & L). exists l. split; [exact N|]. split; [|exact L]. intros x. now rewrite M. Qed.
Lemma card_filter {V} (d : dict string V) p : dwf d -> card (fun i => exists v, dget d i = Some v /\ p (i, v) = true) (List.length (filter p d)).
Proof.
  intros W. exists (map fst (filter p d)). split; [apply NoDup_map_filter; exact W|]. split; [|apply map_length].
  intros i. rewrite in_map_iff. split.
  - intros ([j v] & <- & H). apply filter_In in H. exists v. split; [now apply In_dget|tauto].
  - intros (v & E & H). exists (i, v). split; [reflexivity|]. apply filter_In. split; [now apply dget_In|exact H].
Qed.
Lemma sadd_fold_In {A} `{EqB A} (l : list A) : forall acc x, In x (fold_left (fun acc j => sadd j acc) l acc) <-> In x l \/ In x acc.
Proof. induction l as [|a r IH]; intros acc x; simpl; [tauto|]. rewrite IH, sadd_In. intuition congruence. Qed.
Lemma sadd_fold_NoDup {A} `{EqB A} (l : list A) : forall acc, NoDup acc -> NoDup (fold_left (fun acc j => sadd j acc) l acc).
Proof. induction l as [|a r IH]; intros acc N; simpl; [exact N|]. apply IH. now apply sadd_NoDup. Qed.
Lemma distinct_card {A} `{EqB A} (l : list A) : card (fun x => In x l) (distinct l).
Proof.
  exists (fold_left (fun acc x => sadd x acc) l []). split; [apply sadd_fold_NoDup; constructor|]. split; [|reflexivity]. intros x. rewrite sadd_fold_In. cbn. tauto.
Qed.
Definition occ {A} `{EqB A} (x : A) (l : list A) : nat := List.length (filter (fun y => beq x y) l).
Lemma counter_fold {A} `{EqB A} (l : list A) x : forall d,
  dget (fold_left (fun d y => dset d y (S (match dget d y with Some n => n | None => 0 end))) l d) x =
  match dget d x, occ x l with None, 0 => None | None, n => Some n | Some m, n => Some (m + n) end.
Proof.
  induction l as [|a l IH]; intros d; cbn [fold_left]; unfold occ in *; cbn [filter].
  - cbn. destruct (dget d x); [now rewrite Nat.add_0_r|reflexivity].
  - rewrite IH, dget_set. destruct (beq_spec x a) as [->|N]; [|reflexivity]. destruct (dget d a) as [m|]; cbn [List.length]; [f_equal; lia|].
    destruct (List.length _); f_equal; lia.
Qed.
Lemma counter_wf {A} `{EqB A} (l : list A) : dwf (counter l).
Proof.
  unfold counter. assert (G : forall d : dict A nat, dwf d -> dwf (fold_left (fun d y => dset d y (S (match dget d y with Some n => n | None => 0 end))) l d)); [|apply G; constructor].
  induction l as [|a l IH]; intros d W; cbn; [exact W|]. apply IH. now apply dwf_set.
Qed.
Lemma counter_get {A} `{EqB A} (l : list A) x n : dget (counter l) x = Some n <-> n = occ x l /\ n > 0.
Proof. unfold counter. rewrite counter_fold. cbn [dget]. destruct (occ x l) as [|m]; split; intros; try discriminate; try lia. - injection H0 as <-. lia. - destruct H0 as [-> _]. reflexivity. Qed.
Lemma occ_card {V} (d : dict string V) (f : string * V -> bool) (g : string * V -> string) x : dwf d ->
  card (fun i => exists v, dget d i = Some v /\ f (i, v) = true /\ g (i, v) = x) (occ x (map g (filter f d))).
Proof.
  intros W. assert (E : occ x (map g (filter f d)) = List.length (filter (fun q => f q && beq x (g q)) d)).
  { unfold occ. clear W. induction d as [|q d IH]; [reflexivity|]. cbn [filter]. destruct (f q); cbn [map filter andb]; [|exact IH]. destruct (beq x (g q)); cbn [List.length]; congruence. }
  rewrite E. eapply card_ext; [|apply card_filter, W]. intros i. split; intros (v & Ev & H); exists v; (split; [exact Ev|]).
  - apply andb_true_iff in H. destruct H as [H1 H2]. apply beq_true in H2. auto.
  - destruct H as [H1 <-]. now rewrite H1, beq_refl.
Qed.

Section Counts.
Variables (hash : Z * Z * Z -> string) (sku : string -> string) (channel : string -> Z) (t : topo).
Hypothesis (W : well_formed t).
Lemma sel_iff act st : sel act st = true <-> chosen act st.
Proof using. unfold sel, chosen. destruct act; [rewrite act_iff; split; [intros H _; exact H|intros H; exact (H eq_refl)]|split; [intros _ F; discriminate|reflexivity]]. Qed.
Lemma sites_card act ty : card (a_site t act (fun x => x = ty)) (sites_of_type t act ty).
Proof.
  eapply card_ext; [|apply card_filter, W]. intros i. unfold a_site. cbn [snd]. split; intros (s & E & H); exists s; (split; [exact E|]).
  - apply andb_true_iff in H. rewrite sel_iff in H. destruct H as [H1 H2]. apply beq_true in H2. auto.
  - destruct H as [<- H]. apply sel_iff in H. now rewrite H, beq_refl.
Qed.
Lemma card_or {A} (P Q : A -> Prop) n m : card P n -> card Q m -> (forall x, P x -> Q x -> False) -> card (fun x => P x \/ Q x) (n + m).
Proof.
  intros (l & N & M & <-) (l' & N' & M' & <-) D. exists (l ++ l'). split; [|split; [|apply app_length]].
  - apply NoDup_app_iff_local; auto. intros x H H'. apply (D x); [now apply M|now apply M'].
  - intros x. rewrite in_app_iff, M, M'. reflexivity.
Qed.
Lemma sites_sum act : card (a_site t act any) (sites_of_type t act CN + sites_of_type t act DN + sites_of_type t act POP).
Proof.
  eapply card_ext; [|apply card_or; [apply card_or; [apply sites_card|apply sites_card|]|apply sites_card|]].
  - intros i. unfold a_site, any. split.
    + intros [[H|H]|H]; destruct H as (s & E & _ & C); eauto.
    + intros (s & E & _ & C). destruct (s_type s) eqn:T; [left; left|left; right|right]; exists s; auto.
  - intros i (s & E & T & _) (s' & E' & T' & _). congruence.
  - intros i [(s & E & T & _)|(s & E & T & _)] (s' & E' & T' & _); congruence.
Qed.
Lemma sku_card act x n : dget (site_counts_by_sku sku t act) x = Some n <-> n > 0 /\ card (fun i => a_site t act any i /\ sku i = x) n.
Proof.
  unfold site_counts_by_sku. rewrite counter_get.
  assert (C : card (fun i => a_site t act any i /\ sku i = x) (occ x (map (fun q => sku (fst q)) (filter (fun q => sel act (s_status (snd q))) (t_sites t))))).
  { eapply card_ext; [|apply (occ_card (t_sites t) (fun q => sel act (s_status (snd q))) (fun q => sku (fst q)) x); apply W]. intros i. unfold a_site, any. cbn [fst snd]. split.
    - intros (s & E & S & K). apply sel_iff in S. split; [eauto|exact K].
    - intros ((s & E & _ & S) & K). apply sel_iff in S. eauto. }
  split; [intros [-> H]; auto|]. intros [H C']. split; [|exact H]. destruct C as (l & N & M & <-), C' as (l' & N' & M' & <-).
  apply Nat.le_antisymm; apply NoDup_incl_length; auto; intros y Hy; [apply M, M', Hy|apply M', M, Hy].
Qed.
Lemma sectors_card act cn : card (a_sector t act (fun x => x = cn)) (sectors_of_type t act cn).
Proof.
  eapply card_ext; [|apply card_filter, W]. intros i. unfold a_sector, sector_stored. cbn [snd]. split; intros (s & E & H); exists s; (split; [exact E|]).
  - apply andb_true_iff in H. rewrite sel_iff in H. destruct H as [H1 H2]. apply Bool.eqb_prop in H2. auto.
  - destruct H as [<- H]. apply sel_iff in H. now rewrite H, Bool.eqb_reflx.
Qed.
Lemma sectors_sum act : card (a_sector t act any) (sectors_of_type t act false + sectors_of_type t act true).
Proof.
  eapply card_ext; [|apply card_or; [apply sectors_card|apply sectors_card|]].
  - intros i. unfold a_sector, any. split.
    + intros [H|H]; destruct H as (s & E & _ & C); eauto.
    + intros (s & E & _ & C). destruct (k_cn (x_key s)) eqn:T; [right|left]; exists s; auto.
  - intros i (s & E & T & _) (s' & E' & T' & _). unfold sector_stored in *. congruence.
Qed.
Lemma pops_card : card (fun k => a_sector t true (fun x => x = false) k /\ on_type t POP k) (dn_sectors_on_pops t true).
Proof.
  eapply card_ext; [|apply card_filter, W]. intros i. unfold a_sector, on_type, sector_stored. cbn [snd]. split.
  - intros (x & E & H). apply andb_true_iff in H. destruct H as [H1 H2]. apply andb_true_iff in H1. destruct H1 as [H1 H3]. apply sel_iff in H1. apply negb_true_iff in H3.
    destruct (dget (t_sites t) (x_site x)) as [s|] eqn:Es; [|discriminate]. apply beq_true in H2. split; [eauto|exists x, s; auto].
  - intros ((x & E & C & A) & (x' & s & E' & Es & T)). assert (x' = x) by congruence. subst x'. exists x. split; [exact E|]. rewrite C, Es, T. apply sel_iff in A. now rewrite A.
Qed.
Lemma card_minus {A} (P Q : A -> Prop) n m : (forall x, {Q x} + {~ Q x}) -> card P n -> card (fun x => P x /\ Q x) m -> cardZ (fun x => P x /\ ~ Q x) (Z.of_nat n - Z.of_nat m).
Proof.
  intros Dec (l & N & M & <-) (l' & N' & M' & <-).
  set (p := fun x => if Dec x then true else false).
  assert (L : List.length l' = List.length (filter p l)).
  { apply Nat.le_antisymm; apply NoDup_incl_length; auto using NoDup_filter; intros x Hx.
    - apply M' in Hx. destruct Hx as [Hp Hq]. apply filter_In. split; [now apply M|]. unfold p. now destruct (Dec x).
    - apply filter_In in Hx. destruct Hx as [Hx Hp]. apply M'. split; [now apply M|]. unfold p in Hp. now destruct (Dec x). }
  exists (List.length (filter (fun x => negb (p x)) l)). split.
  - rewrite L. assert (E : forall k : list A, List.length k = List.length (filter p k) + List.length (filter (fun x => negb (p x)) k)).
    { induction k as [|x k IH]; [reflexivity|]. cbn [filter]. destruct (p x); cbn [negb List.length]; lia. }
    pose proof (E l). lia.
  - exists (filter (fun x => negb (p x)) l). split; [now apply NoDup_filter|]. split; [|reflexivity].
    intros x. rewrite filter_In, M. unfold p. destruct (Dec x); cbn [negb]; intuition congruence.
Qed.
Lemma dns_card : cardZ (fun k => a_sector t true (fun x => x = false) k /\ ~ on_type t POP k) (Z.of_nat (sectors_of_type t true false) - Z.of_nat (dn_sectors_on_pops t true)).
Proof.
  apply card_minus; [|apply sectors_card|apply pops_card].
  intros k. unfold on_type, sector_stored. destruct (dget (t_sectors t) k) as [x|] eqn:E; [|right; intros (x & s & F & _); discriminate].
  destruct (dget (t_sites t) (x_site x)) as [s|] eqn:Es; [|right; intros (x' & s & F & F' & _); congruence].
  destruct (beq_spec (s_type s) POP) as [T|T]; [left; exists x, s; auto|right; intros (x' & s' & F & F' & F''); congruence].
Qed.
Lemma nodes_card act cn : card (fun q => a_node t act (q, cn)) (nodes_of_type t act cn).
Proof.
  eapply card_ext; [|apply distinct_card]. intros [i n]. unfold a_node, sector_stored. cbn [fst snd]. rewrite in_map_iff. split.
  - intros ([k x] & E & H). cbn [snd] in E, H. injection E as E1 E2. apply filter_In in H. destruct H as [H1 H2]. cbn [snd] in H2. apply andb_true_iff in H2. rewrite sel_iff in H2. destruct H2 as [H2 H3]. apply Bool.eqb_prop in H2.
    exists k, x. split; [apply In_dget; [apply W|exact H1]|auto].
  - intros (k & x & E & E1 & E2 & E3 & C). exists (k, x). cbn [snd]. split; [congruence|]. apply filter_In. split; [now apply dget_In|]. cbn [snd]. apply sel_iff in C. now rewrite C, E3, Bool.eqb_reflx.
Qed.
Lemma card_map {A B} (P : A -> Prop) (f : A -> B) n : (forall x y, f x = f y -> x = y) -> card P n -> card (fun y => exists x, P x /\ y = f x) n.
Proof.
  intros I (l & N & M & L). exists (map f l). split; [apply FinFun.Injective_map_NoDup; [exact I|exact N]|]. split; [|now rewrite map_length].
  intros y. rewrite in_map_iff. split; [intros (x & <- & H); exists x; split; [now apply M|reflexivity]|intros (x & H & ->); exists x; split; [reflexivity|now apply M]].
Qed.
Lemma nodes_sum act : card (a_node t act) (nodes_of_type t act false + nodes_of_type t act true).
Proof.
  pose proof (card_map _ (fun q => (q, false)) _ (fun x y (E : (x, false) = (y, false)) => f_equal fst E) (nodes_card act false)) as C1.
  pose proof (card_map _ (fun q => (q, true)) _ (fun x y (E : (x, true) = (y, true)) => f_equal fst E) (nodes_card act true)) as C2.
  eapply card_ext; [|apply (card_or _ _ _ _ C1 C2)].
  - intros [q [|]]; cbn beta; split.
    + intros [(x & H & E)|(x & H & E)]; [discriminate|injection E as ->; exact H].
    + intros H. right. eauto.
    + intros [(x & H & E)|(x & H & E)]; [injection E as ->; exact H|discriminate].
    + intros H. left. eauto.
  - intros x (y & _ & ->) (z & _ & E). discriminate.
Qed.
Lemma demand_card act ty : card (fun i => a_site t act (fun x => x = ty) i /\ demanded t i) (demand_connected t act ty).
Proof.
  eapply card_ext; [|apply distinct_card]. intros i. rewrite filter_In, in_flat_map. unfold a_site, demanded. split.
  - intros [([k d] & H & Hi) E]. destruct (dget (t_sites t) i) as [s|] eqn:Es; [|discriminate]. apply andb_true_iff in E. rewrite sel_iff in E. destruct E as [E C]. apply beq_true in E.
    split; [exists s; auto|]. exists k, d. split; [apply In_dget; [apply W|exact H]|exact Hi].
  - intros ((s & E & T & C) & (k & d & Ed & Hi)). split; [exists (k, d); split; [now apply dget_In|exact Hi]|]. rewrite E, T. apply sel_iff in C. now rewrite C, beq_refl.
Qed.
End Counts.
