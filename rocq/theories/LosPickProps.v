(** Property theorems C23 to C25; vocabulary in LosPickSpec.v. *)
From Coq Require Import QArith Permutation.
From Verif Require Import Base Dict LosBatchModel LosBatchSpec LosPickModel LosPickSpec LosPickProofs LosConnProofs LosPickExamples.

(** one CN per building, at one of its sites, and that site itself when DNs are wanted; the links of the
    CN are those of the site *)
Theorem C23_one_site_per_building : forall g dn_deployment, wf_graph g -> two_way g ->
  exists g' picked chosen, pick_best_sites_per_building dn_deployment g = Ok (g', picked) /\ outcome dn_deployment g g' picked chosen.
Proof. intros g dep W B. destruct (pick_ok g dep W B) as (g' & p & c & E & O & _). exists g', p, c. auto. Qed.
Print Assumptions C23_one_site_per_building.
(** The site chosen sees most sites at the time of the choice.  Missing: that it sees most in the
    computed graph, which is false (below), since the CNs of earlier buildings count. *)
Theorem C23_sees_most_at_the_time_partial : forall g dn_deployment, wf_graph g -> two_way g ->
  exists g' picked chosen, pick_best_sites_per_building dn_deployment g = Ok (g', picked) /\ outcome dn_deployment g g' picked chosen /\
  forall k b d, nth_error chosen k = Some (b, d) -> most_seen g (firstn k chosen) b d.
Proof. intros g dep W B. exact (pick_ok g dep W B). Qed.
Print Assumptions C23_sees_most_at_the_time_partial.
Theorem C23_sees_most_refuted : exists g g' picked b d i, wf_graph g /\ two_way g /\ pick_best_sites_per_building true g = Ok (g', picked) /\
  on_building (g_sites g) b d /\ on_building (g_sites g) b i /\ In d picked /\ ~ In i picked /\
  (List.length (neighbours (g_rx g) d) < List.length (neighbours (g_rx g) i))%nat.
Proof.
  exists ex_graph. eexists. eexists. exists 3%Z, 3%nat, 2%nat. split; [apply ex_graph_ok|]. split; [apply ex_graph_ok|]. split; [vm_compute; reflexivity|].
  split; [eexists; split; reflexivity|]. split; [eexists; split; reflexivity|]. split; [cbn; intuition|]. split; [cbn; intuition discriminate|]. cbn. lia.
Qed.
Print Assumptions C23_sees_most_refuted.
(** the hypotheses hold of the graph of computed links: detected sites are DNs when lines of sight are
    computed *)
Theorem C23_computed_graph : forall confidence lsites sites n finish, symmetric confidence -> positional confidence lsites ->
  List.length sites = List.length lsites -> all_finish (List.length (batches BATCH_SIZE (candidate_links (map ps_type sites) n))) finish ->
  (forall s, In s sites -> ps_building s <> None -> ps_type s = DN) ->
  exists links g, compute_los confidence lsites BATCH_SIZE finish (candidate_links (map ps_type sites) n) = Ok links /\ los_graph sites links = Ok g /\
  g_sites g = sites /\ wf_graph g /\ two_way g /\
  (forall i j, In j (neighbours (g_rx g) i) <-> exists q, In (mkValid i j q) links) /\
  (forall i j q, dget (g_conf g) (i, j) = Some q -> In (mkValid i j q) links).
Proof. exact computed_graph. Qed.
Print Assumptions C23_computed_graph.
(** without links in both directions the choice fails *)
Example C23_two_way_needed :
  let sites := [ex_dn 1 0; ex_user POP 1] in
  exists g, los_graph sites [mkValid 1 0 1] = Ok g /\ pick_best_sites_per_building true g = Err PyKeyError.
Proof. eexists. split; vm_compute; reflexivity. Qed.
Example C23_hypotheses_met : wf_graph ex_graph /\ two_way ex_graph /\
  exists g', pick_best_sites_per_building true ex_graph = Ok (g', [4; 5; 6; 0; 7; 1; 8; 3; 9]%nat).
Proof. split; [apply ex_graph_ok|]. split; [apply ex_graph_ok|]. eexists. vm_compute. reflexivity. Qed.

Theorem C24_matches_reachability : forall types rx picked, lists_over (List.length types) rx ->
  exists c, get_site_connectable_status types rx picked = Ok c /\ partition types rx picked c.
Proof. exact status_ok. Qed.
Print Assumptions C24_matches_reachability.
Theorem C24_every_site_once : forall types rx picked c, lists_over (List.length types) rx -> (forall i, In i picked -> (i < List.length types)%nat) ->
  get_site_connectable_status types rx picked = Ok c ->
  Permutation (k_connected c ++ k_unconnected c ++ k_connectable c ++ k_other c) (seq 0 (List.length types)).
Proof.
  intros types rx picked c R P E. destruct (status_ok types rx picked R) as (c' & E' & H). assert (c' = c) by congruence. subst c'. now apply (partition_perm types rx picked).
Qed.
Print Assumptions C24_every_site_once.
(** a POP, two picked sites in a row behind it, a picked site out of reach, an unpicked neighbour and one
    further away *)
Example C24_hypotheses_met :
  let types := [POP; DN; CN; CN; DN; DN] in
  let rx := [[1]; [0; 2; 4]; []; []; [1; 3; 5]; [4]]%nat in
  lists_over (List.length types) rx /\
  get_site_connectable_status types rx [0; 1; 2; 3]%nat = Ok (mkConn [0; 1; 2] [3] [4] [5])%nat.
Proof.
  intros types rx. split; [split; [reflexivity|]|vm_compute; reflexivity]. intros i j H. do 6 (destruct i as [|i]; [cbn in H; cbn; intuition lia|]). destruct i; destruct H.
Qed.

(** the selection ends; each site selected is new, one hop from a connected or selected site, and is the
    best choice for a CN not covered yet; [order] is the order of a Python set *)
Theorem C25_new_connectable_and_useful : forall types rx tx picked order, lists_over (List.length types) rx -> lists_over (List.length types) tx ->
  (forall i j, In j (neighbours rx i) <-> In i (neighbours tx j)) -> (forall i, In i picked -> (i < List.length types)%nat) -> enumerates order ->
  exists sel, select_additional_dns order types rx tx picked = Ok sel /\ NoDup sel /\
  forall k d, nth_error sel k = Some d -> good_choice types rx picked (firstn k sel) d.
Proof. intros types rx tx picked order RX TX I P O. destruct (select_ok types rx tx picked RX TX I P order O) as (sel & E & N & G & _). exists sel. auto. Qed.
Print Assumptions C25_new_connectable_and_useful.
(** every CN out of reach seen by a site one hop from a connected one is covered in the end *)
Theorem C25_covers_what_one_more_hop_reaches : forall types rx tx picked order sel, lists_over (List.length types) rx -> lists_over (List.length types) tx ->
  (forall i j, In j (neighbours rx i) <-> In i (neighbours tx j)) -> (forall i, In i picked -> (i < List.length types)%nat) -> enumerates order ->
  select_additional_dns order types rx tx picked = Ok sel ->
  forall j d, uncovered types rx picked [] j -> available types rx picked [] d -> In j (neighbours rx d) ->
  exists d', In d' sel /\ In j (neighbours rx d').
Proof.
  intros types rx tx picked order sel RX TX I P O E. destruct (select_ok types rx tx picked RX TX I P order O) as (sel' & E' & _ & _ & C). assert (sel' = sel) by congruence. subst sel'. exact C.
Qed.
Print Assumptions C25_covers_what_one_more_hop_reaches.
(** when CNs send nothing and all POPs are picked, what is selected are DNs *)
Theorem C25_selects_dns : forall types rx tx picked order sel, lists_over (List.length types) rx -> lists_over (List.length types) tx ->
  (forall i j, In j (neighbours rx i) <-> In i (neighbours tx j)) -> (forall i, In i picked -> (i < List.length types)%nat) -> enumerates order ->
  (forall i, nth_error types i = Some CN -> neighbours rx i = []) -> (forall i, nth_error types i = Some POP -> In i picked) ->
  select_additional_dns order types rx tx picked = Ok sel -> forall d, In d sel -> nth_error types d = Some DN.
Proof.
  intros types rx tx picked order sel RX TX I P O HC HP E d Hd. destruct (select_ok types rx tx picked RX TX I P order O) as (sel' & E' & _ & G & _). assert (sel' = sel) by congruence. subst sel'.
  apply In_nth_error in Hd. destruct Hd as (k & Hk). apply G in Hk. destruct Hk as ((L & Np & _) & j & _ & Hj & _). destruct (nth_error types d) as [[]|] eqn:T; [|reflexivity| |apply nth_error_None in T; lia].
  - rewrite (HC d T) in Hj. destruct Hj.
  - exfalso. apply Np. now apply HP.
Qed.
Print Assumptions C25_selects_dns.
(** the CN 3 is seen from 4, one hop from the POP's neighbour; the CN 6 from 5, one hop from 4 *)
Example C25_hypotheses_met :
  let types := [POP; DN; CN; CN; DN; DN; CN] in
  let rx := [[1]; [0; 2; 4]; []; []; [1; 3; 5]; [4; 6]; []]%nat in
  let tx := [[1]; [0; 4]; [1]; [4]; [1; 5]; [4]; [5]]%nat in
  lists_over (List.length types) rx /\ lists_over (List.length types) tx /\ (forall i j, In j (neighbours rx i) <-> In i (neighbours tx j)) /\
  enumerates (fun l => l) /\ uncovered types rx [0; 1; 2; 3; 6]%nat [] 3 /\ available types rx [0; 1; 2; 3; 6]%nat [] 4 /\
  select_additional_dns (fun l => l) types rx tx [0; 1; 2; 3; 6]%nat = Ok [4; 5]%nat.
Proof.
  intros types rx tx.
  assert (R : lists_over (List.length types) rx) by (split; [reflexivity|]; intros i j H; do 7 (destruct i as [|i]; [cbn in H; cbn; intuition lia|]); destruct i; destruct H).
  split; [exact R|].
  split; [split; [reflexivity|]; intros i j H; do 7 (destruct i as [|i]; [cbn in H; cbn; intuition lia|]); destruct i; destruct H|].
  split.
  { intros i j. split; intros H.
    - do 7 (destruct i as [|i]; [cbn in H; intuition (subst; cbn; auto)|]). destruct i; destruct H.
    - do 7 (destruct j as [|j]; [cbn in H; intuition (subst; cbn; auto)|]). destruct j; destruct H. }
  split; [intros l _; apply Permutation_refl|].
  destruct (status_ok types rx [0; 1; 2; 3; 6]%nat R) as (c & E & P). assert (X : c = (mkConn [0; 1; 2] [3; 6] [4] [5])%nat) by (vm_compute in E; congruence). subst c.
  split; [|split].
  - destruct (proj1 (pt_unconnected _ _ _ _ P 3%nat) (or_introl eq_refl)) as [A B]. split; [exact A|]. split; [reflexivity|]. split; [exact B|intros ? []].
  - destruct (proj1 (pt_connectable _ _ _ _ P 4%nat) (or_introl eq_refl)) as (A & B & i & C & D). split; [exact A|]. split; [exact B|]. split; [intros []|]. exists i. auto.
  - vm_compute. reflexivity.
Qed.
