(** Proofs of C26. *)
From Coq Require Import QArith Qabs.
From Verif Require Import Base Dict TopologyModel TopologySpec TopologyProofs TopologyLemmas MonadLib StatusModel QLib LosRangeModel LosBatchModel LosPickModel LosPickSpec LosPickProofs LosTopoModel LosTopoSpec.

Lemma foldM_app {A S} (f : S -> A -> result S) l r : forall s, foldM f s (l ++ r) = (do s' <- foldM f s l ; foldM f s' r).
Proof. induction l as [|a l IH]; intros s; cbn; [reflexivity|]. destruct (f s a); cbn; [apply IH|reflexivity]. Qed.
Lemma foldM_ext {A S} (f h : S -> A -> result S) l : (forall s a, In a l -> f s a = h s a) -> forall s, foldM f s l = foldM h s l.
Proof. induction l as [|a l IH]; intros H s; cbn; [reflexivity|]. rewrite H by now left. destruct (h s a); cbn; [|reflexivity]. apply IH. intros. apply H. now right. Qed.
Lemma foldM_flat {A B S} (f : S -> B -> result S) (h : A -> list B) l : forall s, foldM (fun s a => foldM f s (h a)) s l = foldM f s (flat_map h l).
Proof. induction l as [|a l IH]; intros s; cbn; [reflexivity|]. rewrite foldM_app. destruct (foldM f s (h a)); cbn; [apply IH|reflexivity]. Qed.
Lemma foldM_map {A B S} (f : S -> B -> result S) (h : A -> B) l : forall s, foldM (fun s a => f s (h a)) s l = foldM f s (map h l).
Proof. induction l as [|a l IH]; intros s; cbn; [reflexivity|]. destruct (f s (h a)); cbn; [apply IH|reflexivity]. Qed.

Section Build.
Variables dn_devices cn_devices : list string.
Variables distance elevation : site -> site -> Q.
Variable ranges : dict (string * string) Z.
Variable conf : dict (nat * nat) Q.
Variables min_los_dist max_el_scan_angle : Q.
Variable sites : list csite.
Variable rx : list (list nat).
Variable picked : list nat.
Notation stands := (stands_for dn_devices cn_devices sites picked).
Notation fits := (within_limits distance elevation ranges min_los_dist max_el_scan_angle).
Notation sid d := (s_id (ds_site d)).
Hypothesis U : usable dn_devices cn_devices ranges conf sites rx picked.

(** ** sites *)
Definition offers : list (nat * dsite) :=
  flat_map (fun p => if mem (fst p) picked then map (pair (fst p)) (site_options dn_devices cn_devices (snd p)) else []) (enumerate_from 0 sites).
Lemma option_In c d : In d (site_options dn_devices cn_devices c) <-> option_of dn_devices cn_devices c d.
Proof.
  split.
  - destruct c as [d'|ty f]; cbn [site_options]; intros H; [destruct H as [<-|[]]; constructor|]. apply in_map_iff in H. destruct H as (sku & <- & H). destruct ty; constructor; (exact H || discriminate).
  - intros [d'|f sku H|ty f sku N H]; cbn [site_options]; [now left|apply in_map_iff; eauto|apply in_map_iff; exists sku; split; [reflexivity|destruct ty; [congruence|exact H|exact H]]].
Qed.
Lemma offers_In i d : In (i, d) offers <-> stands i d.
Proof.
  unfold offers, stands_for. rewrite in_flat_map. split.
  - intros ([k c] & H & X). apply enumerate_nth in H. destruct H as (m & -> & E). cbn in X. destruct (mem m picked) eqn:M; [|destruct X]. apply mem_In in M.
    apply in_map_iff in X. destruct X as (d' & X & Y). injection X as <- <-. apply option_In in Y. eauto.
  - intros (M & c & E & H). exists (i, c). split; [apply enumerate_nth; exists i; auto|]. cbn. apply mem_In in M. rewrite M. apply in_map. now apply option_In.
Qed.
Definition offer_step (acc : topo * dict nat (list dsite)) (p : nat * dsite) := add_new (fst p) acc (snd p).
Lemma add_sites_flat t : add_sites_to_topology dn_devices cn_devices t sites picked = foldM offer_step (t, []) offers.
Proof.
  unfold add_sites_to_topology, offers. rewrite <- foldM_flat. apply foldM_ext. intros acc [k c] _. unfold site_step. cbn [fst snd]. destruct (mem k picked); [|reflexivity].
  rewrite <- foldM_map. reflexivity.
Qed.
Fixpoint fresh (seen : list string) (l : list (nat * dsite)) : list (nat * dsite) :=
  match l with [] => [] | p :: r => if mem (sid (snd p)) seen then fresh seen r else p :: fresh (sid (snd p) :: seen) r end.
Lemma fresh_ext l : forall s s', (forall x, In x s <-> In x s') -> fresh s l = fresh s' l.
Proof.
  induction l as [|p l IH]; intros s s' H; cbn; [reflexivity|]. replace (mem (sid (snd p)) s') with (mem (sid (snd p)) s).
  - destruct (mem (sid (snd p)) s); [now apply IH|]. f_equal. apply IH. intros x. cbn. rewrite H. tauto.
  - destruct (mem (sid (snd p)) s) eqn:A, (mem (sid (snd p)) s') eqn:B; try reflexivity; [apply mem_In in A; apply H in A; apply mem_In in A; congruence|apply mem_In in B; apply H in B; apply mem_In in B; congruence].
Qed.
Lemma fresh_incl l : forall s, incl (fresh s l) l.
Proof. induction l as [|p l IH]; intros s x; cbn; [auto|]. destruct (mem (sid (snd p)) s); [intros H; right; eapply IH; eauto|]. intros [->|H]; [now left|right; eapply IH; eauto]. Qed.
Lemma fresh_unseen l : forall s p, In p (fresh s l) -> ~ In (sid (snd p)) s.
Proof.
  induction l as [|q l IH]; intros s p; cbn; [intros []|]. destruct (mem (sid (snd q)) s) eqn:M; [apply IH|]. intros [<-|H]; [now apply mem_not_In|]. apply IH in H. intros X. apply H. now right.
Qed.
Lemma fresh_unique l : forall s p q, In p (fresh s l) -> In q (fresh s l) -> sid (snd p) = sid (snd q) -> p = q.
Proof.
  induction l as [|a l IH]; intros s p q; cbn; [intros []|]. destruct (mem (sid (snd a)) s); [apply IH|]. intros [<-|Hp] [<-|Hq] E; [reflexivity| | |now apply (IH _ _ _ Hp)].
  - exfalso. apply fresh_unseen in Hq. apply Hq. left. congruence.
  - exfalso. apply fresh_unseen in Hp. apply Hp. left. congruence.
Qed.
Lemma fresh_first l : forall s p, In p l -> ~ In (sid (snd p)) s -> exists q, In q (fresh s l) /\ sid (snd q) = sid (snd p).
Proof.
  induction l as [|a l IH]; intros s p; cbn; [intros []|]. intros H N. destruct (beq_spec (sid (snd a)) (sid (snd p))) as [E|E].
  - destruct (mem (sid (snd a)) s) eqn:M; [apply mem_In in M; rewrite E in M; contradiction|]. exists a. split; [now left|exact E].
  - destruct H as [->|H]; [congruence|]. destruct (mem (sid (snd a)) s); [eapply IH; eauto|].
    destruct (IH (sid (snd a) :: s) p H) as (q & Hq & Eq); [intros [X|X]; congruence|]. exists q. split; [now right|exact Eq].
Qed.
Lemma offers_fold : forall l t m, (forall p, In p l -> s_detected (ds_site (snd p)) = false /\ no_dash (sid (snd p))) -> exists t' m' ops, foldM offer_step (t, m) l = Ok (t', m') /\
  Forall op_ok ops /\ t' = run ops t /\ t_links t' = t_links t /\
  (forall x, In x (dkeys (t_sites t')) <-> In x (dkeys (t_sites t)) \/ exists p, In p l /\ sid (snd p) = x) /\
  (forall i, mapped m' i = mapped m i ++ map snd (filter (fun p => beq (fst p) i) (fresh (dkeys (t_sites t)) l))).
Proof.
  induction l as [|p l IH]; intros t m H.
  - exists t, m, []. split; [reflexivity|]. split; [constructor|]. split; [reflexivity|]. split; [reflexivity|]. split; [intros x; split; [now left|intros [X|(? & [] & _)]; exact X]|]. intros i. cbn. now rewrite app_nil_r.
  - cbn [foldM]. unfold offer_step at 1, add_new. destruct (H p (or_introl eq_refl)) as [Hd Hn]. destruct (dmem (t_sites t) (sid (snd p))) eqn:D.
    + cbn [rbind]. destruct (IH t m) as (t' & m' & ops & E & O & R & L & K & M); [intros; apply H; now right|]. exists t', m', ops. split; [exact E|]. split; [exact O|]. split; [exact R|]. split; [exact L|]. apply dmem_keys in D. split.
      * intros x. rewrite K. split; [intros [X|(q & Hq & X)]; [now left|right; exists q; split; [now right|exact X]]|]. intros [X|(q & [<-|Hq] & <-)]; [now left|now left|right; eauto].
      * intros i. rewrite M. cbn [fresh]. apply mem_In in D. rewrite D. reflexivity.
    + unfold add_site. rewrite Hd, D. cbn [to_result ok fst snd rbind].
      set (t1 := set_sites t _). set (m1 := dappend m (fst p) (snd p)).
      destruct (IH t1 m1) as (t' & m' & ops & E & O & R & L & K & M); [intros; apply H; now right|]. exists t', m', (AddSite (ds_site (snd p)) :: ops). split; [exact E|].
      split; [constructor; [exact Hn|exact O]|]. split; [cbn; unfold add_site; rewrite Hd, D; exact R|]. split; [exact L|].
      assert (K1 : forall x, In x (dkeys (t_sites t1)) <-> In x (sid (snd p) :: dkeys (t_sites t))).
      { intros x. cbn [t_sites t1 set_sites]. rewrite dkeys_set, D, in_app_iff. cbn. tauto. }
      split.
      * intros x. rewrite K, K1. cbn [In]. split; [intros [[X|X]|(q & Hq & X)]; [right; exists p; auto|now left|right; exists q; auto]|]. intros [X|(q & [<-|Hq] & X)]; [left; now right|left; now left|right; eauto].
      * intros i. rewrite M. cbn [fresh]. apply dmem_None in D as D'. apply dget_None_keys in D'. apply mem_not_In in D'. rewrite D'. cbn [filter].
        rewrite (fresh_ext l _ _ K1). unfold mapped at 1, m1, dappend. rewrite dget_set. rewrite (beq_sym i (fst p)). destruct (beq_spec (fst p) i) as [<-|N]; [|reflexivity]. cbn [map]. rewrite <- app_assoc. reflexivity.
Qed.

(** ** links *)
Definition try_step (t : topo) (q : nat * nat * (dsite * dsite)) : result topo :=
  try_link distance elevation ranges conf min_los_dist max_el_scan_angle (fst (fst q)) (snd (fst q)) (fst (snd q)) (snd (snd q)) t.
Definition tries (m : dict nat (list dsite)) : list (nat * nat * (dsite * dsite)) :=
  flat_map (fun p => if mem (fst p) picked then flat_map (fun j => if mem j picked then
    flat_map (fun a => map (fun b => (fst p, j, (a, b))) (mapped m j)) (mapped m (fst p)) else []) (snd p) else []) (enumerate_from 0 rx).
Lemma add_links_flat t m : add_links_to_topology distance elevation ranges conf min_los_dist max_el_scan_angle t rx picked m = foldM try_step t (tries m).
Proof.
  unfold add_links_to_topology, tries. rewrite <- foldM_flat. apply foldM_ext. intros s [i l] _. unfold LosTopoModel.tx_step. cbn [fst snd]. destruct (mem i picked); [|reflexivity].
  rewrite <- foldM_flat. apply foldM_ext. intros s' j _. unfold rx_step. destruct (mem j picked); [|reflexivity].
  rewrite <- foldM_flat. apply foldM_ext. intros s'' a _. rewrite <- foldM_map. reflexivity.
Qed.
Lemma tries_In m i j a b : In (i, j, (a, b)) (tries m) <-> In i picked /\ In j picked /\ In j (neighbours rx i) /\ In a (mapped m i) /\ In b (mapped m j).
Proof.
  unfold tries. rewrite in_flat_map. split.
  - intros ([k l] & H & X). apply enumerate_nth in H. destruct H as (x & -> & E). cbn [fst snd Nat.add] in X. destruct (mem x picked) eqn:M; [|destruct X]. apply mem_In in M.
    apply in_flat_map in X. destruct X as (j' & Hj & X). destruct (mem j' picked) eqn:M'; [|destruct X]. apply mem_In in M'. apply in_flat_map in X. destruct X as (a' & Ha & X).
    apply in_map_iff in X. destruct X as (b' & X & Hb). injection X as <- <- <- <-. split; [exact M|]. split; [exact M'|]. split; [|auto]. unfold neighbours. now rewrite (nth_error_nth _ _ _ E).
  - intros (Hi & Hj & Hn & Ha & Hb). assert (L := in_neighbours _ _ _ Hn). exists (i, neighbours rx i). split; [apply enumerate_nth; exists i; split; [reflexivity|now apply nth_error_nth']|].
    cbn [fst snd]. apply mem_In in Hi. apply mem_In in Hj. rewrite Hi. apply in_flat_map. exists j. split; [exact Hn|]. rewrite Hj. apply in_flat_map. exists a. split; [exact Ha|]. apply in_map_iff. eauto.
Qed.
Lemma in_limits_ok a b : (exists m, dget ranges (ds_sku a, ds_sku b) = Some m) ->
  exists f, in_limits distance elevation ranges min_los_dist max_el_scan_angle a b = Ok f /\ (f = true <-> fits a b).
Proof.
  intros (m & E). unfold in_limits, within_limits. rewrite E. destruct (Qle_bool min_los_dist _) eqn:A.
  - apply Qle_bool_iff in A. eexists. split; [reflexivity|]. rewrite andb_true_iff, !Qle_bool_iff. split; [intros [X Y]; split; [exact A|]; split; [eauto|exact Y]|]. intros (_ & (m' & E' & X) & Y). injection E' as <-. auto.
  - exists false. split; [reflexivity|]. split; [discriminate|]. intros (X & _). apply Qle_bool_iff in X. congruence.
Qed.
Lemma make_ok a b : s_type (ds_site a) <> CN -> s_status (ds_site a) <> UNAVAILABLE -> s_status (ds_site a) <> UNREACHABLE ->
  s_status (ds_site b) <> UNAVAILABLE -> s_status (ds_site b) <> UNREACHABLE -> make_candidate a b = Ok (candidate_link a b).
Proof.
  intros T A B C D. unfold make_candidate, candidate_link. destruct (beq_spec (s_type (ds_site a)) CN); [contradiction|].
  destruct (s_status (ds_site a)), (s_status (ds_site b)); try contradiction; reflexivity.
Qed.
Definition link_key (q : nat * nat * (dsite * dsite)) : string := link_id_of (sid (fst (snd q))) (sid (snd (snd q))).
Definition good_try (t : topo) (q : nat * nat * (dsite * dsite)) : Prop :=
  stands (fst (fst q)) (fst (snd q)) /\ stands (snd (fst q)) (snd (snd q)) /\ In (snd (fst q)) (neighbours rx (fst (fst q))) /\
  site_stored t (sid (fst (snd q))) /\ site_stored t (sid (snd (snd q))).
Lemma tries_fold : forall l t, (forall q, In q l -> good_try t q) -> exists t' ops, foldM try_step t l = Ok t' /\ Forall op_ok ops /\ t' = run ops t /\ t_sites t' = t_sites t /\
  (forall k ln, dget (t_links t') k = Some ln -> dget (t_links t) k = Some ln \/ exists q, In q l /\ fits (fst (snd q)) (snd (snd q)) /\ k = link_key q /\ ln = candidate_link (fst (snd q)) (snd (snd q))) /\
  (forall q, In q l -> fits (fst (snd q)) (snd (snd q)) -> exists q', In q' l /\ link_key q' = link_key q /\ dget (t_links t') (link_key q) = Some (candidate_link (fst (snd q')) (snd (snd q')))) /\
  (forall k ln, dget (t_links t) k = Some ln -> (forall q, In q l -> link_key q <> k) -> dget (t_links t') k = Some ln) /\
  (forall k ln, dget (t_links t) k = Some ln -> exists ln', dget (t_links t') k = Some ln').
Proof.
  induction l as [|[[i j] [a b]] l IH]; intros t G.
  - exists t, []. split; [reflexivity|]. split; [constructor|]. split; [reflexivity|]. split; [reflexivity|]. split; [auto|]. split; [intros ? []|]. split; eauto.
  - destruct (G _ (or_introl eq_refl)) as (Sa & Sb & Hn & Ta & Tb). cbn [fst snd] in *.
    cbn [foldM]. unfold try_step at 1, try_link. cbn [fst snd]. destruct (us_conf _ _ _ _ _ _ _ U i j Hn) as (cf & Ec). rewrite Ec.
    rewrite make_ok.
    2:{ eapply (us_sender _ _ _ _ _ _ _ U); eauto. } 2:{ eapply (us_status _ _ _ _ _ _ _ U); eauto. } 2:{ eapply (us_status _ _ _ _ _ _ _ U); eauto. } 2:{ eapply (us_status _ _ _ _ _ _ _ U); eauto. } 2:{ eapply (us_status _ _ _ _ _ _ _ U); eauto. }
    cbn [rbind]. destruct (in_limits_ok a b) as (f & Ef & Hf); [eapply (us_ranges _ _ _ _ _ _ _ U); eauto|]. rewrite Ef. cbn [rbind]. destruct f.
    + assert (F := proj1 Hf eq_refl). apply stored_dmem in Ta. apply stored_dmem in Tb.
      assert (D : dmem (t_sites t) (l_tx (candidate_link a b)) && dmem (t_sites t) (l_rx (candidate_link a b)) = true) by (cbn; now rewrite Ta, Tb).
      unfold add_link at 1. rewrite D. cbn [to_result ok fst snd rbind]. set (t1 := set_rconn _ _).
      destruct (IH t1) as (t' & ops & E & O & R & S & Lk & Lw & Lo & Lp).
      { intros q Hq. destruct (G q (or_intror Hq)) as (A1 & A2 & A3 & A4 & A5). split; [exact A1|]. split; [exact A2|]. split; [exact A3|]. split; assumption. }
      exists t', (AddLink (candidate_link a b) :: ops). split; [exact E|]. split; [constructor; [exact I|exact O]|]. split; [cbn [run fold_left run_op]; unfold add_link; rewrite D; exact R|]. split; [exact S|].
      assert (L1 : t_links t1 = dset (t_links t) (link_id_of (sid a) (sid b)) (candidate_link a b)) by reflexivity.
      split; [|split; [|split]].
      * intros k ln X. apply Lk in X. destruct X as [X|(q & Hq & X)]; [|right; exists q; split; [now right|exact X]]. rewrite L1, dget_set in X.
        destruct (beq_spec k (link_id_of (sid a) (sid b))) as [->|N]; [|now left]. injection X as <-. right. exists (i, j, (a, b)). split; [now left|]. split; [exact F|]. split; reflexivity.
      * intros q [<-|Hq] Fq; [|apply Lw in Hq; [|exact Fq]; destruct Hq as (q' & A & B & C); exists q'; split; [now right|auto]].
        destruct (Lp (link_key (i, j, (a, b))) (candidate_link a b)) as (ln & Z); [rewrite L1; apply dget_set_eq|]. apply Lk in Z as Z'. destruct Z' as [Z'|(q3 & H3 & _ & K3 & ->)].
        -- rewrite L1 in Z'. change (link_key (i, j, (a, b))) with (link_id_of (sid a) (sid b)) in Z' at 1. rewrite dget_set_eq in Z'. injection Z' as <-. exists (i, j, (a, b)). split; [now left|]. auto.
        -- exists q3. split; [now right|]. auto.
      * intros k ln X Nk. apply Lo; [|intros q Hq; apply Nk; now right]. rewrite L1, dget_set_neq; [exact X|]. intros Y. apply (Nk (i, j, (a, b)) (or_introl eq_refl)). now symmetry.
      * intros k ln X. destruct (beq_spec k (link_id_of (sid a) (sid b))) as [->|N]; [eapply Lp; rewrite L1; apply dget_set_eq|]. eapply Lp. rewrite L1, dget_set_neq; [exact X|congruence].
    + destruct (IH t) as (t' & ops & E & O & R & S & Lk & Lw & Lo & Lp); [intros; apply G; now right|]. exists t', ops. split; [exact E|]. split; [exact O|]. split; [exact R|]. split; [exact S|]. split; [|split; [|split]].
      * intros k ln X. apply Lk in X. destruct X as [X|(q & Hq & X)]; [now left|right; exists q; split; [now right|exact X]].
      * intros q [<-|Hq] Fq; [apply Hf in Fq; discriminate|]. apply Lw in Hq; [|exact Fq]. destruct Hq as (q' & A & B & C). exists q'. split; [now right|auto].
      * intros k ln X Nk. apply Lo; [exact X|]. intros q Hq. apply Nk. now right.
      * exact Lp.
Qed.

Lemma construct_ok base : reachable base -> exists t',
  construct_topology_from_los_result dn_devices cn_devices distance elevation ranges conf min_los_dist max_el_scan_angle base sites rx picked = Ok t' /\ reachable t' /\
  (forall x, site_stored t' x <-> site_stored base x \/ exists i d, stands i d /\ sid d = x) /\
  (forall a b, seen_pair dn_devices cn_devices distance elevation ranges min_los_dist max_el_scan_angle sites rx picked a b ->
     new_site dn_devices cn_devices base sites picked a -> new_site dn_devices cn_devices base sites picked b ->
     link_stored t' (link_id_of (sid a) (sid b)) (candidate_link a b)) /\
  (forall k l, link_stored t' k l -> link_stored base k l \/
     exists a b, seen_pair dn_devices cn_devices distance elevation ranges min_los_dist max_el_scan_angle sites rx picked a b /\
       k = link_id_of (sid a) (sid b) /\ l = candidate_link a b) /\
  (forall k l, link_stored base k l -> link_stored t' k l).
Proof.
  intros R. unfold construct_topology_from_los_result. rewrite add_sites_flat.
  destruct (offers_fold offers base []) as (t1 & m & ops1 & E1 & O1 & R1 & L1 & K1 & M1).
  { intros [i d] H. apply offers_In in H. destruct (us_ids _ _ _ _ _ _ _ U i d H). auto. }
  rewrite E1. cbn [rbind fst snd]. rewrite add_links_flat.
  assert (M : forall i d, In d (mapped m i) <-> In (i, d) (fresh (dkeys (t_sites base)) offers)).
  { intros i d. rewrite M1. unfold mapped. cbn [dget app]. rewrite in_map_iff. split.
    - intros ([i' d'] & <- & H). apply filter_In in H. destruct H as [H X]. apply beq_true in X. cbn in X. subst i'. exact H.
    - intros H. exists (i, d). split; [reflexivity|]. apply filter_In. split; [exact H|]. cbn. apply beq_refl. }
  assert (MS : forall i d, In d (mapped m i) -> stands i d).
  { intros i d H. apply M, fresh_incl, offers_In in H. exact H. }
  assert (ST : forall i d, stands i d -> site_stored t1 (sid d)).
  { intros i d H. apply stored_dmem, dmem_keys, K1. right. exists (i, d). split; [now apply offers_In|reflexivity]. }
  destruct (tries_fold (tries m) t1) as (t' & ops2 & E2 & O2 & R2 & S2 & Lk & Lw & Lo & _).
  { intros [[i j] [a b]] H. apply tries_In in H. destruct H as (Hi & Hj & Hn & Ha & Hb). apply MS in Ha. apply MS in Hb. split; [exact Ha|]. split; [exact Hb|]. split; [exact Hn|]. split; cbn; eauto. }
  assert (ND : forall i d, stands i d -> no_dash (sid d)) by (intros i d H; eapply (us_ids _ _ _ _ _ _ _ U); eauto).
  exists t'. split; [exact E2|]. split; [|split; [|split; [|split]]].
  - destruct R as (ops0 & O0 & ->). exists (ops0 ++ ops1 ++ ops2). split; [apply Forall_app; split; [exact O0|]; apply Forall_app; auto|]. rewrite R2, R1, !run_app. reflexivity.
  - intros x. unfold site_stored at 1. rewrite S2. change (site_stored t1 x <-> site_stored base x \/ exists i d, stands i d /\ sid d = x). rewrite !stored_dmem, !dmem_keys, K1. split.
    + intros [X|([i d] & H & X)]; [now left|right]. apply offers_In in H. eauto.
    + intros [X|(i & d & H & X)]; [now left|right]. exists (i, d). split; [now apply offers_In|exact X].
  - intros a b (i & j & Sa & Sb & Hn & F) Na Nb.
    assert (Y : forall i d, stands i d -> new_site dn_devices cn_devices base sites picked d -> In d (mapped m i)).
    { clear - M. intros i d S (N & Q). apply M. destruct (fresh_first offers (dkeys (t_sites base)) (i, d)) as ([i' d'] & H & X); [now apply offers_In|intros Z; apply N; now apply stored_dmem, dmem_keys|]. cbn [snd] in X.
      assert (S' := H). apply fresh_incl, offers_In in S'. destruct (Q i i' d' S S' X) as [-> ->]. exact H. }
    assert (Ha := Y i a Sa Na). assert (Hb := Y j b Sb Nb). destruct (Lw (i, j, (a, b))) as ([[i' j'] [a' b']] & H & X & Z).
    + apply tries_In. destruct Sa as [Pa _], Sb as [Pb _]. auto.
    + exact F.
    + unfold link_stored. cbn [fst snd] in Z. change (link_key (i, j, (a, b))) with (link_id_of (sid a) (sid b)) in Z. apply tries_In in H. destruct H as (_ & _ & _ & Ha' & Hb').
      unfold link_key in X. cbn [fst snd] in X. apply link_id_inj in X; [|eapply ND, MS; eauto|eapply ND, MS; eauto]. destruct X as [Xa Xb].
      apply M in Ha'. apply M in Hb'. apply M in Ha. apply M in Hb.
      assert (W1 := fresh_unique _ _ _ _ Ha' Ha Xa). assert (W2 := fresh_unique _ _ _ _ Hb' Hb Xb). injection W1 as _ <-. injection W2 as _ <-. exact Z.
  - intros k l H. apply Lk in H. destruct H as [H|([[i j] [a b]] & H & F & -> & ->)]; [left; unfold link_stored; now rewrite <- L1|right].
    apply tries_In in H. destruct H as (Hi & Hj & Hn & Ha & Hb). exists a, b. split; [|split; reflexivity]. exists i, j. split; [now apply MS|]. split; [now apply MS|]. split; [exact Hn|exact F].
  - intros k l H. apply Lo; [unfold link_stored in H; now rewrite L1|]. intros [[i j] [a b]] Hq E. apply tries_In in Hq. destruct Hq as (_ & _ & _ & Ha & _).
    destruct (agree_reachable _ R) as (_ & (_ & TL & _) & _). apply TL in H. destruct H as (-> & Ht & _). unfold link_key, l_id in E. cbn [fst snd] in E.
    apply link_id_inj in E; [|eapply ND, MS; eauto|apply (site_no_dash base); [now apply inv_reachable|now apply stored_dmem]]. destruct E as [E _].
    apply M, fresh_unseen in Ha. apply Ha. cbn [snd]. rewrite E. now apply dmem_keys, stored_dmem.
Qed.
End Build.
