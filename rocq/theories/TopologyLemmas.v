(** The property statements, derived from the invariant. *)
From Coq Require Import Permutation Sorted.
From Verif Require Import Base Dict TopologyModel TopologySpec TopologyProofs.

Lemma stored_dmem t i : site_stored t i <-> dmem (t_sites t) i = true.
Proof. unfold site_stored. now rewrite dmem_Some. Qed.

Lemma listed_row c s i : listed_in c s i <-> In i (row c s).
Proof.
  unfold listed_in, row. destruct (dget c s) as [r|]; split.
  - intros (r' & E & Hi). inversion E; now subst.
  - eauto.
  - intros (r' & E & _). discriminate.
  - intros [].
Qed.

Lemma agree_reachable t : reachable t -> link_indexes_agree t /\ tables_closed t /\ sector_index_complete t.
Proof.
  intros Hr. apply inv_reachable in Hr. rename Hr into HI. repeat split.
  - intros He. apply edge_get2 in He. now apply (i_conn t HI).
  - intros He. apply edge_get2. now apply (i_conn t HI).
  - intros He. apply edge_get2 in He. now apply (i_rconn t HI).
  - intros He. apply edge_get2. now apply (i_rconn t HI).
  - intros i s E. now apply (i_sites t HI) in E.
  - now apply (i_links t HI) in H.
  - apply stored_dmem. now apply (i_links t HI) in H.
  - apply stored_dmem. now apply (i_links t HI) in H.
  - now apply (i_sectors t HI) in H.
  - apply stored_dmem. now apply (i_sectors t HI) in H.
  - intros i x E. apply listed_row. now apply (i_sectors t HI) in E.
Qed.

Lemma reachable_run ops : Forall op_ok ops -> reachable (run ops empty_topo).
Proof. intros H. exists ops. auto. Qed.

Lemma agree_run ops : Forall op_ok ops ->
  link_indexes_agree (run ops empty_topo) /\ tables_closed (run ops empty_topo) /\
  sector_index_complete (run ops empty_topo).
Proof. intros H. apply agree_reachable. now apply reachable_run. Qed.

(** *** soundness of the sector index while no site with sectors is removed *)
Lemma run_app a b t : run (a ++ b) t = run b (run a t).
Proof. unfold run. apply fold_left_app. Qed.

Definition idx_sound (t : topo) : Prop :=
  forall s i, In i (row (t_secidx t) s) -> exists x, dget (t_sectors t) i = Some x /\ x_site x = s.

Lemma idx_sound_step o t : Inv t -> op_ok o -> idx_sound t ->
  (forall i, o = RemoveSite i -> ~ has_sectors t i) -> idx_sound (snd (run_op o t)).
Proof.
  intros HI Ho Hs Hrm. destruct o; simpl.
  - unfold add_site. destruct (s_detected s); [exact Hs|].
    destruct (dmem (t_sites t) (s_id s)); exact Hs.
  - specialize (Hrm i eq_refl).
    assert (Hrow : row (t_secidx t) i = []).
    { destruct (row (t_secidx t) i) as [|k r] eqn:E; [reflexivity|]. exfalso. apply Hrm.
      destruct (Hs i k) as (x & Ex & Hx); [rewrite E; now left|]. exists k, x. auto. }
    unfold remove_site. destruct (dmem (t_sites t) i); simpl; [|exact Hs].
    rewrite touch_row, Hrow. simpl.
    set (ids := dvals (row (t_conn (touch_secidx i t)) i) ++ dvals (row (t_rconn (touch_secidx i t)) i)).
    pose proof (remove_links_inv ids (touch_secidx i t) (inv_touch i t HI)) as [_ Hsame].
    destruct Hsame as (_ & E2 & _ & E4).
    assert (Hx : idx_sound (snd (remove_links ids (touch_secidx i t)))).
    { intros s j. rewrite E4, E2, touch_row.
      destruct (touch_same i t) as (_ & T2 & _). rewrite T2. apply Hs. }
    unfold andthen; simpl. fold ids. destruct (fst (remove_links ids (touch_secidx i t))); exact Hx.
  - exact Hs.
  - unfold remove_demand. destruct (dmem (t_demands t) i); exact Hs.
  - unfold add_sector. destruct (dmem (t_sectors t) (x_id x)) eqn:Ex; [exact Hs|].
    destruct (dmem (t_sites t) (x_site x)); simpl; [|exact Hs].
    intros s i. simpl. rewrite dget_set. destruct (beq_spec i (x_id x)) as [->|Hn].
    + destruct (eqb_dec s (x_site x)) as [->|Hne]; [intros _; eauto|].
      rewrite row_set_neq by exact Hne. intros Hi. apply Hs in Hi. destruct Hi as (y & Ey & _).
      apply dmem_None in Ex. congruence.
    + destruct (eqb_dec s (x_site x)) as [->|Hne].
      * rewrite row_set_eq, sadd_In. intros [E|Hi]; [congruence|auto].
      * rewrite row_set_neq by exact Hne. auto.
  - pose proof (remove_sector_spec i t HI) as Hsp. destruct (dget (t_sectors t) i) as [x|] eqn:Ex.
    + destruct Hsp as (_ & _ & _ & _ & E3 & E4 & _). intros s j. rewrite E4, E3, dget_del.
      destruct (beq_spec s (x_site x)) as [->|Hne].
      * rewrite discard_In. intros [Hj Hn]. destruct (beq_spec j i); [tauto|auto].
      * intros Hj. apply Hs in Hj. destruct (beq_spec j i) as [->|Hn]; [|exact Hj].
        destruct Hj as (y & Ey & Hy). congruence.
    + rewrite Hsp. exact Hs.
  - unfold add_link. destruct (dmem (t_sites t) (l_tx l) && dmem (t_sites t) (l_rx l)); exact Hs.
  - pose proof (remove_link_spec k t HI) as Hsp. destruct (dget (t_links t) k).
    + destruct Hsp as (t' & -> & _ & _ & _ & E2 & _ & E4). simpl. intros s i. rewrite E2, E4. apply Hs.
    + rewrite Hsp. exact Hs.
  - intros s i. simpl. rewrite sort_dict_get by apply HI. apply Hs.
Qed.

Lemma idx_sound_run ops : Forall op_ok ops ->
  (forall pre i post, ops = pre ++ RemoveSite i :: post -> ~ has_sectors (run pre empty_topo) i) ->
  sector_index_sound (run ops empty_topo).
Proof.
  intros Ho Hrm.
  assert (Hs : idx_sound (run ops empty_topo)).
  { induction ops as [|o ops IH] using rev_ind; [intros s i []|].
    rewrite run_app. simpl. apply Forall_app in Ho. destruct Ho as [Ho1 Ho2]. inversion Ho2; subst.
    apply idx_sound_step; auto.
    - apply inv_reachable, reachable_run, Ho1.
    - apply IH; [exact Ho1|]. intros pre i post E. apply (Hrm pre i (post ++ [o])). rewrite E.
      now rewrite <- app_assoc.
    - intros i ->. apply (Hrm ops i []). reflexivity. }
  intros s i Hi. apply listed_row in Hi. destruct (Hs s i Hi) as (x & Ex & Hx). exists x. auto.
Qed.

(** *** remove_site *)
Lemma listed_is_on_site t i k x : Inv t -> dget (t_sectors t) k = Some x ->
  (In k (row (t_secidx t) i) <-> x_site x = i).
Proof.
  intros HI Ex. destruct (i_sectors t HI k x Ex) as (Hk & Hs & Hin). split.
  - intros Hi. destruct (i_secidx t HI i k Hi) as (Hnd & key & Hkey & Hks).
    apply site_no_dash in Hs; [|exact HI].
    assert (E : k_site key = k_site (x_key x)).
    { apply key_id_site_inj; [now rewrite Hks|exact Hs|]. rewrite Hkey, Hk. reflexivity. }
    unfold x_site. congruence.
  - intros <-. exact Hin.
Qed.

Lemma remove_site_exact t i t' : reachable t -> remove_site i t = (Ok tt, t') ->
  (forall j s, dget (t_sites t') j = Some s <-> dget (t_sites t) j = Some s /\ j <> i) /\
  (forall k l, link_stored t' k l <-> link_stored t k l /\ ~ touches l i) /\
  (forall k x, sector_stored t' k x <-> sector_stored t k x /\ x_site x <> i) /\
  t_demands t' = t_demands t /\
  (forall k l j x, link_stored t' k l -> sector_stored t j x -> x_site x = i -> ~ link_uses j l).
Proof.
  intros Hr E. apply inv_reachable in Hr. rename Hr into HI.
  destruct (remove_site_spec i t HI) as (HI' & _ & Hsp & _). rewrite E in *. simpl in *.
  destruct (Hsp eq_refl) as (E1 & E2 & E3 & E4 & E5). clear Hsp.
  assert (Hsec : forall k x, sector_stored t' k x <-> sector_stored t k x /\ x_site x <> i).
  { intros k x. unfold sector_stored. rewrite E4. destruct (mem k (row (t_secidx t) i)) eqn:Em.
    - apply mem_In in Em. split; [discriminate|]. intros [Ex Hx]. exfalso. apply Hx.
      now apply (listed_is_on_site t i k x HI Ex).
    - apply mem_not_In in Em. split; [|tauto]. intros Ex. split; [exact Ex|]. intros Hx.
      apply Em. now apply (listed_is_on_site t i k x HI Ex). }
  assert (Hlk : forall k l, link_stored t' k l <-> link_stored t k l /\ ~ touches l i).
  { intros k l. unfold link_stored. rewrite E5.
    destruct (mem k _) eqn:Em.
    - apply mem_In in Em. apply (collected_links t i k HI) in Em. destruct Em as (l0 & El0 & Ht).
      split; [discriminate|]. intros [El Hn]. rewrite El in El0. inversion El0; subst. tauto.
    - apply mem_not_In in Em. split; [|tauto]. intros El. split; [exact El|]. intros Ht. apply Em.
      apply (collected_links t i k HI). eauto. }
  split; [|split; [exact Hlk|split; [exact Hsec|split; [exact E2|]]]].
  - intros j s. rewrite E1, dget_del. destruct (beq_spec j i) as [->|Hn]; [|tauto].
    split; [discriminate|intros [_ Hn]; congruence].
  - intros k l j x El Ex Hx (a & b & Hab & Hu). apply Hlk in El. destruct El as [El Hnt].
    destruct (i_links t HI k l El) as (_ & Htx & Hrx & Harg). unfold link_args_ok in Harg. rewrite Hab in Harg.
    destruct Harg as [Ha Hb]. destruct (i_sectors t HI j x Ex) as (Hj & Hsx & _).
    apply Hnt. unfold touches.
    assert (Hnd := site_no_dash t _ HI Hsx). assert (Hndt := site_no_dash t _ HI Htx).
    assert (Hndr := site_no_dash t _ HI Hrx).
    destruct Hu as [Hu|Hu].
    + left. assert (Hk : k_site a = k_site (x_key x)).
      { apply key_id_site_inj; [congruence|exact Hnd|]. rewrite Hu, Hj. reflexivity. }
      unfold x_site in Hx. congruence.
    + right. assert (Hk : k_site b = k_site (x_key x)).
      { apply key_id_site_inj; [congruence|exact Hnd|]. rewrite Hu, Hj. reflexivity. }
      unfold x_site in Hx. congruence.
Qed.

Lemma remove_site_succeeds t i : reachable t ->
  (fst (remove_site i t) = Ok tt <->
   site_stored t i /\ (forall k, listed_in (t_secidx t) i k -> exists x, sector_stored t k x) /\
   ~ (exists k l, link_stored t k l /\ l_tx l = i /\ l_rx l = i)).
Proof.
  intros Hr. apply inv_reachable in Hr. destruct (remove_site_spec i t Hr) as (_ & Hok & _).
  rewrite Hok, stored_dmem. unfold all_listed_stored, self_linked.
  assert (Hq : (forall k, In k (row (t_secidx t) i) -> dmem (t_sectors t) k = true) <->
               (forall k, listed_in (t_secidx t) i k -> exists x, sector_stored t k x)).
  { split; intros H k Hk.
    - apply dmem_Some. apply H. now apply listed_row.
    - apply dmem_Some. apply H. now apply listed_row. }
  rewrite Hq. reflexivity.
Qed.

Lemma add_site_ok s t t' : add_site s t = (Ok tt, t') ->
  t' = set_sites t (dset (t_sites t) (s_id s) s).
Proof.
  unfold add_site. destruct (s_detected s); [discriminate|]. destruct (dmem (t_sites t) (s_id s)); [discriminate|].
  unfold ok. intros E; inversion E; auto.
Qed.

Lemma readd_remove t i t1 s t2 : reachable t -> no_dash i -> s_id s = i ->
  remove_site i t = (Ok tt, t1) -> add_site s t1 = (Ok tt, t2) ->
  (has_sectors t i -> fst (remove_site i t2) = Err PyKeyError) /\
  (~ has_sectors t i -> fst (remove_site i t2) = Ok tt).
Proof.
  intros Hr Hnd Hs E1 E2. assert (HI := inv_reachable t Hr).
  destruct (remove_site_spec i t HI) as (HI1 & Hok & Hsp & _). rewrite E1 in *. simpl in *.
  destruct (Hsp eq_refl) as (Q1 & Q2 & Q3 & Q4 & Q5). destruct Hok as [Hok _]. specialize (Hok eq_refl).
  destruct Hok as (Hst & Hls & Hns).
  pose proof (inv_add_site s t1 HI1) as HI2. rewrite Hs, E2 in HI2. specialize (HI2 Hnd). simpl in HI2.
  apply add_site_ok in E2. subst t2.
  destruct (remove_site_spec i _ HI2) as (_ & Hok2 & _ & Herr2).
  assert (Hm : dmem (t_sites (set_sites t1 (dset (t_sites t1) (s_id s) s))) i = true).
  { simpl. rewrite dmem_set, Hs, beq_refl. reflexivity. }
  split.
  - intros (k & x & Ex & Hx). apply Herr2; [exact Hm|]. intros Hall. unfold all_listed_stored in Hall. simpl in Hall.
    destruct (i_sectors t HI k x Ex) as (_ & _ & Hin). rewrite Hx in Hin.
    assert (Hin1 : In k (row (t_secidx t1) i)) by (now rewrite Q3).
    apply Hall in Hin1. apply dmem_Some in Hin1. destruct Hin1 as [v Ev]. rewrite Q4 in Ev.
    apply mem_In in Hin. rewrite Hin in Ev. discriminate.
  - intros Hno. apply Hok2. split; [exact Hm|]. split.
    + intros k Hk. simpl in Hk. rewrite Q3 in Hk. exfalso. apply Hno.
      specialize (Hls k Hk). apply dmem_Some in Hls. destruct Hls as [x Ex]. exists k, x. split; [exact Ex|].
      now apply (listed_is_on_site t i k x HI Ex).
    + intros (k & l & El & Ht & Hrx). simpl in El. rewrite Q5 in El.
      destruct (mem k _); [discriminate|]. apply Hns. exists k, l. auto.
Qed.

(** *** links by end sites *)
Lemma link_identity t k1 l1 k2 l2 : reachable t -> link_stored t k1 l1 -> link_stored t k2 l2 ->
  (l_id l1 = l_id l2 <-> l_tx l1 = l_tx l2 /\ l_rx l1 = l_rx l2) /\ (l_id l1 = l_id l2 -> l1 = l2).
Proof.
  intros Hr E1 E2. assert (HI := inv_reachable t Hr).
  destruct (i_links t HI _ _ E1) as (K1 & T1 & _). destruct (i_links t HI _ _ E2) as (K2 & T2 & _).
  split.
  - split.
    + intros E. apply link_id_inj; [now apply (site_no_dash t)|now apply (site_no_dash t)|exact E].
    + intros [Et Er]. unfold l_id. congruence.
  - intros E. unfold link_stored in *. rewrite K1, E, <- K2 in E1. congruence.
Qed.

Lemma get_link_exact t a b : reachable t ->
  (site_stored t a /\ site_stored t b ->
   exists o, get_link_by_site_ids t a b = Ok o /\
     forall l, o = Some l <-> exists k, link_stored t k l /\ l_tx l = a /\ l_rx l = b) /\
  (~ (site_stored t a /\ site_stored t b) -> get_link_by_site_ids t a b = Err TopologyExn).
Proof.
  intros Hr. assert (HI := inv_reachable t Hr). unfold get_link_by_site_ids. rewrite !stored_dmem.
  destruct (dmem (t_sites t) a) eqn:Ea; destruct (dmem (t_sites t) b) eqn:Eb; simpl;
    try (split; [intros [? ?]; discriminate|reflexivity]).
  split; [|intros Hn; tauto]. intros _. eexists. split; [reflexivity|]. intros l. split.
  - intros El. exists (link_id_of a b). split; [exact El|].
    destruct (i_links t HI _ _ El) as (K & T & _). unfold l_id in K.
    apply link_id_inj in K; [|now apply (site_no_dash t)|now apply (site_no_dash t)]. destruct K. auto.
  - intros (k & El & <- & <-). destruct (i_links t HI _ _ El) as (K & _). unfold l_id in K. now rewrite <- K.
Qed.

Lemma get_reverse_exact t l k : reachable t -> link_stored t k l ->
  exists o, get_reverse_link t l = Ok o /\
    forall l', o = Some l' <-> exists k', link_stored t k' l' /\ l_tx l' = l_rx l /\ l_rx l' = l_tx l.
Proof.
  intros Hr El. assert (HI := inv_reachable t Hr). destruct (i_links t HI _ _ El) as (_ & T1 & T2 & _).
  apply (get_link_exact t (l_rx l) (l_tx l) Hr). split; now apply stored_dmem.
Qed.

(** *** neighbours *)
Lemma mapM_lookup t ids : (forall i, In i ids -> dmem (t_sites t) i = true) ->
  exists l, mapM (lookup_site t) ids = Ok l /\
    (forall s, In s l <-> exists i, In i ids /\ dget (t_sites t) i = Some s) /\
    (NoDup ids -> (forall i s, dget (t_sites t) i = Some s -> s_id s = i) -> NoDup l).
Proof.
  induction ids as [|i r IH]; intros Hall; simpl.
  - exists []. split; [reflexivity|]. split; [|constructor]. simpl. intros s. split; [tauto|intros (i & [] & _)].
  - pose proof (Hall i (or_introl eq_refl)) as Hi. apply dmem_Some in Hi. destruct Hi as [s Es].
    unfold lookup_site at 1. rewrite Es. simpl.
    destruct IH as (l & El & Hl & Hnd); [intros j Hj; apply Hall; now right|]. rewrite El. simpl.
    exists (s :: l). split; [reflexivity|]. split.
    + intros s'. simpl. rewrite Hl. split.
      * intros [<-|(j & Hj & Ej)]; eauto.
      * intros (j & [<-|Hj] & Ej); [left; congruence|right; eauto].
    + intros Hn Hid. inversion Hn as [|? ? Hni Hnr]; subst. constructor; [|auto].
      intros Hin. apply Hl in Hin. destruct Hin as (j & Hj & Ej).
      apply Hid in Es. apply Hid in Ej. congruence.
Qed.

Lemma filterM_pure {A} (f : A -> bool) (g : A -> result bool) l :
  (forall x, In x l -> g x = Ok (f x)) -> filterM g l = Ok (filter f l).
Proof.
  induction l as [|x r IH]; intros Hg; simpl; [reflexivity|].
  rewrite Hg by now left. simpl. rewrite IH by (intros; apply Hg; now right). simpl.
  destruct (f x); reflexivity.
Qed.

Lemma In_row_keys c i b : wf2 c -> (In b (dkeys (row c i)) <-> exists k, get2 c i b = Some k).
Proof. intros Hw. unfold get2. apply In_dkeys. Qed.

Lemma successors_exact t i : reachable t -> site_stored t i ->
  lists_exactly (get_successor_sites t i) (successor t i false).
Proof.
  intros Hr Hs. assert (HI := inv_reachable t Hr). apply stored_dmem in Hs.
  unfold get_successor_sites. rewrite Hs. simpl.
  destruct (mapM_lookup t (dkeys (row (t_conn t) i))) as (l & El & Hl & Hnd).
  { intros b Hb. apply In_row_keys in Hb; [|apply HI]. destruct Hb as [k Hk]. apply (i_conn t HI) in Hk.
    destruct Hk as (lk & Elk & _ & <-). now apply (i_links t HI) in Elk. }
  exists l. split; [exact El|]. split.
  { apply Hnd; [apply (wf2_row (t_conn t) i), HI|]. intros j s Ej. now apply (i_sites t HI) in Ej. }
  intros s. rewrite Hl. unfold successor, link_stored. split.
  - intros (b & Hb & Eb). apply In_row_keys in Hb; [|apply HI]. destruct Hb as [k Hk].
    apply (i_conn t HI) in Hk. destruct Hk as (lk & Elk & Ht & Hrx). exists k, lk. subst b. 
    repeat split; auto. discriminate.
  - intros (k & lk & Elk & Ht & Es & _). exists (l_rx lk). split; [|exact Es].
    apply In_row_keys; [apply HI|]. exists k. apply (i_conn t HI). eauto.
Qed.

Lemma predecessors_exact t i : reachable t -> site_stored t i ->
  lists_exactly (get_predecessor_sites t i) (predecessor t i false).
Proof.
  intros Hr Hs. assert (HI := inv_reachable t Hr). apply stored_dmem in Hs.
  unfold get_predecessor_sites. rewrite Hs. simpl.
  destruct (mapM_lookup t (dkeys (row (t_rconn t) i))) as (l & El & Hl & Hnd).
  { intros b Hb. apply In_row_keys in Hb; [|apply HI]. destruct Hb as [k Hk]. apply (i_rconn t HI) in Hk.
    destruct Hk as (lk & Elk & <- & _). now apply (i_links t HI) in Elk. }
  exists l. split; [exact El|]. split.
  { apply Hnd; [apply (wf2_row (t_rconn t) i), HI|]. intros j s Ej. now apply (i_sites t HI) in Ej. }
  intros s. rewrite Hl. unfold predecessor, link_stored. split.
  - intros (b & Hb & Eb). apply In_row_keys in Hb; [|apply HI]. destruct Hb as [k Hk].
    apply (i_rconn t HI) in Hk. destruct Hk as (lk & Elk & Ht & Hrx). exists k, lk. subst b.
    repeat split; auto. discriminate.
  - intros (k & lk & Elk & Ht & Es & _). exists (l_tx lk). split; [|exact Es].
    apply In_row_keys; [apply HI|]. exists k. apply (i_rconn t HI). eauto.
Qed.

Lemma get_link_value t a b : Inv t -> dmem (t_sites t) a = true -> dmem (t_sites t) b = true ->
  get_link_by_site_ids t a b = Ok (dget (t_links t) (link_id_of a b)).
Proof. intros HI Ha Hb. unfold get_link_by_site_ids. now rewrite Ha, Hb. Qed.

Lemma link_by_ends t k l : Inv t -> dget (t_links t) k = Some l -> dget (t_links t) (link_id_of (l_tx l) (l_rx l)) = Some l.
Proof. intros HI El. destruct (i_links t HI k l El) as (K & _). unfold l_id in K. now rewrite <- K. Qed.

Lemma ends_of_id t a b l : Inv t -> dmem (t_sites t) a = true ->
  dget (t_links t) (link_id_of a b) = Some l -> l_tx l = a /\ l_rx l = b.
Proof.
  intros HI Ha El. destruct (i_links t HI _ _ El) as (K & T & _). unfold l_id in K.
  apply link_id_inj in K; [|now apply (site_no_dash t)|now apply (site_no_dash t)]. destruct K; auto.
Qed.

Lemma wireless_successors_exact t i : reachable t -> site_stored t i ->
  lists_exactly (get_wireless_successor_sites t i) (successor t i true).
Proof.
  intros Hr Hs. assert (HI := inv_reachable t Hr).
  destruct (successors_exact t i Hr Hs) as (l & El & Hnd & Hl). apply stored_dmem in Hs.
  unfold get_wireless_successor_sites. rewrite El. simpl.
  assert (Hid : forall s, In s l -> dget (t_sites t) (s_id s) = Some s).
  { intros s Hin. apply Hl in Hin. destruct Hin as (k & lk & _ & _ & Es & _).
    pose proof Es as Es'. apply (i_sites t HI) in Es'. destruct Es' as [-> _]. exact Es. }
  exists (filter (fun s => is_wireless_link (dget (t_links t) (link_id_of i (s_id s)))) l).
  split; [|split].
  - apply filterM_pure. intros s Hin. rewrite get_link_value; auto. apply dmem_Some; eauto.
  - now apply NoDup_filter'.
  - intros s. rewrite filter_In. split.
    + intros [Hin Hw]. pose proof (Hid s Hin) as Es.
      destruct (dget (t_links t) (link_id_of i (s_id s))) as [lk|] eqn:Elk; [|discriminate].
      destruct (ends_of_id t i (s_id s) lk HI Hs Elk) as [Ht Hrx].
      exists (link_id_of i (s_id s)), lk. unfold link_stored. rewrite Hrx. repeat split; auto.
    + intros (k & lk & Elk & Ht & Es & Hw). split.
      * apply Hl. exists k, lk. repeat split; auto; try discriminate.
      * pose proof (i_sites t HI _ _ Es) as [-> _]. rewrite <- Ht, (link_by_ends t k lk HI Elk). simpl. auto.
Qed.

(** what the code computes: predecessors [s] for which a wireless link [i -> s] exists *)
Lemma wireless_predecessors_actual t i : reachable t -> site_stored t i ->
  lists_exactly (get_wireless_predecessor_sites t i)
    (fun s => predecessor t i false s /\ successor t i true s).
Proof.
  intros Hr Hs. assert (HI := inv_reachable t Hr).
  destruct (predecessors_exact t i Hr Hs) as (l & El & Hnd & Hl). apply stored_dmem in Hs.
  unfold get_wireless_predecessor_sites. rewrite El. simpl.
  assert (Hid : forall s, In s l -> dget (t_sites t) (s_id s) = Some s).
  { intros s Hin. apply Hl in Hin. destruct Hin as (k & lk & _ & _ & Es & _).
    pose proof Es as Es'. apply (i_sites t HI) in Es'. destruct Es' as [-> _]. exact Es. }
  exists (filter (fun s => is_wireless_link (dget (t_links t) (link_id_of i (s_id s)))) l).
  split; [|split].
  - apply filterM_pure. intros s Hin. rewrite get_link_value; auto. apply dmem_Some; eauto.
  - now apply NoDup_filter'.
  - intros s. rewrite filter_In, Hl. split.
    + intros [Hp Hw]. split; [exact Hp|]. apply Hl in Hp. pose proof (Hid s Hp) as Es.
      destruct (dget (t_links t) (link_id_of i (s_id s))) as [lk|] eqn:Elk; [|discriminate].
      destruct (ends_of_id t i (s_id s) lk HI Hs Elk) as [Ht Hrx].
      exists (link_id_of i (s_id s)), lk. unfold link_stored. rewrite Hrx. repeat split; auto.
    + intros [Hp (k & lk & Elk & Ht & Es & Hw)]. split; [exact Hp|].
      pose proof (i_sites t HI _ _ Es) as [-> _]. rewrite <- Ht, (link_by_ends t k lk HI Elk). simpl. auto.
Qed.

Lemma wireless_predecessors_symmetric t i : reachable t -> site_stored t i -> links_symmetric t ->
  lists_exactly (get_wireless_predecessor_sites t i) (predecessor t i true).
Proof.
  intros Hr Hs Hsym. assert (HI := inv_reachable t Hr).
  destruct (wireless_predecessors_actual t i Hr Hs) as (l & El & Hnd & Hl).
  exists l. split; [exact El|]. split; [exact Hnd|]. intros s. rewrite Hl. split.
  - intros [_ (k & lk & Elk & Ht & Es & Hw)].
    destruct (Hsym k lk Elk) as (k' & lk' & Elk' & A & B & C).
    exists k', lk'. split; [exact Elk'|]. split; [congruence|]. split; [congruence|]. intros _. rewrite C. auto.
  - intros (k & lk & Elk & Ht & Es & Hw). split; [exists k, lk; repeat split; auto; discriminate|].
    destruct (Hsym k lk Elk) as (k' & lk' & Elk' & A & B & C).
    exists k', lk'. split; [exact Elk'|]. split; [congruence|]. split; [congruence|]. intros _. rewrite C. auto.
Qed.

(** *** remove_sector *)
Lemma uses_sector_iff i l : uses_sector i l = true <-> link_uses i l.
Proof.
  unfold uses_sector, uses_tx, uses_rx, link_uses. destruct (l_sectors l) as [[a b]|].
  - rewrite orb_true_iff, !beq_eq. split.
    + intros H. exists a, b. auto.
    + intros (a' & b' & E & H). inversion E; subst. exact H.
  - simpl. split; [discriminate|intros (a & b & E & _); discriminate].
Qed.

Lemma remove_sector_exact t i : reachable t ->
  ((exists x, sector_stored t i x) <-> fst (remove_sector i t) = Ok tt) /\
  forall t', remove_sector i t = (Ok tt, t') ->
   t_sites t' = t_sites t /\ t_demands t' = t_demands t /\
   (forall k x, sector_stored t' k x <-> sector_stored t k x /\ k <> i) /\
   (forall k l', link_stored t' k l' <->
      exists l, link_stored t k l /\ ((~ link_uses i l /\ l' = l) \/ (link_uses i l /\ l' = clear_sectors l))) /\
   (forall k l', link_stored t' k l' -> ~ link_uses i l').
Proof.
  intros Hr. assert (HI := inv_reachable t Hr). pose proof (remove_sector_spec i t HI) as Hsp.
  unfold sector_stored, link_stored. destruct (dget (t_sectors t) i) as [x|] eqn:Ex.
  - destruct Hsp as (Hok & _ & E1 & E2 & E3 & E4 & E5). split; [split; [auto|eauto]|].
    intros t' E. rewrite E in *. simpl in *. split; [exact E1|]. split; [exact E2|].
    assert (Hlk : forall k l', dget (t_links t') k = Some l' <->
      exists l, dget (t_links t) k = Some l /\ ((~ link_uses i l /\ l' = l) \/ (link_uses i l /\ l' = clear_sectors l))).
    { intros k l'. rewrite E5. destruct (dget (t_links t) k) as [l|] eqn:El.
      - destruct (uses_sector i l) eqn:Eu.
        + apply uses_sector_iff in Eu. split.
          * intros H; inversion H; subst. exists l. auto.
          * intros (l0 & H0 & [[Hn _]|[_ ->]]); inversion H0; subst; [tauto|reflexivity].
        + assert (Hnu : ~ link_uses i l) by (rewrite <- uses_sector_iff; congruence). split.
          * intros H; inversion H; subst. exists l'. auto.
          * intros (l0 & H0 & [[_ ->]|[Hn _]]); inversion H0; subst; [reflexivity|tauto].
      - split; [discriminate|intros (l0 & H0 & _); discriminate]. }
    split; [|split].
    + intros k y. rewrite E3, dget_del. destruct (beq_spec k i) as [->|Hn]; [|tauto].
      split; [discriminate|intros [_ Hn]; congruence].
    + exact Hlk.
    + intros k l' El'. apply Hlk in El'. destruct El' as (l & _ & [[Hn ->]|[_ ->]]); [exact Hn|].
      intros (a & b & H & _). discriminate.
  - rewrite Hsp. simpl. split; [|discriminate]. split; [intros [x H]; discriminate|discriminate].
Qed.

(** *** sort *)
Lemma str_ltb_irrefl a : str_ltb a a = false.
Proof. induction a as [|c a IH]; simpl; [reflexivity|]. rewrite N.ltb_irrefl. exact IH. Qed.
Lemma str_ltb_trans a : forall b c, str_ltb a b = true -> str_ltb b c = true -> str_ltb a c = true.
Proof.
  induction a as [|x a IH]; intros [|y b] [|z c]; simpl; try congruence.
  destruct (N.ltb_spec (N_of_ascii x) (N_of_ascii y)); destruct (N.ltb_spec (N_of_ascii y) (N_of_ascii x));
  destruct (N.ltb_spec (N_of_ascii y) (N_of_ascii z)); destruct (N.ltb_spec (N_of_ascii z) (N_of_ascii y));
  destruct (N.ltb_spec (N_of_ascii x) (N_of_ascii z)); destruct (N.ltb_spec (N_of_ascii z) (N_of_ascii x));
  try congruence; try lia; eauto.
Qed.
Lemma N_of_ascii_inj x y : N_of_ascii x = N_of_ascii y -> x = y.
Proof. intros E. rewrite <- (ascii_N_embedding x), <- (ascii_N_embedding y). now rewrite E. Qed.
Lemma str_ltb_total a : forall b, str_ltb a b = false -> str_ltb b a = false -> a = b.
Proof.
  induction a as [|x a IH]; intros [|y b]; simpl; try congruence.
  destruct (N.ltb_spec (N_of_ascii x) (N_of_ascii y)); destruct (N.ltb_spec (N_of_ascii y) (N_of_ascii x));
    try congruence; try lia. intros E1 E2. rewrite (IH b E1 E2).
  rewrite (N_of_ascii_inj x y); [reflexivity|lia].
Qed.

Definition kle {V} (p q : string * V) : Prop := str_ltb (fst q) (fst p) = false.
Lemma kle_trans {V} : Relations_1.Transitive (@kle V).
Proof.
  intros x y z Hxy Hyz. unfold kle in *.
  destruct (str_ltb (fst z) (fst x)) eqn:E; [|reflexivity].
  destruct (str_ltb (fst x) (fst y)) eqn:E1.
  - now rewrite (str_ltb_trans _ _ _ E E1) in Hyz.
  - rewrite (str_ltb_total _ _ E1 Hxy) in E. congruence.
Qed.
Lemma insert_by_HdRel {V} (x : string * V) a l :
  HdRel kle a l -> kle a x -> HdRel kle a (insert_by (fun p q => str_ltb (fst p) (fst q)) x l).
Proof. destruct l as [|y r]; simpl; intros Hh Hk; [now constructor|]. destruct (str_ltb (fst y) (fst x)); constructor; auto; now inversion Hh. Qed.
Lemma insert_by_sorted {V} (x : string * V) l :
  Sorted kle l -> Sorted kle (insert_by (fun p q => str_ltb (fst p) (fst q)) x l).
Proof.
  induction l as [|y r IH]; simpl; intros Hs; [repeat constructor|].
  inversion Hs as [|? ? Hr Hh]; subst. destruct (str_ltb (fst y) (fst x)) eqn:E.
  - constructor; [auto|]. apply insert_by_HdRel; [exact Hh|]. unfold kle.
    destruct (str_ltb (fst x) (fst y)) eqn:E2; [|reflexivity].
    pose proof (str_ltb_trans _ _ _ E E2) as E3. rewrite str_ltb_irrefl in E3. discriminate.
  - constructor; [exact Hs|]. constructor. exact E.
Qed.
Lemma sort_dict_sorted {V} (d : dict string V) : StronglySorted kle (sort_dict d).
Proof.
  apply Sorted_StronglySorted; [exact kle_trans|].
  unfold sort_dict, sort_by. induction d as [|p r IH]; simpl; [constructor|]. now apply insert_by_sorted.
Qed.
Lemma sorted_perm_eq {V} (d d' : dict string V) : dwf d -> Permutation d d' ->
  StronglySorted kle d -> StronglySorted kle d' -> d = d'.
Proof.
  revert d'. induction d as [|p r IH]; intros d' Hw Hp Hs Hs'.
  - apply Permutation_nil in Hp. now subst.
  - destruct d' as [|q r']; [apply Permutation_sym, Permutation_nil in Hp; discriminate|].
    inversion Hs as [|? ? Hsr Hfp]; subst. inversion Hs' as [|? ? Hsr' Hfq]; subst.
    assert (Epq : p = q).
    { assert (Hq : In q (p :: r)) by (eapply Permutation_in; [apply Permutation_sym, Hp|now left]).
      assert (Hpq : In p (q :: r')) by (eapply Permutation_in; [exact Hp|now left]).
      destruct Hq as [->|Hq]; [reflexivity|]. destruct Hpq as [->|Hpq]; [reflexivity|].
      rewrite Forall_forall in Hfp, Hfq. specialize (Hfp q Hq). specialize (Hfq p Hpq). unfold kle in *.
      pose proof (str_ltb_total _ _ Hfq Hfp) as Ek. exfalso. inversion Hw as [|? ? Hn _]; subst.
      apply Hn. unfold dkeys. simpl in *. rewrite Ek. now apply in_map. }
    subst q. f_equal. apply IH; auto.
    + now inversion Hw.
    + now apply Permutation_cons_inv in Hp.
Qed.
Lemma same_content_perm {V} (d d' : dict string V) : dwf d -> dwf d' -> same_content d d' -> Permutation d d'.
Proof.
  intros Hw Hw' Hc. apply NoDup_Permutation.
  - apply (NoDup_map_inv fst). exact Hw.
  - apply (NoDup_map_inv fst). exact Hw'.
  - intros [k v]. rewrite <- !dget_In_iff by assumption. now rewrite Hc.
Qed.
Lemma sort_dict_canonical {V} (d d' : dict string V) : dwf d -> dwf d' -> same_content d d' -> sort_dict d = sort_dict d'.
Proof.
  intros Hw Hw' Hc. apply sorted_perm_eq; try apply sort_dict_sorted; try now apply sort_dict_wf.
  unfold sort_dict. rewrite !sort_by_perm. now apply same_content_perm.
Qed.

Lemma sort_topo_canonical t t' : reachable t -> reachable t' ->
  same_content (t_sites t) (t_sites t') -> same_content (t_sectors t) (t_sectors t') ->
  same_content (t_links t) (t_links t') ->
  t_sites (sort_topo t) = t_sites (sort_topo t') /\ t_sectors (sort_topo t) = t_sectors (sort_topo t') /\
  t_links (sort_topo t) = t_links (sort_topo t').
Proof.
  intros Hr Hr' H1 H2 H3. apply inv_reachable in Hr. apply inv_reachable in Hr'. simpl.
  split; [|split]; apply sort_dict_canonical; try assumption; try apply Hr; try apply Hr'.
Qed.
Lemma sort_topo_content t : reachable t ->
  same_content (t_sites (sort_topo t)) (t_sites t) /\ same_content (t_sectors (sort_topo t)) (t_sectors t) /\
  same_content (t_links (sort_topo t)) (t_links t) /\
  (forall i, match dget (t_demands (sort_topo t)) i, dget (t_demands t) i with
             | Some d', Some d => d_id d' = d_id d /\ Permutation (d_sites d') (d_sites d)
             | None, None => True | _, _ => False end) /\
  StronglySorted (fun p q => str_ltb (fst q) (fst p) = false) (t_sites (sort_topo t)) /\
  StronglySorted (fun p q => str_ltb (fst q) (fst p) = false) (t_links (sort_topo t)).
Proof.
  intros Hr. apply inv_reachable in Hr. unfold same_content. simpl.
  split; [intros k; apply sort_dict_get, Hr|]. split; [intros k; apply sort_dict_get, Hr|].
  split; [intros k; apply sort_dict_get, Hr|]. split; [|split; apply sort_dict_sorted].
  intros i. rewrite dget_map_vals, sort_dict_get by apply Hr. destruct (dget (t_demands t) i); simpl; [|exact I].
  split; [reflexivity|]. apply sort_by_perm.
Qed.
