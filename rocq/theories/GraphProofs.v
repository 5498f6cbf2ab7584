(** Proofs about reachability from the POPs. *)
From Verif Require Import Base Dict TopologyModel TopologySpec TopologyProofs TopologyQueryProofs StatusModel GraphModel GraphSpec.

Lemma wf_inv t : Inv t -> well_formed t.
Proof.
  intros H. unfold well_formed. split; [apply H|]. split; [apply H|]. split; [apply H|]. split; [apply H|].
  split; [split; intros a b k; rewrite edge_get2; apply H|].
  split; [|split].
  - intros i s E. now apply (i_sites t H) in E.
  - intros k l E. destruct (i_links t H _ _ E) as (E1 & E2 & E3 & _). apply dmem_Some in E2, E3. auto.
  - intros k x E. destruct (i_sectors t H _ _ E) as (E1 & E2 & _). apply dmem_Some in E2. auto.
Qed.
Lemma wf_reachable t : reachable t -> well_formed t.
Proof. intros H. apply wf_inv, inv_reachable, H. Qed.

Lemma in_sf_iff sf s : in_sf sf s = true <-> allowed sf s.
Proof. unfold in_sf. rewrite in_filter_iff. destruct sf; simpl; tauto. Qed.

Lemma fold_sadd_In (l : list string) : forall acc i, In i (fold_left (fun acc j => sadd j acc) l acc) <-> In i l \/ In i acc.
Proof.
  induction l as [|a r IH]; intros acc i; simpl; [tauto|]. rewrite IH, sadd_In. intuition congruence.
Qed.
Lemma fold_sadd_NoDup (l : list string) : forall acc, NoDup acc -> NoDup (fold_left (fun acc j => sadd j acc) l acc).
Proof. induction l as [|a r IH]; intros acc H; simpl; [exact H|]. apply IH. now apply sadd_NoDup. Qed.

Definition steps_to (t : topo) (sf : option (list status)) (cur : list string) (links : dict string link) (i : string) : Prop :=
  ~ In i cur /\ exists k l s, In (k, l) links /\ In (l_tx l) cur /\ allowed sf (l_status l) /\ l_rx l = i /\
    dget (t_sites t) i = Some s /\ allowed sf (s_status s).

Lemma new_ids_spec t sf cur links :
  (forall k l, In (k, l) links -> site_stored t (l_tx l) /\ site_stored t (l_rx l)) ->
  exists ids, new_ids t sf cur links = Some ids /\ NoDup ids /\ forall i, In i ids <-> steps_to t sf cur links i.
Proof.
  induction links as [|[k l] r IH]; intros Hc; simpl.
  - exists []. split; [reflexivity|]. split; [constructor|]. intros i. unfold steps_to. simpl. split; [tauto|].
    intros (_ & k & l & s & [] & _).
  - destruct IH as (ids & -> & Hn & Hin). { intros k' l' H. apply (Hc k' l'). now right. }
    destruct (Hc k l (or_introl eq_refl)) as [[sa Ea] [sb Eb]].
    destruct (mem (l_tx l) cur && in_sf sf (l_status l)) eqn:Ec.
    + apply andb_true_iff in Ec. destruct Ec as [Em Ef]. rewrite Ea, Eb.
      eexists. split; [reflexivity|]. split; [now apply fold_sadd_NoDup|].
      intros i. rewrite fold_sadd_In, in_app_iff, Hin. rewrite Em. simpl. rewrite andb_false_r. simpl.
      apply mem_In in Em. apply in_sf_iff in Ef. unfold steps_to. split.
      * intros [[[]|H]|(Hni & k' & l' & s & Hl & H)].
        -- destruct (in_sf sf (s_status sb) && negb (mem (l_rx l) cur)) eqn:E2; simpl in H; [|tauto].
           destruct H as [<-|[]]. apply andb_true_iff in E2. destruct E2 as [E2 E3].
           apply negb_true_iff in E3. apply mem_not_In in E3. apply in_sf_iff in E2.
           split; [exact E3|]. exists k, l, sb. repeat split; auto using in_eq.
        -- split; [exact Hni|]. exists k', l', s. split; [right; exact Hl|exact H].
      * intros (Hni & k' & l' & s & [Hl|Hl] & Ht & Hs & Hr & Es & Ha).
        -- inversion Hl; subst k' l'. left. right. rewrite Hr in *. rewrite Eb in Es. inversion Es; subst s.
           apply in_sf_iff in Ha. rewrite Ha. apply mem_not_In in Hni. rewrite Hni. simpl. now left.
        -- right. split; [exact Hni|]. exists k', l', s. tauto.
    + exists ids. split; [reflexivity|]. split; [exact Hn|]. intros i. rewrite Hin. unfold steps_to. split.
      * intros (Hni & k' & l' & s & Hl & H). split; [exact Hni|]. exists k', l', s. split; [right; exact Hl|exact H].
      * intros (Hni & k' & l' & s & [Hl|Hl] & Ht & Hs & H).
        -- inversion Hl; subst k' l'. apply mem_In in Ht. apply in_sf_iff in Hs. rewrite Ht, Hs in Ec. discriminate.
        -- split; [exact Hni|]. exists k', l', s. tauto.
Qed.

Lemma fold_dset_get (ids : list string) (v : nat) : forall d i,
  dget (fold_left (fun d i => dset d i v) ids d) i = if mem i ids then Some v else dget d i.
Proof.
  induction ids as [|a r IH]; intros d i; simpl; [reflexivity|]. rewrite IH, dget_set.
  simpl. fold (mem i r). destruct (mem i r) eqn:E; destruct (beq i a); reflexivity.
Qed.

Lemma route_zero t sf i : route t sf i 0 <-> exists s, dget (t_sites t) i = Some s /\ s_type s = POP /\ allowed sf (s_status s).
Proof.
  split.
  - intros H. remember 0 as z eqn:Ez. destruct H as [i s E Ht Ha|]; [|discriminate]. eauto.
  - intros (s & E & Ht & Ha). eapply route_pop; eauto.
Qed.
Lemma route_succ t sf i n : route t sf i (S n) -> exists a k l s, route t sf a n /\ link_stored t k l /\ l_tx l = a /\ l_rx l = i /\
  allowed sf (l_status l) /\ dget (t_sites t) i = Some s /\ allowed sf (s_status s).
Proof.
  intros H. inversion H as [|a m k l s Hr Hl Ht Hs Es Ha]; subst. exists (l_tx l), k, l, s. repeat split; auto.
Qed.
Lemma route_site t sf i n : route t sf i n -> exists s, dget (t_sites t) i = Some s /\ allowed sf (s_status s).
Proof. intros H. destruct H; eauto. Qed.

(** every route of length n passes a site at each smaller distance: if some site of
    minimal distance m exists, ... used only through this fact *)
Record loop_inv t sf (hop : nat) (cur : list string) (hops : dict string nat) : Prop := {
  li_nodup : NoDup cur;
  li_cur : forall i, In i cur <-> exists n, n <= hop /\ route t sf i n;
  li_hops : forall i n, dget hops i = Some n <-> (n <= hop /\ shortest t sf i n) }.

Lemma hop_loop_spec t sf : well_formed t -> forall fuel hop cur hops,
  loop_inv t sf hop cur hops -> List.length (t_sites t) < fuel + List.length cur ->
  exists h, hop_loop fuel t sf hop cur hops = Ok h /\ forall i n, dget h i = Some n <-> shortest t sf i n.
Proof.
  intros (Ws & Wl & Wx & Wd & Hidx & Hs & Hl & Hx) fuel. induction fuel as [|f IH]; intros hop cur hops HI Hf.
  - exfalso. destruct HI as [Hn Hc _].
    assert (Hi : incl cur (dkeys (t_sites t))).
    { intros i Hi. apply Hc in Hi. destruct Hi as (n & _ & Hr). apply route_site in Hr. destruct Hr as (s & E & _).
      apply In_dkeys. eauto. }
    pose proof (NoDup_incl_length Hn Hi) as HL. unfold dkeys in HL. rewrite map_length in HL. simpl in Hf. lia.
  - simpl. destruct (new_ids_spec t sf cur (t_links t)) as (ids & E & Hn & Hin).
    { intros k l H. apply In_dget in H; [|exact Wl]. apply Hl in H. tauto. }
    rewrite E. destruct HI as [Hnc Hc Hh].
    assert (Hstep : forall i, steps_to t sf cur (t_links t) i <-> (~ In i cur /\ route t sf i (S hop))).
    { intros i. unfold steps_to. split.
      - intros (Hni & k & l & s & HIn & Ht & Ha & Hr & Es & Hsa). split; [exact Hni|].
        apply In_dget in HIn; [|exact Wl]. apply Hc in Ht. destruct Ht as (n & Hle & Hrt).
        assert (Hri : route t sf i (S n)). { subst i. eapply route_link; eauto. }
        destruct (Nat.eq_dec n hop) as [->|Hne]; [exact Hri|].
        exfalso. apply Hni. apply Hc. exists (S n). split; [lia|exact Hri].
      - intros (Hni & Hr). split; [exact Hni|]. apply route_succ in Hr.
        destruct Hr as (a & k & l & s & Ha & Hk & Ht & Hrx & Hal & Es & Hsa).
        exists k, l, s. split; [now apply dget_In|]. split; [|auto].
        rewrite Ht. apply Hc. exists hop. auto. }
    destruct ids as [|i0 ids'] eqn:Ei; rewrite <- Ei in *.
    + exists hops. split; [subst ids; reflexivity|]. intros i n. rewrite Hh. split; [tauto|]. intros Hsh. split; [|exact Hsh].
      destruct (Nat.le_gt_cases n hop) as [|Hgt]; [assumption|]. exfalso.
      assert (Hall : forall m j, route t sf j m -> In j cur).
      { induction m as [|m IHm]; intros j Hj.
        - apply Hc. exists 0. split; [lia|exact Hj].
        - destruct (in_dec string_dec j cur) as [|Hnj]; [assumption|]. exfalso.
          apply route_succ in Hj. destruct Hj as (a & k & l & s & Ha & Hk & Ht & Hrx & Hal & Es & Hsa).
          apply IHm in Ha. assert (In j ids). { apply Hin. split; [exact Hnj|]. exists k, l, s. rewrite Ht.
            repeat split; auto. now apply dget_In. }
          subst ids. contradiction. }
      destruct Hsh as [Hr Hmin]. pose proof (Hall _ _ Hr) as Hi. apply Hc in Hi. destruct Hi as (m & Hm & Hrm).
      apply Hmin in Hrm. lia.
    + assert (Hne : exists x y, ids = x :: y) by eauto.
      replace (match ids with [] => Ok hops | _ :: _ => hop_loop f t sf (S hop) (cur ++ ids) (fold_left (fun d i => dset d i (S hop)) ids hops) end)
        with (hop_loop f t sf (S hop) (cur ++ ids) (fold_left (fun d i => dset d i (S hop)) ids hops))
        by (destruct Hne as (x & y & ->); reflexivity).
      assert (Hlen : 0 < List.length ids) by (destruct Hne as (x & y & ->); simpl; lia).
      clear i0 ids' Ei Hne. apply IH.
      * constructor.
        -- apply NoDup_app_iff. split; [exact Hnc|]. split; [exact Hn|]. intros x Hx1 Hx2. apply Hin in Hx2.
           destruct Hx2. contradiction.
        -- intros i. rewrite in_app_iff, Hin, Hstep. split.
           ++ intros [H|[_ H]]; [apply Hc in H; destruct H as (n & ? & ?); exists n; split; [lia|assumption]|].
              exists (S hop). auto.
           ++ intros (n & Hle & Hr). destruct (in_dec string_dec i cur) as [|Hni]; [now left|]. right. split; [exact Hni|].
              destruct (Nat.eq_dec n (S hop)) as [->|]; [exact Hr|]. exfalso. apply Hni, Hc. exists n. split; [lia|exact Hr].
        -- intros i n. rewrite fold_dset_get. destruct (mem i ids) eqn:Em.
           ++ apply mem_In in Em. apply Hin, Hstep in Em. destruct Em as [Hni Hr].
              assert (Hgt : forall m, route t sf i m -> hop < m).
              { intros m Hm. destruct (Nat.le_gt_cases m hop); [|assumption]. exfalso. apply Hni, Hc. exists m. auto. }
              split.
              ** intros En. inversion En; subst n. split; [lia|]. split; [exact Hr|]. intros m Hm. apply Hgt in Hm. lia.
              ** intros [Hle [Hrn Hmin]]. f_equal. apply Hgt in Hrn. lia.
           ++ apply mem_not_In in Em. rewrite Hh. split; [intros [? ?]; split; [lia|assumption]|].
              intros [Hle Hsh]. split; [|exact Hsh]. destruct (Nat.eq_dec n (S hop)) as [->|]; [|lia]. exfalso.
              apply Em, Hin, Hstep. split; [|apply Hsh]. intros Hi. apply Hc in Hi. destruct Hi as (m & Hm & Hrm).
              apply Hsh in Hrm. lia.
      * rewrite app_length. lia.
Qed.

Lemma get_site_ids_wf t sf tf : well_formed t ->
  NoDup (get_site_ids t sf tf) /\
  forall i, In i (get_site_ids t sf tf) <->
    exists s, dget (t_sites t) i = Some s /\ allowed sf (s_status s) /\ passes tf (s_type s).
Proof.
  intros (Ws & _). unfold get_site_ids. split.
  - revert Ws. unfold dwf, dkeys. generalize (t_sites t). intros d Hn. induction d as [|p r IH]; simpl in *; [constructor|].
    inversion Hn as [|? ? Hp Hnr]; subst. destruct (_ && _); simpl; [constructor; [|auto]|auto].
    intros Hin. apply Hp. apply in_map_iff in Hin. destruct Hin as (q & Eq & Hq). apply filter_In in Hq.
    rewrite <- Eq. apply in_map. tauto.
  - intros i. rewrite in_map_iff. split.
    + intros ([j s] & <- & Hin). apply filter_In in Hin. simpl in *. destruct Hin as [Hin Hf].
      apply andb_true_iff in Hf. rewrite !in_filter_iff in Hf. exists s. split; [now apply In_dget|exact Hf].
    + intros (s & Es & Hf). exists (i, s). split; [reflexivity|]. apply filter_In. split; [now apply dget_In|].
      simpl. apply andb_true_iff. rewrite !in_filter_iff. exact Hf.
Qed.

Lemma pops_iff t sf i : well_formed t -> (In i (get_site_ids t sf (Some [POP])) <-> route t sf i 0).
Proof.
  intros W. rewrite (proj2 (get_site_ids_wf t sf (Some [POP]) W)), route_zero. simpl.
  split; intros (s & E & H); exists s; intuition.
Qed.

Lemma hops_exact t sf : well_formed t ->
  exists h, hops_from_pops t sf = Ok h /\ forall i n, dget h i = Some n <-> shortest t sf i n.
Proof.
  intros W. unfold hops_from_pops. destruct (get_site_ids t sf (Some [POP])) as [|p ps] eqn:Ep.
  - exists []. split; [reflexivity|]. intros i n. simpl. split; [discriminate|]. intros [Hr _].
    exfalso. assert (Hno : forall m j, ~ route t sf j m).
    { induction m as [|m IH]; intros j Hj.
      - apply (pops_iff t sf j W) in Hj. rewrite Ep in Hj. contradiction.
      - apply route_succ in Hj. destruct Hj as (a & ? & ? & ? & Ha & _). eapply IH; eauto. }
    eapply Hno; eauto.
  - rewrite <- Ep. apply hop_loop_spec; [exact W| |simpl; rewrite Ep; simpl; lia].
    constructor.
    + apply get_site_ids_wf, W.
    + intros i. rewrite pops_iff by exact W. split.
      * intros H. exists 0. auto.
      * intros (n & Hle & H). assert (n = 0) by lia. now subst n.
    + intros i n. rewrite fold_dset_get. destruct (mem i (get_site_ids t sf (Some [POP]))) eqn:Em.
      * apply mem_In in Em. apply pops_iff in Em; [|exact W]. split.
        -- intros En. inversion En; subst. split; [lia|]. split; [exact Em|]. intros; lia.
        -- intros [Hle _]. f_equal. lia.
      * apply mem_not_In in Em. simpl. split; [discriminate|]. intros [Hle [Hr _]]. exfalso. apply Em.
        apply pops_iff; [exact W|]. assert (n = 0) by lia. now subst n.
Qed.

Lemma no_shortest_no_route t sf i : (forall m, ~ shortest t sf i m) -> forall n, ~ route t sf i n.
Proof.
  intros Hno n. induction n as [n IH] using lt_wf_ind. intros Hr. apply (Hno n). split; [exact Hr|].
  intros m Hm. destruct (Nat.le_gt_cases n m) as [|Hlt]; [assumption|]. exfalso. exact (IH m Hlt Hm).
Qed.
Lemma hops_none t sf h : (forall i n, dget h i = Some n <-> shortest t sf i n) ->
  forall i, dget h i = None <-> forall n, ~ route t sf i n.
Proof.
  intros H i. split.
  - intros E. apply no_shortest_no_route. intros m Hm. apply H in Hm. congruence.
  - intros Hno. destruct (dget h i) as [n|] eqn:E; [|reflexivity]. apply H in E. exfalso. apply (Hno n), E.
Qed.

(** ** Reachable demand *)
Lemma demand_fold h (d : dict string demand) : forall acc x,
  In x (fold_left (fun acc p => if existsb (dmem h) (d_sites (snd p)) then sadd (d_id (snd p)) acc else acc) d acc) <->
  In x acc \/ exists k (e : demand), In (k, e) d /\ d_id e = x /\ exists i, In i (d_sites e) /\ dmem (h : dict string nat) i = true.
Proof.
  induction d as [|[k e] r IH]; intros acc x; simpl.
  - split; [auto|]. intros [H|(k & e & [] & _)]. exact H.
  - rewrite IH. destruct (existsb (dmem h) (d_sites e)) eqn:Ee.
    + apply existsb_exists in Ee. rewrite sadd_In. split.
      * intros [[->|H]|(k' & e' & H & R)]; [right; exists k, e; repeat split; auto|now left|right; exists k', e'; tauto].
      * intros [H|(k' & e' & [H|H] & R)]; [tauto| |right; exists k', e'; tauto].
        inversion H; subst k' e'. left. left. symmetry. tauto.
    + split.
      * intros [H|(k' & e' & H & R)]; [now left|right; exists k', e'; tauto].
      * intros [H|(k' & e' & [H|H] & R)]; [tauto| |right; exists k', e'; tauto].
        inversion H; subst k' e'. exfalso. destruct R as (_ & i & Hi & Hm).
        assert (existsb (dmem h) (d_sites e) = true) by (apply existsb_exists; eauto). congruence.
Qed.
Lemma reachable_demand_exact t sf : well_formed t ->
  exists r, get_reachable_demand_sites t sf = Ok r /\
    forall x, In x r <-> exists k e i n, dget (t_demands t) k = Some e /\ d_id e = x /\ In i (d_sites e) /\ route t sf i n.
Proof.
  intros W. unfold get_reachable_demand_sites. destruct (hops_exact t sf W) as (h & -> & Hh).
  eexists. split; [reflexivity|]. intros x. rewrite demand_fold. destruct W as (_ & _ & _ & Wd & _).
  split.
  - intros [[]|(k & e & Hin & Hid & i & Hi & Hm)]. apply dmem_Some in Hm. destruct Hm as [n En]. apply Hh in En.
    exists k, e, i, n. split; [now apply In_dget|]. repeat split; auto. apply En.
  - intros (k & e & i & n & Ek & Hid & Hi & Hr). right. exists k, e. split; [now apply dget_In|]. split; [exact Hid|].
    exists i. split; [exact Hi|]. destruct (dmem h i) eqn:Em; [reflexivity|]. exfalso. apply dmem_None in Em.
    pose proof (proj1 (hops_none t sf h Hh i) Em) as Hno. exact (Hno n Hr).
Qed.

(** ** Marking *)
Lemma out_of_reach_iff t h mh i : (forall i n, dget h i = Some n <-> shortest t usable i n) ->
  (out_of_reach h mh i = true <-> ~ exists n, route t usable i n /\ within mh n).
Proof.
  intros Hh. unfold out_of_reach. destruct (dget h i) as [n|] eqn:E.
  - apply Hh in E. destruct E as [Hr Hmin]. destruct mh as [[|m]|]; cbn [within].
    + split; [discriminate|]. intros H. exfalso. apply H. exists n. auto.
    + change (S m <? n) with (Nat.ltb (S m) n). rewrite Nat.ltb_lt. split.
      * intros H (k & Hk & [Hz|Hle]); [lia|]. apply Hmin in Hk. lia.
      * intros H. destruct (Nat.le_gt_cases n (S m)); [|lia]. exfalso. apply H. exists n. auto.
    + split; [discriminate|]. intros H. exfalso. apply H. exists n. auto.
  - split; [|reflexivity]. intros _ (n & Hr & _). exact (proj1 (hops_none t usable h Hh i) E n Hr).
Qed.

(** The effect of setting some statuses to UNREACHABLE. *)
Definition upd_sites (P : string -> bool) (d : dict string site) : dict string site :=
  map (fun p => (fst p, if P (fst p) then with_site_status (snd p) UNREACHABLE else snd p)) d.
Definition upd_links (P : string -> bool) (d : dict string link) : dict string link :=
  map (fun p => (fst p, if P (fst p) then with_link_status (snd p) UNREACHABLE else snd p)) d.
Definition upd_sectors (P : string -> bool) (d : dict string sector) : dict string sector :=
  map (fun p => (fst p, if P (fst p) then with_sector_status (snd p) UNREACHABLE else snd p)) d.
Definition marked (t : topo) (S L X : string -> bool) : topo :=
  mkTopo (upd_sites S (t_sites t)) (t_demands t) (upd_sectors X (t_sectors t)) (upd_links L (t_links t))
         (t_secidx t) (t_conn t) (t_rconn t).
Definition orb1 (P : string -> bool) (i : string) : string -> bool := fun j => P j || beq j i.

Lemma dget_mapk {V} (f : string -> V -> V) (d : dict string V) i :
  dget (map (fun p => (fst p, f (fst p) (snd p))) d) i = option_map (f i) (dget d i).
Proof.
  induction d as [|[k v] r IH]; simpl; [reflexivity|]. destruct (beq i k) eqn:E; [|exact IH].
  apply beq_true in E. now subst.
Qed.
Lemma dget_upd_sites P d i : dget (upd_sites P d) i = option_map (fun s => if P i then with_site_status s UNREACHABLE else s) (dget d i).
Proof. apply (dget_mapk (fun k s => if P k then with_site_status s UNREACHABLE else s)). Qed.
Lemma dget_upd_links P d i : dget (upd_links P d) i = option_map (fun s => if P i then with_link_status s UNREACHABLE else s) (dget d i).
Proof. apply (dget_mapk (fun k s => if P k then with_link_status s UNREACHABLE else s)). Qed.
Lemma dget_upd_sectors P d i : dget (upd_sectors P d) i = option_map (fun s => if P i then with_sector_status s UNREACHABLE else s) (dget d i).
Proof. apply (dget_mapk (fun k s => if P k then with_sector_status s UNREACHABLE else s)). Qed.
Lemma dset_mapk {V} (f g : string -> V -> V) (d : dict string V) i v v' : dwf d -> dget d i = Some v ->
  v' = g i v -> (forall j u, j <> i -> f j u = g j u) ->
  dset (map (fun p => (fst p, f (fst p) (snd p))) d) i v' = map (fun p => (fst p, g (fst p) (snd p))) d.
Proof.
  intros W E Hv Hfg. induction d as [|[k u] r IH]; simpl in *; [discriminate|].
  unfold dwf, dkeys in *. simpl in W. inversion W as [|? ? Hk Hr]; subst.
  destruct (beq i k) eqn:Eb.
  - apply beq_true in Eb. inversion E; subst. f_equal. apply map_ext_in. intros [a b] Hin. simpl.
    f_equal. apply Hfg. intros ->. apply Hk. change k with (fst (k, b)). now apply in_map.
  - apply beq_false in Eb. f_equal; [|now apply IH]. f_equal. apply Hfg. congruence.
Qed.
Lemma marked_ext t S L X S' L' X' : (forall i, dmem (t_sites t) i = true -> S i = S' i) ->
  (forall i, dmem (t_links t) i = true -> L i = L' i) ->
  (forall i, dmem (t_sectors t) i = true -> X i = X' i) -> marked t S L X = marked t S' L' X'.
Proof.
  intros HS HL HX. unfold marked, upd_sites, upd_links, upd_sectors. f_equal.
  - apply map_ext_in. intros [a b] Hin. simpl. rewrite HS; [reflexivity|]. apply dmem_keys. exact (in_map fst _ _ Hin).
  - apply map_ext_in. intros [a b] Hin. simpl. rewrite HX; [reflexivity|]. apply dmem_keys. exact (in_map fst _ _ Hin).
  - apply map_ext_in. intros [a b] Hin. simpl. rewrite HL; [reflexivity|]. apply dmem_keys. exact (in_map fst _ _ Hin).
Qed.
Lemma marked_none t : marked t (fun _ => false) (fun _ => false) (fun _ => false) = t.
Proof.
  destruct t as [a b c d e f g]. unfold marked, upd_sites, upd_links, upd_sectors; simpl.
  assert (H : forall V (x : dict string V), map (fun p : string * V => (fst p, snd p)) x = x).
  { intros V x. rewrite <- (map_id x) at 2. apply map_ext. now intros []. }
  now rewrite !H.
Qed.

Lemma set_site_marked t S L X i s : well_formed t -> dget (t_sites t) i = Some s -> s_status s = CANDIDATE -> S i = false ->
  set_site_status i UNREACHABLE (marked t S L X) = ok (marked t (orb1 S i) L X).
Proof.
  intros (Ws & _) E Es HS. unfold set_site_status. cbn [t_sites marked]. rewrite dget_upd_sites, E. simpl. rewrite HS, Es. simpl.
  unfold ok, marked, set_sites. simpl. do 2 f_equal.
  apply (dset_mapk (fun k s => if S k then with_site_status s UNREACHABLE else s)
                   (fun k s => if orb1 S i k then with_site_status s UNREACHABLE else s)) with s.
  - exact Ws.
  - exact E.
  - unfold orb1. now rewrite beq_refl, orb_true_r.
  - intros j u Hj. unfold orb1. apply beq_neq in Hj. now rewrite Hj, orb_false_r.
Qed.

Definition st_not (t : topo) (i : string) (st : status) : bool :=
  match dget (t_sites t) i with Some s => negb (beq (s_status s) st) | None => true end.
Definition good_link (t : topo) (l : link) : bool :=
  negb (immutable (l_status l)) && st_not t (l_tx l) UNAVAILABLE && st_not t (l_rx l) UNAVAILABLE.
Definition good_key (t : topo) (k : string) : bool :=
  match dget (t_links t) k with Some l => good_link t l | None => false end.

Lemma compat_unreachable a b : link_compat a b UNREACHABLE = negb (beq a UNAVAILABLE) && negb (beq b UNAVAILABLE).
Proof. destruct a, b; reflexivity. Qed.

Lemma set_link_marked t S L X k l : well_formed t -> dget (t_links t) k = Some l ->
  (forall i, S i = true -> st_not t i UNAVAILABLE = true) ->
  (forall j, L j = true -> good_key t j = true) ->
  if good_link t l then set_link_status k UNREACHABLE (marked t S L X) = ok (marked t S (orb1 L k) X)
  else fst (set_link_status k UNREACHABLE (marked t S L X)) = Err TopologyExn.
Proof.
  intros (Ws & Wl & _ & _ & _ & _ & Hl & _) E HS HL.
  destruct (Hl _ _ E) as (_ & [sa Ea] & [sb Eb]).
  assert (Hst : forall i s, dget (t_sites t) i = Some s ->
    beq (s_status (if S i then with_site_status s UNREACHABLE else s)) UNAVAILABLE = beq (s_status s) UNAVAILABLE).
  { intros i s Ei. destruct (S i) eqn:ES; [|reflexivity]. apply HS in ES. unfold st_not in ES. rewrite Ei in ES.
    apply negb_true_iff in ES. now rewrite ES. }
  assert (Hgood : good_link t l = negb (immutable (l_status l)) && (negb (beq (s_status sa) UNAVAILABLE) && negb (beq (s_status sb) UNAVAILABLE))).
  { unfold good_link, st_not. rewrite Ea, Eb. now rewrite andb_assoc. }
  assert (Hnew : dset (upd_links L (t_links t)) k (with_link_status (if L k then with_link_status l UNREACHABLE else l) UNREACHABLE)
                 = upd_links (orb1 L k) (t_links t)).
  { apply (dset_mapk (fun k s => if L k then with_link_status s UNREACHABLE else s)
                   (fun j s => if orb1 L k j then with_link_status s UNREACHABLE else s)) with l.
    - exact Wl.
    - exact E.
    - unfold orb1. rewrite beq_refl, orb_true_r. now destruct (L k).
    - intros j u Hj. unfold orb1. apply beq_neq in Hj. now rewrite Hj, orb_false_r. }
  unfold set_link_status. cbn [t_links marked]. rewrite dget_upd_links, E. cbn [option_map].
  assert (Htx : l_tx (if L k then with_link_status l UNREACHABLE else l) = l_tx l) by now destruct (L k).
  assert (Hrx : l_rx (if L k then with_link_status l UNREACHABLE else l) = l_rx l) by now destruct (L k).
  rewrite Htx, Hrx. cbn [t_sites marked]. rewrite !dget_upd_sites, Ea, Eb. cbn [option_map].
  rewrite compat_unreachable, !(Hst _ _ Ea), !(Hst _ _ Eb).
  assert (Has : assign_ok (l_status (if L k then with_link_status l UNREACHABLE else l)) UNREACHABLE = negb (immutable (l_status l))).
  { destruct (L k) eqn:EL; simpl.
    - apply HL in EL. unfold good_key in EL. rewrite E in EL. unfold good_link in EL. apply andb_true_iff in EL.
      destruct EL as [EL _]. apply andb_true_iff in EL. destruct EL as [EL _]. now rewrite EL.
    - unfold assign_ok. simpl. now rewrite andb_true_r. }
  rewrite Has, <- Hgood. destruct (good_link t l); [|reflexivity].
  unfold ok, marked, set_links. simpl. now rewrite Hnew.
Qed.

Lemma mem_app (x : string) a b : mem x (a ++ b) = mem x a || mem x b.
Proof. induction a as [|y r IH]; simpl; [reflexivity|]. now rewrite IH, orb_assoc. Qed.
Lemma andthen_ok t f : andthen (ok t) f = f t.
Proof. reflexivity. Qed.
Lemma andthen_err o f e : fst o = Err e -> fst (andthen o f) = Err e.
Proof. unfold andthen. destruct o as [[]]; simpl; congruence. Qed.
Definition orbs (P : string -> bool) (ks : list string) : string -> bool := fun j => P j || mem j ks.
Lemma for_each_links {A} (f : A -> string) t S L X ks : well_formed t ->
  (forall i, S i = true -> st_not t i UNAVAILABLE = true) ->
  (forall j, L j = true -> good_key t j = true) ->
  (forall a, In a ks -> dmem (t_links t) (f a) = true) ->
  if forallb (good_key t) (map f ks)
  then for_each (fun a => set_link_status (f a) UNREACHABLE) ks (marked t S L X) = ok (marked t S (orbs L (map f ks)) X)
  else fst (for_each (fun a => set_link_status (f a) UNREACHABLE) ks (marked t S L X)) = Err TopologyExn.
Proof.
  intros W HS. revert L. induction ks as [|a r IH]; intros L HL Hin; simpl.
  - unfold ok. f_equal. apply marked_ext; auto. intros i _. unfold orbs. simpl. now rewrite orb_false_r.
  - pose proof (Hin a (or_introl eq_refl)) as Ha. apply dmem_Some in Ha. destruct Ha as [l El].
    pose proof (set_link_marked t S L X (f a) l W El HS HL) as H1.
    unfold good_key at 1. rewrite El. destruct (good_link t l) eqn:Eg; simpl.
    + rewrite H1, andthen_ok.
      assert (HL' : forall j, orb1 L (f a) j = true -> good_key t j = true).
      { intros j Hj. unfold orb1 in Hj. apply orb_true_iff in Hj. destruct Hj as [Hj|Hj]; [now apply HL|].
        apply beq_true in Hj. subst j. unfold good_key. now rewrite El. }
      specialize (IH (orb1 L (f a)) HL'). destruct (forallb (good_key t) (map f r)) eqn:Er.
      * rewrite IH by (intros; apply Hin; now right). unfold ok. f_equal. apply marked_ext; auto.
        intros i _. unfold orbs, orb1. simpl. simpl. now rewrite orb_assoc.
      * apply IH. intros; apply Hin; now right.
    + apply andthen_err. exact H1.
Qed.

(** keys of the links visited when site [i] is marked *)
Definition inc (t : topo) (i : string) : list string :=
  map (link_id_of i) (dkeys (row (t_conn t) i)) ++ map (fun a => link_id_of a i) (dkeys (row (t_rconn t) i)).
Lemma row_edge c i b : In b (dkeys (row c i)) <-> exists k, edge_in c i b k.
Proof.
  rewrite In_dkeys. unfold row, edge_in. split.
  - intros [k E]. destruct (dget c i) as [r|]; [|discriminate]. exists k, r. auto.
  - intros (k & r & -> & E). eauto.
Qed.
Lemma inc_spec t i k : well_formed t -> (In k (inc t i) <-> exists l, link_stored t k l /\ touches l i).
Proof.
  intros (_ & _ & _ & _ & [Hc Hrc] & _ & Hl & _). unfold inc. rewrite in_app_iff, !in_map_iff. split.
  - intros [(b & <- & Hb)|(a & <- & Ha)].
    + apply row_edge in Hb. destruct Hb as [k E]. apply Hc in E. destruct E as (l & El & Et & Er).
      exists l. destruct (Hl _ _ El) as (Ek & _). unfold l_id in Ek. rewrite Et, Er in Ek. rewrite <- Ek. split; [exact El|now left].
    + apply row_edge in Ha. destruct Ha as [k E]. apply Hrc in E. destruct E as (l & El & Et & Er).
      exists l. destruct (Hl _ _ El) as (Ek & _). unfold l_id in Ek. rewrite Et, Er in Ek. rewrite <- Ek. split; [exact El|now right].
  - intros (l & El & [Ht|Hr]); destruct (Hl _ _ El) as (Ek & _).
    + left. exists (l_rx l). split; [rewrite Ek; unfold l_id; now rewrite Ht|]. apply row_edge. exists k. apply Hc. eauto.
    + right. exists (l_tx l). split; [rewrite Ek; unfold l_id; now rewrite Hr|]. apply row_edge. exists k. apply Hrc. eauto.
Qed.

Lemma mark_site_marked t S L X i s : well_formed t -> dget (t_sites t) i = Some s -> s_status s = CANDIDATE -> S i = false ->
  (forall i, S i = true -> st_not t i UNAVAILABLE = true) ->
  (forall j, L j = true -> good_key t j = true) ->
  if forallb (good_key t) (inc t i)
  then mark_site i (marked t S L X) = ok (marked t (orb1 S i) (orbs L (inc t i)) X)
  else fst (mark_site i (marked t S L X)) = Err TopologyExn.
Proof.
  intros W E Es HS HSn HL. unfold mark_site. rewrite (set_site_marked t S L X i s W E Es HS), andthen_ok.
  assert (HS' : forall j, orb1 S i j = true -> st_not t j UNAVAILABLE = true).
  { intros j Hj. unfold orb1 in Hj. apply orb_true_iff in Hj. destruct Hj as [Hj|Hj]; [now apply HSn|].
    apply beq_true in Hj. subst j. unfold st_not. rewrite E, Es. reflexivity. }
  assert (Hm : forall k, In k (inc t i) -> dmem (t_links t) k = true).
  { intros k Hk. apply inc_spec in Hk; [|exact W]. destruct Hk as (l & El & _). apply dmem_Some. eauto. }
  assert (Hmem : forall k, L k = true -> good_key t k = true) by exact HL.
  pose proof (for_each_links (link_id_of i) t (orb1 S i) L X (dkeys (row (t_conn t) i)) W HS' HL) as H1.
  assert (Efa : forallb (good_key t) (inc t i) =
    forallb (good_key t) (map (link_id_of i) (dkeys (row (t_conn t) i))) &&
    forallb (good_key t) (map (fun a => link_id_of a i) (dkeys (row (t_rconn t) i)))) by apply forallb_app.
  rewrite Efa. change (t_conn (marked t (orb1 S i) L X)) with (t_conn t).
  destruct (forallb (good_key t) (map (link_id_of i) (dkeys (row (t_conn t) i)))) eqn:E1; cbn [andb].
  - rewrite H1, andthen_ok.
    2:{ intros a Ha. apply Hm. unfold inc. apply in_or_app. left. now apply in_map. }
    clear H1.
    assert (HL1 : forall j, orbs L (map (link_id_of i) (dkeys (row (t_conn t) i))) j = true -> good_key t j = true).
    { intros j Hj. unfold orbs in Hj. apply orb_true_iff in Hj. destruct Hj as [Hj|Hj]; [now apply HL|].
      apply mem_In in Hj. rewrite forallb_forall in E1. now apply E1. }
    pose proof (for_each_links (fun a => link_id_of a i) t (orb1 S i) _ X (dkeys (row (t_rconn t) i)) W HS' HL1) as H2.
    match goal with |- context [t_rconn (marked ?a ?b ?c ?d)] => change (t_rconn (marked a b c d)) with (t_rconn t) end.
    destruct (forallb (good_key t) (map (fun a => link_id_of a i) (dkeys (row (t_rconn t) i)))) eqn:E2.
    + rewrite H2.
      * unfold ok. f_equal. apply marked_ext; auto. intros k _. unfold orbs, inc.
        destruct (L k); simpl; [reflexivity|]. now rewrite mem_app.
      * intros a Ha. apply Hm. unfold inc. apply in_or_app. right. now apply (in_map (fun a => link_id_of a i)).
    + apply H2. intros a Ha. apply Hm. unfold inc. apply in_or_app. right. now apply (in_map (fun a => link_id_of a i)).
  - apply andthen_err. apply H1. intros a Ha. apply Hm. unfold inc. apply in_or_app. left. now apply in_map.
Qed.

Definition markb (t : topo) (h : dict string nat) (mh : option nat) (i : string) : bool :=
  out_of_reach h mh i && match dget (t_sites t) i with Some s => beq (s_status s) CANDIDATE | None => false end.

Lemma mark_loop t h mh : well_formed t -> forall ids S L X, NoDup ids ->
  (forall i, In i ids -> S i = false) -> (forall i, In i ids -> dmem (t_sites t) i = true) ->
  (forall i, S i = true -> st_not t i UNAVAILABLE = true) ->
  (forall j, L j = true -> good_key t j = true) ->
  if forallb (fun i => implb (markb t h mh i) (forallb (good_key t) (inc t i))) ids
  then for_each (mark_if h mh) ids (marked t S L X) =
       ok (marked t (fun j => S j || mem j ids && markb t h mh j)
                    (fun k => L k || existsb (fun i => markb t h mh i && mem k (inc t i)) ids) X)
  else fst (for_each (mark_if h mh) ids (marked t S L X)) = Err TopologyExn.
Proof.
  intros W. induction ids as [|i r IH]; intros S L X Hn HS Hin HSn HL.
  - simpl. unfold ok. f_equal. apply marked_ext; auto; intros; simpl; now rewrite orb_false_r.
  - inversion Hn as [|? ? Hi Hr]; subst. cbn [forallb for_each].
    pose proof (HS i (or_introl eq_refl)) as HSi. pose proof (Hin i (or_introl eq_refl)) as Hmi.
    apply dmem_Some in Hmi. destruct Hmi as [s Es].
    assert (Hif : mark_if h mh i (marked t S L X) = if markb t h mh i then mark_site i (marked t S L X) else ok (marked t S L X)).
    { unfold mark_if, markb. cbn [t_sites marked]. rewrite dget_upd_sites, Es. simpl. rewrite HSi. reflexivity. }
    rewrite Hif. clear Hif. destruct (markb t h mh i) eqn:Em; simpl implb.
    + assert (Ec : s_status s = CANDIDATE).
      { unfold markb in Em. rewrite Es in Em. apply andb_true_iff in Em. destruct Em as [_ Em]. now apply beq_true in Em. }
      pose proof (mark_site_marked t S L X i s W Es Ec HSi HSn HL) as H1.
      destruct (forallb (good_key t) (inc t i)) eqn:Eg; simpl.
      * rewrite H1, andthen_ok.
        assert (A1 : forall j, In j r -> orb1 S i j = false).
        { intros j Hj. unfold orb1. rewrite (HS j (or_intror Hj)). simpl. apply beq_neq. intros ->. contradiction. }
        assert (A2 : forall j, In j r -> dmem (t_sites t) j = true) by (intros j Hj; apply Hin; now right).
        assert (A3 : forall j, orb1 S i j = true -> st_not t j UNAVAILABLE = true).
        { intros j Hj. unfold orb1 in Hj. apply orb_true_iff in Hj. destruct Hj as [Hj|Hj]; [now apply HSn|].
          apply beq_true in Hj. subst j. unfold st_not. rewrite Es, Ec. reflexivity. }
        assert (A4 : forall j, orbs L (inc t i) j = true -> good_key t j = true).
        { intros j Hj. unfold orbs in Hj. apply orb_true_iff in Hj. destruct Hj as [Hj|Hj]; [now apply HL|].
          apply mem_In in Hj. rewrite forallb_forall in Eg. now apply Eg. }
        specialize (IH (orb1 S i) (orbs L (inc t i)) X Hr A1 A2 A3 A4).
        match goal with |- if ?b then _ else _ => destruct b end; [|exact IH].
        rewrite IH. unfold ok. f_equal. apply marked_ext; auto.
        -- intros j _. unfold orb1. simpl. destruct (beq j i) eqn:Ej; simpl.
           ++ apply beq_true in Ej. subst j. now rewrite Em, !orb_true_r.
           ++ now rewrite orb_false_r.
        -- intros k _. unfold orbs. simpl. rewrite Em. simpl. now rewrite orb_assoc.
      * apply andthen_err. exact H1.
    + rewrite andthen_ok.
      assert (A1 : forall j, In j r -> S j = false) by (intros j Hj; apply HS; now right).
      assert (A2 : forall j, In j r -> dmem (t_sites t) j = true) by (intros j Hj; apply Hin; now right).
      specialize (IH S L X Hr A1 A2 HSn HL). simpl.
      match goal with |- if ?b then _ else _ => destruct b end; [|exact IH].
      rewrite IH. unfold ok. f_equal. apply marked_ext; auto.
      -- intros j _. simpl. destruct (beq j i) eqn:Ej; simpl; [|reflexivity].
         apply beq_true in Ej. subst j. now rewrite Em, andb_false_r.
      -- intros k _. simpl. now rewrite Em.
Qed.

Definition down (t : topo) (S : string -> bool) (i : string) : bool :=
  match dget (t_sites t) i with Some s => S i || beq (s_status s) UNREACHABLE | None => false end.
Definition xmark (t : topo) (S : string -> bool) (k : string) : bool :=
  match dget (t_sectors t) k with Some x => down t S (x_site x) | None => false end.
Definition xgood (t : topo) (k : string) : bool :=
  match dget (t_sectors t) k with Some x => negb (immutable (x_status x)) | None => true end.
Lemma sector_loop t S L : well_formed t -> forall ks X, NoDup ks -> (forall k, In k ks -> X k = false) ->
  if forallb (fun k => implb (xmark t S k) (xgood t k)) ks
  then for_each mark_sector ks (marked t S L X) = ok (marked t S L (fun k => X k || mem k ks && xmark t S k))
  else fst (for_each mark_sector ks (marked t S L X)) = Err TopologyExn.
Proof.
  intros W. pose proof W as (_ & _ & Wx & _ & _ & _ & _ & Hx). induction ks as [|k r IH]; intros X Hn HX.
  - simpl. unfold ok. f_equal. apply marked_ext; auto; intros; simpl; now rewrite orb_false_r.
  - inversion Hn as [|? ? Hk Hr]; subst. cbn [forallb for_each].
    pose proof (HX k (or_introl eq_refl)) as HXk.
    assert (A1 : forall j, In j r -> X j = false) by (intros j Hj; apply HX; now right).
    assert (Hskip : xmark t S k = false -> mark_sector k (marked t S L X) = ok (marked t S L X) ->
       if implb (xmark t S k) (xgood t k) && forallb (fun k => implb (xmark t S k) (xgood t k)) r
       then andthen (mark_sector k (marked t S L X)) (for_each mark_sector r) = ok (marked t S L (fun j => X j || mem j (k :: r) && xmark t S j))
       else fst (andthen (mark_sector k (marked t S L X)) (for_each mark_sector r)) = Err TopologyExn).
    { intros E0 E1. rewrite E0, E1, andthen_ok. simpl. specialize (IH X Hr A1).
      match goal with |- if ?b then _ else _ => destruct b end; [|exact IH].
      rewrite IH. unfold ok. f_equal. apply marked_ext; auto. intros j _. simpl.
      destruct (beq j k) eqn:Ej; simpl; [|reflexivity]. apply beq_true in Ej. subst j. now rewrite E0, andb_false_r. }
    destruct (dget (t_sectors t) k) as [x|] eqn:Ek.
    2:{ apply Hskip; [unfold xmark; now rewrite Ek|]. unfold mark_sector. cbn [t_sectors marked]. now rewrite dget_upd_sectors, Ek. }
    destruct (Hx _ _ Ek) as (_ & [s Es]).
    destruct (xmark t S k) eqn:Em.
    2:{ apply Hskip; [reflexivity|]. unfold mark_sector. cbn [t_sectors marked]. rewrite dget_upd_sectors, Ek. simpl.
        rewrite HXk, dget_upd_sites, Es. simpl. unfold xmark in Em. rewrite Ek in Em. unfold down in Em. rewrite Es in Em.
        apply orb_false_iff in Em. destruct Em as [-> Em]. now rewrite Em. }
    clear Hskip.
    assert (Hst : s_status (if S (x_site x) then with_site_status s UNREACHABLE else s) = UNREACHABLE).
    { unfold xmark in Em. rewrite Ek in Em. unfold down in Em. rewrite Es in Em. destruct (S (x_site x)); [reflexivity|].
      simpl in Em. now apply beq_true in Em. }
    assert (Hms : mark_sector k (marked t S L X) = set_sector_status k UNREACHABLE (marked t S L X)).
    { unfold mark_sector. cbn [t_sectors marked]. rewrite dget_upd_sectors, Ek. simpl. rewrite HXk, dget_upd_sites, Es. simpl.
      now rewrite Hst. }
    assert (Hss : set_sector_status k UNREACHABLE (marked t S L X) =
      if xgood t k then ok (marked t S L (orb1 X k)) else fail TopologyExn (marked t S L X)).
    { unfold set_sector_status, xgood. cbn [t_sectors marked]. rewrite dget_upd_sectors, Ek. simpl. rewrite HXk, dget_upd_sites, Es. simpl.
      rewrite Hst. unfold assign_ok. simpl. rewrite !andb_true_r. destruct (negb (immutable (x_status x))); [|reflexivity].
      unfold ok, marked, set_sectors. simpl. do 2 f_equal.
      apply (dset_mapk (fun k s => if X k then with_sector_status s UNREACHABLE else s)
                   (fun j s => if orb1 X k j then with_sector_status s UNREACHABLE else s)) with x.
      - exact Wx.
      - exact Ek.
      - unfold orb1. now rewrite beq_refl, orb_true_r.
      - intros j u Hj. unfold orb1. apply beq_neq in Hj. now rewrite Hj, orb_false_r. }
    rewrite Hms, Hss. simpl implb. destruct (xgood t k); simpl; [|reflexivity].
    rewrite andthen_ok.
    assert (A2 : forall j, In j r -> orb1 X k j = false).
    { intros j Hj. unfold orb1. rewrite (A1 j Hj). simpl. apply beq_neq. intros ->. contradiction. }
    specialize (IH (orb1 X k) Hr A2).
    match goal with |- if ?b then _ else _ => destruct b end; [|exact IH].
    rewrite IH. unfold ok. f_equal. apply marked_ext; auto. intros j _. unfold orb1. simpl.
    destruct (beq j k) eqn:Ej; simpl; [|now rewrite orb_false_r]. apply beq_true in Ej. subst j. now rewrite Em, !orb_true_r.
Qed.

Lemma dkeys_mapk {V} (f : string -> V -> V) (d : dict string V) : dkeys (map (fun p => (fst p, f (fst p) (snd p))) d) = dkeys d.
Proof. unfold dkeys. rewrite map_map. apply map_ext. reflexivity. Qed.
Lemma marked_same t S L X : same_but_statuses t (marked t S L X).
Proof.
  unfold same_but_statuses. cbn [marked t_sites t_links t_sectors t_demands t_secidx t_conn t_rconn].
  split; [apply (dkeys_mapk (fun k s => if S k then with_site_status s UNREACHABLE else s))|].
  split; [apply (dkeys_mapk (fun k s => if L k then with_link_status s UNREACHABLE else s))|].
  split; [apply (dkeys_mapk (fun k s => if X k then with_sector_status s UNREACHABLE else s))|].
  repeat (split; [reflexivity|]). split; [|split].
  - intros i s E. rewrite dget_upd_sites, E. simpl. eexists. split; [reflexivity|]. destruct (S i); simpl; auto.
  - intros i s E. rewrite dget_upd_links, E. simpl. eexists. split; [reflexivity|]. destruct (L i); simpl; auto.
  - intros i s E. rewrite dget_upd_sectors, E. simpl. eexists. split; [reflexivity|]. destruct (X i); simpl; auto.
Qed.

Lemma immutable_false s : negb (immutable s) = true <-> s <> EXISTING /\ s <> UNAVAILABLE.
Proof. destruct s; simpl; split; try discriminate; try (intros [? ?]; congruence); intros _; split; discriminate. Qed.
Lemma st_not_iff t i : site_stored t i -> (st_not t i UNAVAILABLE = true <-> site_status_of t i <> Some UNAVAILABLE).
Proof.
  intros [s E]. unfold st_not, site_status_of. rewrite E. simpl. rewrite negb_true_iff, beq_neq. split; congruence.
Qed.

Lemma mark_unreachable_spec mh t : well_formed t ->
  (markable mh t -> exists t', mark_unreachable_components mh t = (Ok tt, t') /\ marked_exactly mh t t') /\
  (~ markable mh t -> fst (mark_unreachable_components mh t) = Err TopologyExn) /\
  (markable mh t \/ ~ markable mh t).
Proof.
  intros W. destruct (hops_exact t usable W) as (h & Eh & Hh).
  pose proof W as (Ws & Wl & Wx & Wd & Hidx & Hs & Hl & Hx).
  assert (Hmk : forall i, markb t h mh i = true <-> cut_off t mh i).
  { intros i. unfold markb, cut_off. rewrite andb_true_iff, (out_of_reach_iff t h mh i Hh).
    destruct (dget (t_sites t) i) as [s|]; split.
    - intros [Hr Hc]. apply beq_true in Hc. eauto.
    - intros (s' & E & Hc & Hr). inversion E; subst s'. split; [exact Hr|]. now apply beq_eq.
    - intros [_ H]; discriminate.
    - intros (s' & E & _). discriminate. }
  set (GS := forallb (fun i => implb (markb t h mh i) (forallb (good_key t) (inc t i))) (dkeys (t_sites t))).
  set (S1 := fun j => false || mem j (dkeys (t_sites t)) && markb t h mh j).
  set (L1 := fun k => false || existsb (fun i => markb t h mh i && mem k (inc t i)) (dkeys (t_sites t))).
  set (GX := forallb (fun k => implb (xmark t S1 k) (xgood t k)) (dkeys (t_sectors t))).
  assert (HS1 : forall i, S1 i = true <-> cut_off t mh i).
  { intros i. unfold S1. simpl. rewrite andb_true_iff, Hmk, mem_In. split; [tauto|]. intros H. split; [|exact H].
    destruct H as (s & E & _). apply In_dkeys. eauto. }
  assert (HS1f : forall i, S1 i = false <-> ~ cut_off t mh i).
  { intros i. rewrite <- HS1. destruct (S1 i); split; congruence. }
  assert (HL1 : forall k l, link_stored t k l -> (L1 k = true <-> exists i, touches l i /\ cut_off t mh i)).
  { intros k l El. unfold L1. simpl. rewrite existsb_exists. split.
    - intros (i & _ & Hi). apply andb_true_iff in Hi. destruct Hi as [Hi Hk]. apply Hmk in Hi. apply mem_In in Hk.
      apply inc_spec in Hk; [|exact W]. destruct Hk as (l' & El' & Ht). unfold link_stored in *. rewrite El in El'. inversion El'; subst l'. eauto.
    - intros (i & Ht & Hi). exists i. split; [destruct Hi as (s & E & _); apply In_dkeys; eauto|].
      apply andb_true_iff. split; [now apply Hmk|]. apply mem_In, inc_spec; [exact W|]. eauto. }
  assert (HGS : GS = true <-> forall k l i, link_stored t k l -> touches l i -> cut_off t mh i ->
     l_status l <> EXISTING /\ l_status l <> UNAVAILABLE /\
     site_status_of t (l_tx l) <> Some UNAVAILABLE /\ site_status_of t (l_rx l) <> Some UNAVAILABLE).
  { unfold GS. rewrite forallb_forall. split.
    - intros H k l i El Ht Hc. assert (Hi : In i (dkeys (t_sites t))) by (destruct Hc as (s & E & _); apply In_dkeys; eauto).
      apply H in Hi. apply Hmk in Hc. rewrite Hc in Hi. simpl in Hi. rewrite forallb_forall in Hi.
      assert (Hk : In k (inc t i)) by (apply inc_spec; eauto). apply Hi in Hk. unfold good_key in Hk. unfold link_stored in El. rewrite El in Hk.
      unfold good_link in Hk. apply andb_true_iff in Hk. destruct Hk as [Hk H3]. apply andb_true_iff in Hk. destruct Hk as [H1 H2].
      destruct (Hl _ _ El) as (_ & Ht1 & Hr1). apply immutable_false in H1. apply st_not_iff in H2, H3; auto. tauto.
    - intros H i Hi. destruct (markb t h mh i) eqn:Em; [|reflexivity]. apply Hmk in Em. simpl. apply forallb_forall.
      intros k Hk. apply inc_spec in Hk; [|exact W]. destruct Hk as (l & El & Ht). specialize (H k l i El Ht Em).
      unfold good_key. unfold link_stored in El. rewrite El. unfold good_link. destruct (Hl _ _ El) as (_ & Ht1 & Hr1).
      rewrite !andb_true_iff, immutable_false, !st_not_iff by assumption. tauto. }
  assert (HGX : GX = true <-> forall k x, sector_stored t k x ->
     cut_off t mh (x_site x) \/ site_status_of t (x_site x) = Some UNREACHABLE ->
     x_status x <> EXISTING /\ x_status x <> UNAVAILABLE).
  { unfold GX. rewrite forallb_forall. split.
    - intros H k x Ek Hc. assert (Hk : In k (dkeys (t_sectors t))) by (apply In_dkeys; eauto).
      apply H in Hk. unfold xmark, xgood in Hk. unfold sector_stored in Ek. rewrite Ek in Hk. destruct (Hx _ _ Ek) as (_ & [s Es]).
      apply immutable_false. unfold down in Hk. rewrite Es in Hk. 
      assert (Hd : S1 (x_site x) || beq (s_status s) UNREACHABLE = true).
      { apply orb_true_iff. destruct Hc as [Hc|Hc]; [left; now apply HS1|right]. unfold site_status_of in Hc. rewrite Es in Hc.
        simpl in Hc. inversion Hc as [Hc']. now apply beq_eq. }
      rewrite Hd in Hk. exact Hk.
    - intros H k Hk. apply In_dkeys in Hk. destruct Hk as [x Ek]. unfold xmark, xgood. rewrite Ek.
      destruct (Hx _ _ Ek) as (_ & [s Es]). unfold down. rewrite Es.
      destruct (S1 (x_site x) || beq (s_status s) UNREACHABLE) eqn:Ed; [|reflexivity]. simpl.
      apply immutable_false. apply (H k x Ek). apply orb_true_iff in Ed. destruct Ed as [Ed|Ed].
      + left. now apply HS1.
      + right. apply beq_true in Ed. unfold site_status_of. rewrite Es. simpl. now rewrite Ed. }
  assert (Hmark : markable mh t <-> GS && GX = true).
  { unfold markable. rewrite andb_true_iff, HGS, HGX. reflexivity. }
  assert (Hrun : if GS && GX then mark_unreachable_components mh t = (Ok tt, marked t S1 L1 (fun k => mem k (dkeys (t_sectors t)) && xmark t S1 k))
                 else fst (mark_unreachable_components mh t) = Err TopologyExn).
  { unfold mark_unreachable_components. change (Some [PROPOSED; EXISTING; CANDIDATE]) with usable. rewrite Eh.
    pose proof (mark_loop t h mh W (dkeys (t_sites t)) (fun _ => false) (fun _ => false) (fun _ => false) Ws) as H1.
    rewrite marked_none in H1. fold GS in H1.
    assert (B1 : forall i, In i (dkeys (t_sites t)) -> dmem (t_sites t) i = true) by (intros i Hi; now apply dmem_keys).
    specialize (H1 (fun _ _ => eq_refl) B1).
    assert (B2 : forall i : string, false = true -> st_not t i UNAVAILABLE = true) by discriminate.
    assert (B3 : forall i : string, false = true -> good_key t i = true) by discriminate.
    specialize (H1 B2 B3). clear B2 B3. fold S1 L1 in H1.
    destruct GS; simpl; [|now apply andthen_err].
    rewrite H1, andthen_ok.
    assert (Ekeys : dkeys (t_sectors (marked t S1 L1 (fun _ => false))) = dkeys (t_sectors t)).
    { pose proof (marked_same t S1 L1 (fun _ => false)) as Hsm. unfold same_but_statuses in Hsm. tauto. }
    rewrite Ekeys.
    pose proof (sector_loop t S1 L1 W (dkeys (t_sectors t)) (fun _ => false) Wx (fun _ _ => eq_refl)) as H2.
    fold GX in H2. destruct GX; [exact H2|exact H2]. }
  split; [|split].
  - intros Hm. apply Hmark in Hm. rewrite Hm in Hrun. eexists. split; [exact Hrun|].
    unfold marked_exactly. split; [apply marked_same|].
    assert (Hsite : forall i, site_status_of (marked t S1 L1 (fun k => mem k (dkeys (t_sectors t)) && xmark t S1 k)) i =
       option_map (fun s => if S1 i then UNREACHABLE else s_status s) (dget (t_sites t) i)).
    { intros i. unfold site_status_of. cbn [marked t_sites]. rewrite dget_upd_sites. destruct (dget (t_sites t) i); simpl; [|reflexivity].
      now destruct (S1 i). }
    assert (Hdown : forall x k, sector_stored t k x ->
      (site_status_of (marked t S1 L1 (fun k => mem k (dkeys (t_sectors t)) && xmark t S1 k)) (x_site x) = Some UNREACHABLE <-> xmark t S1 k = true)).
    { intros x k Ek. rewrite Hsite. unfold xmark, sector_stored in *. rewrite Ek. unfold down. destruct (Hx _ _ Ek) as (_ & [s Es]). rewrite Es. simpl.
      destruct (S1 (x_site x)); simpl; [tauto|]. rewrite beq_eq. split; congruence. }
    repeat split.
    + intros i Hi. rewrite Hsite. pose proof Hi as (s & E & _). apply HS1 in Hi. now rewrite E, Hi.
    + intros i Hi. rewrite Hsite. unfold site_status_of. apply HS1f in Hi. now rewrite Hi.
    + intros k l El Hi. unfold link_status_of. cbn [marked t_links]. rewrite dget_upd_links. unfold link_stored in El. rewrite El. simpl.
      apply (HL1 k l El) in Hi. now rewrite Hi.
    + intros k l El Hi. unfold link_status_of. cbn [marked t_links]. rewrite dget_upd_links. rewrite <- (HL1 k l El) in Hi.
      unfold link_stored in El. rewrite El. simpl. now destruct (L1 k).
    + intros k x Ek Hi. apply (Hdown x k Ek) in Hi. unfold sector_status_of. cbn [marked t_sectors]. rewrite dget_upd_sectors.
      assert (Hk : mem k (dkeys (t_sectors t)) = true) by (apply mem_In, In_dkeys; eauto).
      unfold sector_stored in Ek. rewrite Ek. simpl. now rewrite Hk, Hi.
    + intros k x Ek Hi. rewrite (Hdown x k Ek) in Hi. unfold sector_status_of. cbn [marked t_sectors]. rewrite dget_upd_sectors.
      unfold sector_stored in Ek. rewrite Ek. simpl. destruct (xmark t S1 k); [congruence|]. now rewrite andb_false_r.
  - intros Hm. rewrite Hmark in Hm. destruct (GS && GX); [congruence|exact Hrun].
  - rewrite Hmark. destruct (GS && GX); [now left|now right].
Qed.

Lemma hops_exact_none t sf : well_formed t ->
  exists h, hops_from_pops t sf = Ok h /\ (forall i n, dget h i = Some n <-> shortest t sf i n) /\
    (forall i, dget h i = None <-> forall n, ~ route t sf i n).
Proof. intros W. destruct (hops_exact t sf W) as (h & E & H). exists h. split; [exact E|]. split; [exact H|]. now apply hops_none. Qed.
Lemma mark_exact mh t : well_formed t -> forall t', mark_unreachable_components mh t = (Ok tt, t') -> marked_exactly mh t t'.
Proof.
  intros W t' E. destruct (mark_unreachable_spec mh t W) as (H1 & H2 & [Hm|Hm]).
  - destruct (H1 Hm) as (t2 & E2 & H). congruence.
  - apply H2 in Hm. rewrite E in Hm. discriminate.
Qed.
Lemma mark_returns_iff mh t : well_formed t ->
  (fst (mark_unreachable_components mh t) = Ok tt <-> markable mh t) /\
  (fst (mark_unreachable_components mh t) = Err TopologyExn <-> ~ markable mh t).
Proof.
  intros W. destruct (mark_unreachable_spec mh t W) as (H1 & H2 & [Hm|Hm]).
  - destruct (H1 Hm) as (t2 & E2 & H). rewrite E2. simpl. split; split; try tauto; discriminate.
  - specialize (H2 Hm). rewrite H2. split; split; try tauto; discriminate.
Qed.
