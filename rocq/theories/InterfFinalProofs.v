From Coq Require Import QArith ZArith Lqa Lia.
From Verif Require Import Base Dict QLib SumLib MonadLib SetupModel LosRangeModel TopologyModel TopologySpec TopologyProofs TopologyQueryProofs DeploySpec DeployProofs InterfModel InterfSpec InterfProofs InterfMainProofs.
Local Open Scope list_scope.

Lemma ether_iff l : beq (l_type l) ETHERNET = negb (l_wireless l).
Proof. unfold l_type. destruct (l_wireless l); [destruct (l_rx_cn l)|]; reflexivity. Qed.
Lemma silent_iff l : negb (silent l) = true <-> on_air l.
Proof. unfold silent, on_air. rewrite ether_iff, negb_orb, !negb_involutive, andb_true_iff, act_iff. tauto. Qed.
Lemma chan_bool x y : (x =? y)%Z || mem (-1)%Z [x; y] = true <-> (x = y \/ x = (-1)%Z \/ y = (-1)%Z).
Proof.
  rewrite orb_true_iff, Z.eqb_eq, mem_In. cbn [In]. intuition.
Qed.

Section Final.
Variables (channel : string -> Z) (t : topo).
Hypothesis Hr : reachable t.
Hypothesis Hs : sectors_stored t.

Lemma compatible_channel_spec k l : link_stored t k l -> exists b, compatible_channel channel t l = Ok b /\ (b = true <-> channel_ok t channel l).
Proof using Hr Hs.
  intros Hk. unfold compatible_channel, channel_ok. destruct (l_sectors l) as [[a b]|] eqn:Es.
  - destruct (Hs _ _ _ _ Hk Es) as (_ & _ & (x & Hx & _) & (y & Hy & _)). unfold sector_stored in Hx, Hy. unfold get. rewrite Hx, Hy. cbn [rbind].
    assert (U : forall P : Prop, ((exists a' b' x' y', Some (a, b) = Some (a', b') /\ sector_stored t (key_id a') x' /\ sector_stored t (key_id b') y' /\ is_active (x_status x') /\ is_active (x_status y')
       /\ (channel (key_id a') = channel (key_id b') \/ channel (key_id a') = (-1)%Z \/ channel (key_id b') = (-1)%Z))
       <-> (is_active (x_status x) /\ is_active (x_status y) /\ (channel (key_id a) = channel (key_id b) \/ channel (key_id a) = (-1)%Z \/ channel (key_id b) = (-1)%Z)))).
    { intros _. split.
      - intros (a' & b' & x' & y' & E & H1 & H2 & H). injection E as <- <-. unfold sector_stored in H1, H2. rewrite Hx in H1. rewrite Hy in H2. injection H1 as <-. injection H2 as <-. exact H.
      - intros H. exists a, b, x, y. unfold sector_stored. auto. }
    specialize (U True). 
    destruct (negb (active (x_status x)) || negb (active (x_status y))) eqn:Ea.
    + exists false. split; [reflexivity|]. split; [discriminate|]. intros H. apply U in H. destruct H as (H1 & H2 & _). apply act_iff in H1. apply act_iff in H2. rewrite H1, H2 in Ea. discriminate.
    + apply orb_false_iff in Ea. destruct Ea as [A B]. apply negb_false_iff in A. apply negb_false_iff in B. apply act_iff in A. apply act_iff in B.
      eexists. split; [reflexivity|]. rewrite chan_bool, U. tauto.
  - exists false. split; [reflexivity|]. split; [discriminate|]. intros (a & b & x & y & E & _). discriminate.
Qed.

Lemma fold_wf2 (f : dict string (dict string string) -> string * link -> dict string (dict string string)) L :
  (forall c q, wf2 c -> wf2 (f c q)) -> forall c, wf2 c -> wf2 (fold_left f L c).
Proof. intros H. induction L as [|q L IH]; intros c W; cbn [fold_left]; auto. Qed.
Lemma wf2_nil : wf2 [].
Proof. split; [apply dwf_nil|discriminate]. Qed.
Lemma conn_wf : wf2 (sector_connectivity t) /\ wf2 (sector_connectivity_reverse t).
Proof. split; apply fold_wf2; try apply wf2_nil; intros c q W; destruct (l_sectors (snd q)) as [[? ?]|]; auto; now apply wf2_set2. Qed.
Lemma conn_row a b k : In (b, k) (row (sector_connectivity t) a) <-> exists l, link_stored t k l /\ joins l a b.
Proof using Hr.
  rewrite <- dget_In_iff by (apply wf2_row, conn_wf). pose proof (proj1 (sector_connectivity_exact t a b k Hr)) as H. rewrite edge_get2 in H. exact H.
Qed.
Lemma rev_row a b k : In (a, k) (row (sector_connectivity_reverse t) b) <-> exists l, link_stored t k l /\ joins l a b.
Proof using Hr.
  rewrite <- dget_In_iff by (apply wf2_row, conn_wf). pose proof (proj2 (sector_connectivity_exact t a b k Hr)) as H. rewrite edge_get2 in H. exact H.
Qed.
Lemma loud_iff k l : link_stored t k l -> (loud t k = true <-> on_air l).
Proof. intros H. unfold loud. unfold link_stored in H. rewrite H. apply silent_iff. Qed.
Lemma adm_iff cnp k l : cn_polarities t = Ok cnp -> link_stored t k l -> (exists b, admitted channel t cnp l = Ok b) ->
  (adm channel t cnp l = true <-> l_wireless l = true /\ polarity_ok t l /\ channel_ok t channel l).
Proof using Hr Hs.
  intros Ec Hk [b Eb]. unfold adm. rewrite Eb. unfold admitted in Eb. rewrite ether_iff in Eb.
  destruct (l_wireless l); cbn [negb] in Eb. 2:{ injection Eb as <-. split; [discriminate|intros [X _]; discriminate]. }
  destruct (compatible_channel_spec k l Hk) as (bc & Ebc & Hbc). rewrite Ebc in Eb.
  destruct (l_sectors l) as [[a c]|] eqn:Es. 2:{ injection Eb as <-. split; [discriminate|]. intros (_ & _ & (a & c & x & y & E & _)). congruence. }
  destruct (Hs _ _ _ _ Hk Es) as (_ & _ & (x & Hx & _) & (y & Hy & _)). unfold sector_stored in Hx, Hy. unfold get in Eb. rewrite Hx, Hy in Eb. cbn [rbind] in Eb.
  assert (Hc : channel_ok t channel l -> is_active (x_status x) /\ is_active (x_status y)).
  { intros (a' & c' & x' & y' & E & H1 & H2 & H3 & H4 & _). rewrite Es in E. injection E as <- <-. unfold sector_stored in H1, H2. rewrite Hx in H1. rewrite Hy in H2. injection H1 as <-. injection H2 as <-. auto. }
  destruct (active (x_status x)) eqn:Ax; cbn [negb] in Eb.
  2:{ injection Eb as <-. split; [discriminate|]. intros (_ & _ & H). apply Hc in H. destruct H as [H _]. apply act_iff in H. congruence. }
  destruct (active (x_status y)) eqn:Ay; cbn [negb] in Eb.
  2:{ injection Eb as <-. split; [discriminate|]. intros (_ & _ & H). apply Hc in H. destruct H as [_ H]. apply act_iff in H. congruence. }
  apply rbind_ok in Eb. destruct Eb as (p & Ep & Eb). destruct (compatible_polarity_iff t Hr cnp k l Ec Hk) as [P _]. rewrite Ep in P.
  destruct p.
  - injection Eb as <-. rewrite Hbc. assert (polarity_ok t l) by now apply P. tauto.
  - injection Eb as <-. split; [discriminate|]. intros (_ & H & _). apply P in H. discriminate.
Qed.

Variables (redundant : string -> bool) (gain : string -> string -> string -> Q).
Theorem net_gain_exact m : net_gain_map channel redundant gain t = Ok m -> wf3 m /\
  forall p v i, gget m p v i = Some (gain p v i) /\ interferes t channel redundant p v i \/ gget m p v i = None /\ ~ interferes t channel redundant p v i.
Proof using Hr Hs.
  intros E. unfold net_gain_map in E. apply rbind_ok in E. destruct E as (cnp & Ec & E). apply rbind_ok in E. destruct E as ([c' m'] & E & E'). injection E' as <-.
  pose proof (inv_reachable t Hr) as HI.
  assert (Hin : forall k l, In (k, l) (t_links t) <-> link_stored t k l) by (intros k l; rewrite <- dget_In_iff by apply HI; reflexivity).
  apply (path_fold _ _ _ _ (sector_connectivity t)) in E.
  2:{ intros [k l] H a b Es. exists k. apply rev_row. exists l. split; [now apply Hin|]. exists a, b. auto. }
  2:{ intros a. reflexivity. }
  destruct E as (A & W & G). cbn [fst snd] in *. split; [apply W; intros a; split; [|intros b]; apply dwf_nil|].
  intros p v i. rewrite G. set (B := existsb _ _).
  assert (HB : B = true <-> interferes t channel redundant p v i).
  { unfold B. rewrite existsb_exists. split.
    - intros ([k lp] & Hk & H). unfold hit3 in H. cbn [snd] in H. apply andb_true_iff in H. destruct H as [H H2]. apply andb_true_iff in H. destruct H as [H0 H1]. apply beq_true in H1.
      pose proof Hk as Hk'. apply Hin in Hk'. destruct (link_sites t Hr _ _ Hk') as (_ & _ & Kid). assert (p = k) by congruence. subst p. rewrite <- Kid in *.
      apply (adm_iff cnp k lp Ec Hk' (A _ Hk)) in H0. destruct H0 as (Hw & Hp & Hch). pose proof Hch as (a & b & _ & _ & Es & _).
      unfold ends in H2. rewrite Es in H2. cbn [fst snd] in H2. unfold hit2 in H2. apply existsb_exists in H2. destruct H2 as ([rf rk] & Hrr & H2). cbn [fst snd] in H2.
      apply andb_true_iff in H2. destruct H2 as [H2 H3]. apply andb_true_iff in H2. destruct H2 as [H2 H4]. apply beq_true in H4. subst rk.
      apply existsb_exists in H3. destruct H3 as ([tf tk] & Htt & H3). cbn [fst snd] in H3. apply andb_true_iff in H3. destruct H3 as [H3 H5]. apply beq_true in H5. subst tk.
      apply filter_In in Htt. destruct Htt as [Htt Hlive]. apply conn_row in Htt. destruct Htt as (li & Hli & ia & ib & Si & Ia & Ib).
      apply rev_row in Hrr. destruct Hrr as (lv & Hlv & va & vb & Sv & Va & Vb).
      unfold rx_hit in H2. cbn [fst snd] in H2. apply andb_true_iff in H2. destruct H2 as [N1 L1]. apply (loud_iff v lv Hlv) in L1. apply negb_true_iff in N1. apply beq_false in N1.
      unfold tx_hit in H3. cbn [fst snd] in H3. apply andb_true_iff in H3. destruct H3 as [H3 L2]. apply (loud_iff i li Hli) in L2. apply andb_true_iff in H3. destruct H3 as [N2 N3].
      apply negb_true_iff in N2. apply beq_false in N2. apply negb_true_iff in N3. apply beq_false in N3.
      unfold live in Hlive. cbn [snd] in Hlive. apply negb_true_iff in Hlive.
      subst rf tf. exists lp, lv, li, a, b, va, vb, ia, ib. repeat match goal with |- _ /\ _ => split end; try assumption; congruence.
    - intros (lp & lv & li & a & b & va & vb & ia & ib & Hp & Hv & Hi & Sp & Sv & Si & Hw & Lv & Li & Hred & Hpol & Hch & E1 & E2 & N1 & N2 & N3).
      exists (p, lp). pose proof Hp as Hp'. apply Hin in Hp'. split; [exact Hp'|]. unfold hit3. cbn [snd].
      destruct (link_sites t Hr _ _ Hp) as (_ & _ & Kid). rewrite <- Kid, beq_refl, andb_true_r.
      apply andb_true_iff. split; [apply (adm_iff cnp p lp Ec Hp (A _ Hp')); auto|].
      unfold ends. rewrite Sp. cbn [fst snd]. unfold hit2. apply existsb_exists. exists (key_id va, v). split; [apply rev_row; exists lv; split; [exact Hv|exists va, vb; auto]|].
      cbn [fst snd]. rewrite beq_refl, andb_true_r. apply andb_true_iff. split.
      + unfold rx_hit. cbn [fst snd]. apply andb_true_iff. split; [apply negb_true_iff; now apply beq_neq|now apply (loud_iff v lv)].
      + apply existsb_exists. exists (key_id ib, i). cbn [fst snd]. rewrite beq_refl, andb_true_r. split.
        * apply filter_In. split; [apply conn_row; exists li; split; [exact Hi|exists ia, ib; auto]|]. unfold live. cbn [snd]. now rewrite Hred.
        * unfold tx_hit. cbn [fst snd]. rewrite (proj2 (loud_iff i li Hi) Li), andb_true_r. apply andb_true_iff. split; apply negb_true_iff; now apply beq_neq. }
  destruct B; [left|right]; (split; [reflexivity|]).
  - now apply HB.
  - intros H. apply HB in H. discriminate.
Qed.

(** *** it returns *)
Lemma foldM_total {A S} (f : S -> A -> result S) (P : S -> Prop) L : (forall s a, In a L -> P s -> exists s', f s a = Ok s' /\ P s') -> forall s, P s -> exists s', foldM f s L = Ok s' /\ P s'.
Proof.
  induction L as [|a L IH]; intros H s Ps; cbn [foldM]; [eauto|]. destruct (H s a (or_introl eq_refl) Ps) as (s' & -> & Ps'). cbn [rbind]. apply IH; [|exact Ps']. intros; apply H; auto. now right.
Qed.
Definition rows_known (c : dict string (dict string string)) : Prop := forall a q, In q (row c a) -> exists l, link_stored t (snd q) l.
Lemma live_links_total L : (forall q : string * string, In q L -> exists l, link_stored t (snd q) l) -> exists r, live_links redundant t L = Ok r.
Proof.
  induction L as [|q L IH]; intros H; cbn [live_links]; [eauto|]. destruct (H q (or_introl eq_refl)) as [l Hl]. unfold get. unfold link_stored in Hl. rewrite Hl. cbn [rbind].
  destruct IH as [r ->]; [intros; apply H; now right|]. cbn [rbind]. eauto.
Qed.
Theorem net_gain_total : cns_served t -> exists m, net_gain_map channel redundant gain t = Ok m.
Proof using Hr Hs.
  intros Hserved. unfold net_gain_map. destruct (cn_polarities_total t Hr) as [cnp Ec]. rewrite Ec. cbn [rbind].
  assert (X : exists s, foldM (path_step channel redundant gain t cnp (sector_connectivity_reverse t)) (sector_connectivity t, []) (t_links t) = Ok s /\ rows_known (fst s)).
  { apply foldM_total.
    - intros [conn m] [k l] Hk Hc. cbn [fst] in Hc. pose proof (inv_reachable t Hr) as HI. rewrite <- dget_In_iff in Hk by apply HI.
      assert (Hrev : rows_known (sector_connectivity_reverse t)). { intros a [b k'] H. apply rev_row in H. destruct H as (l' & H & _). eauto. }
      assert (Htx : forall path prx from v L m0, (forall q : string * string, In q L -> exists l, link_stored t (snd q) l) -> exists m', foldM (tx_step gain t path prx from v) m0 L = Ok m').
      { intros path prx from v L m0 HL. destruct (foldM_total (tx_step gain t path prx from v) (fun _ => True) L) with (s := m0) as (m' & E & _); [|exact I|eauto].
        intros m1 q Hq _. unfold tx_step. destruct (beq _ _); [eauto|]. destruct (beq _ _); [eauto|]. destruct (HL q Hq) as [i Hi]. unfold get. unfold link_stored in Hi. rewrite Hi. cbn [rbind]. destruct (silent i); eauto. }
      unfold path_step. cbn [snd]. destruct (beq (l_type l) ETHERNET); [eauto|]. destruct (l_sectors l) as [[a b]|] eqn:Es; [|eauto].
      destruct (Hs _ _ _ _ Hk Es) as (_ & _ & (x & Hx & _) & (y & Hy & _)). unfold sector_stored in Hx, Hy. unfold get at 1 2. rewrite Hx, Hy. cbn [rbind].
      assert (Eok : exists ok, (if negb (active (x_status x)) then Ok false else if negb (active (x_status y)) then Ok false
              else do p <- compatible_polarity t cnp l ; if p then compatible_channel channel t l else Ok false) = Ok ok).
      { destruct (negb _); [eauto|]. destruct (negb _); [eauto|]. destruct (compatible_polarity t cnp l) as [p|e] eqn:Ep.
        - cbn [rbind]. destruct p; [|eauto]. destruct (compatible_channel_spec k l Hk) as (bc & -> & _). eauto.
        - exfalso. apply (compatible_polarity_iff t Hr cnp k l Ec Hk) in Ep. destruct Ep as (_ & tx & rx & H1 & H2 & H3 & H4 & H5 & N). destruct (Hserved _ _ H2 H5 H4) as [p Hp]. exact (N p Hp). }
      destruct Eok as [ok ->]. cbn [rbind]. destruct ok; cbn [negb]; [|eauto].
      destruct (live_links_total (row conn (key_id a)) (fun q H => Hc (key_id a) q H)) as [txl Etx]. rewrite Etx. cbn [rbind]. pose proof (live_links_ok redundant t _ _ Etx) as Etx'.
      assert (Htl : forall q, In q txl -> exists l, link_stored t (snd q) l). { intros q Hq. rewrite Etx' in Hq. apply filter_In in Hq. apply (Hc (key_id a)). tauto. }
      assert (Hc' : rows_known (if dmem conn (key_id a) then dset conn (key_id a) txl else conn)).
      { destruct (dmem conn (key_id a)); [|exact Hc]. intros a' q Hq. destruct (beq_spec a' (key_id a)) as [->|H]; [rewrite row_set_eq in Hq; auto|rewrite row_set_neq in Hq by exact H; now apply (Hc a')]. }
      destruct (Nat.eqb _ 0); [eauto|]. destruct (Nat.leb _ 1); [eauto|].
      destruct (foldM_total (rx_step gain t (l_id l) (key_id a) (key_id b) txl) (fun _ => True) (row (sector_connectivity_reverse t) (key_id b))) with (s := m) as (m' & -> & _); [|exact I|cbn [rbind]; eauto].
      intros m1 q Hq _. unfold rx_step. destruct (beq _ _); [eauto|]. destruct (Hrev _ _ Hq) as [i Hi]. unfold get. unfold link_stored in Hi. rewrite Hi. cbn [rbind]. destruct (silent i); [eauto|].
      destruct (Htx (l_id l) (key_id b) (fst q) (snd q) txl m1 Htl) as [m2 ->]. eauto.
    - intros a [b k'] H. apply conn_row in H. destruct H as (l' & H & _). eauto. }
  destruct X as (s & -> & _). cbn [rbind]. eauto.
Qed.

(** *** sums *)
Local Open Scope Q_scope.
Variable power : string -> Q -> Q.
Definition val (d : dict string Q) (v : string) : Q := match dget d v with Some x => x | None => 0 end.
Definition mean_of (r : dict string Q) : Q := mean (map (fun q => power (fst q) (snd q)) r).
Lemma interference_sum L : forall acc s, interference t power L acc = Ok s -> s == acc + fold_right Qplus 0 (map (fun q => power (fst q) (snd q)) L).
Proof.
  induction L as [|[i g] L IH]; intros acc s E; cbn [interference] in E.
  - injection E as <-. cbn. ring.
  - apply rbind_ok in E. destruct E as (_ & _ & E). rewrite (IH _ _ E). cbn [map fold_right fst snd]. ring.
Qed.
Lemma victim_fold R : forall d d', NoDup (dkeys R) -> foldM (victim_step t power) d R = Ok d' -> forall v, val d' v == val d v + mean_of (row R v).
Proof.
  induction R as [|[u r] R IH]; intros d d' N E v; cbn [foldM] in E.
  - injection E as <-. unfold mean_of, row. cbn. ring.
  - apply rbind_ok in E. destruct E as (d1 & E1 & E). unfold dkeys in N. cbn [map fst] in N. inversion N as [|? ? N1 N2]; subst.
    rewrite (IH _ _ N2 E v). clear IH E.
    assert (V : val d1 v == val d v + (if beq v u then mean_of r else 0)).
    { unfold victim_step in E1. cbn [fst snd] in E1. destruct r as [|q r].
      - injection E1 as <-. unfold mean_of. cbn [map mean]. destruct (beq v u); ring.
      - apply rbind_ok in E1. destruct E1 as (s & Es & E1). apply interference_sum in Es. injection E1 as <-. unfold val. rewrite dget_set. destruct (beq_spec v u) as [->|]; [|ring].
        unfold mean_of, mean. cbn [map]. rewrite Es. cbn [List.length]. rewrite map_length. cbn [map]. unfold Qdiv. change (Z.pos (Pos.of_succ_nat (List.length r))) with (Z.of_nat (S (List.length r))). ring. }
    rewrite V. unfold row at 2. cbn [dget]. destruct (beq_spec v u) as [->|Hn].
    + assert (X : row R u = []). { unfold row. rewrite (proj2 (dget_None_keys R u) N1). reflexivity. }
      rewrite X. unfold mean_of at 2. cbn [map mean]. ring.
    + fold (row R v). change (match dget R v with Some r0 => r0 | None => [] end) with (row R v). ring.
Qed.
Lemma path_total (m : gains) : wf3 m -> forall K d d', foldM (fun d k => foldM (victim_step t power) d (row m k)) d K = Ok d' ->
  forall v, val d' v == val d v + fold_right Qplus 0 (map (fun k => mean_of (row (row m k) v)) K).
Proof.
  intros W. induction K as [|k K IH]; intros d d' E v; cbn [foldM] in E.
  - injection E as <-. cbn. ring.
  - apply rbind_ok in E. destruct E as (d1 & E1 & E). rewrite (IH _ _ E v). rewrite (victim_fold _ _ _ (proj1 (W k)) E1 v). cbn [map fold_right]. ring.
Qed.
Lemma total_fold {A} (f : A -> Q) l : fold_right Qplus 0 (map f l) = total f l.
Proof. induction l as [|a l IH]; cbn; [reflexivity|]. now rewrite IH. Qed.
Lemma mean_row (m : gains) p v L : wf3 m -> (forall i, gget m p v i = Some (gain p v i) /\ In i L \/ gget m p v i = None /\ ~ In i L) -> NoDup L ->
  mean_of (row (row m p) v) == mean (map (fun i => power i (gain p v i)) L).
Proof.
  intros W G NL. unfold gget in G. pose proof (proj2 (W p) v) as Wr. set (r := row (row m p) v) in *.
  assert (NK : NoDup (dkeys r)) by exact Wr.
  assert (KK : forall i, In i (dkeys r) <-> In i L).
  { intros i. destruct (G i) as [[G1 G2]|[G1 G2]].
    - split; [auto|]. intros _. apply dget_In in G1. apply in_map_iff. exists (i, gain p v i). auto.
    - split; [|tauto]. intros H. apply dget_None_keys in G1. contradiction. }
  assert (E : map (fun q => power (fst q) (snd q)) r = map (fun i => power i (gain p v i)) (dkeys r)).
  { unfold dkeys. rewrite map_map. apply map_ext_in. intros [i g] H. cbn [fst snd]. apply (In_dget _ _ _ Wr) in H. destruct (G i) as [[G1 _]|[G1 _]]; congruence. }
  unfold mean_of. rewrite E. clear E. assert (P : Permutation.Permutation (dkeys r) L) by (apply Permutation.NoDup_Permutation; auto).
  assert (Len := Permutation.Permutation_length P).
  assert (X : forall l, mean (map (fun i => power i (gain p v i)) l) == total (fun i => power i (gain p v i)) l / inject_Z (Z.of_nat (List.length l))).
  { intros [|a l]; [cbn; reflexivity|]. unfold mean. cbn [map]. rewrite <- total_fold. cbn [map List.length]. rewrite map_length. reflexivity. }
  rewrite !X, Len. rewrite (tot_same _ _ L NK NL KK). reflexivity.
Qed.
Theorem link_rsl_exact m d : net_gain_map channel redundant gain t = Ok m -> link_rsl_map t power m = Ok d ->
  forall v L, lists_interferers t channel redundant v L -> val d v == disturbance t gain power v L.
Proof using Hr Hs.
  intros Em Ed v L HL. destruct (net_gain_exact m Em) as [W G]. unfold link_rsl_map in Ed. rewrite (path_total m W _ _ _ Ed v). unfold disturbance, val. cbn [dget]. rewrite !total_fold, Qplus_0_l.
  apply tot_ext. intros p _. apply mean_row; [exact W| |apply HL]. intros i. destruct (G p v i) as [[G1 G2]|[G1 G2]]; [left|right]; (split; [exact G1|]).
  - now apply HL.
  - intros H. apply G2. now apply HL.
Qed.
Theorem link_rsl_total m : net_gain_map channel redundant gain t = Ok m -> exists d, link_rsl_map t power m = Ok d.
Proof using Hr Hs.
  intros Em. destruct (net_gain_exact m Em) as [W G]. unfold link_rsl_map.
  assert (I : forall L acc, (forall i g, In (i, g) L -> exists l, link_stored t i l) -> exists s, interference t power L acc = Ok s).
  { induction L as [|[i g] L IH]; intros acc H; cbn [interference]; [eauto|]. destruct (H i g (or_introl eq_refl)) as [l Hl]. unfold get. unfold link_stored in Hl. rewrite Hl. cbn [rbind]. apply IH. intros; eapply H; right; eauto. }
  destruct (foldM_total (fun d k => foldM (victim_step t power) d (row m k)) (fun _ => True) (dkeys (t_links t))) with (s := @nil (string * Q)) as (d & E & _); [|exact Logic.I|eauto].
  intros d p _ _. destruct (foldM_total (victim_step t power) (fun _ => True) (row m p)) with (s := d) as (d' & E & _); [|exact Logic.I|eauto].
  intros d1 [v r] Hv _. unfold victim_step. cbn [fst snd]. destruct r as [|q r0] eqn:Er; [eauto|].
  destruct (I (q :: r0) 0%Q) as [s Es].
  - intros i g Hi. rewrite <- Er in Hi, Hv. assert (Gr : gget m p v i = Some g).
    { unfold gget. apply (In_dget _ _ _ (proj1 (W p))) in Hv. unfold row at 1. rewrite Hv. apply In_dget; [|exact Hi]. pose proof (proj2 (W p) v) as X. unfold row at 1 in X. rewrite Hv in X. exact X. }
    destruct (G p v i) as [[G1 G2]|[G1 _]]; [|congruence]. destruct G2 as (lp & lv & li & a & b & va & vb & ia & ib & _ & _ & Hli & _). eauto.
  - rewrite Es. cbn [rbind]. eauto.
Qed.

(** *** the signal-to-interference-and-noise ratio *)
Variables (rsl : string -> option Q) (noise : string -> Q) (lg : Q -> Q).
Theorem sinr_exact R : analyze_interference channel redundant gain t power rsl noise lg = Ok R ->
  (forall k, (exists x, In (k, x) R) <-> exists l, link_stored t k l /\ on_air l)
  /\ NoDup (map fst R)
  /\ forall k x L, In (k, x) R -> lists_interferers t channel redundant k L ->
     match rsl k with
     | None => x = None
     | Some r => exists v, v == disturbance t gain power k L /\ x = Some (r - lg (v + noise k))
     end.
Proof using Hr Hs.
  intros E. unfold analyze_interference in E. apply rbind_ok in E. destruct E as (m & Em & E). apply rbind_ok in E. destruct E as (d & Ed & E). injection E as <-.
  pose proof (inv_reachable t Hr) as HI.
  assert (Hin : forall k l, In (k, l) (t_links t) <-> link_stored t k l) by (intros k l; rewrite <- dget_In_iff by apply HI; reflexivity).
  split; [|split].
  - intros k. split.
    + intros [x H]. apply in_map_iff in H. destruct H as ([k' l] & Eq & H). apply filter_In in H. destruct H as [H H']. cbn [fst snd] in *. injection Eq as -> _. exists l. split; [now apply Hin|now apply silent_iff].
    + intros (l & Hl & Ha). eexists. apply in_map_iff. exists (k, l). split; [reflexivity|]. apply filter_In. split; [now apply Hin|now apply silent_iff].
  - rewrite map_map. cbn [fst]. assert (X : NoDup (dkeys (t_links t))) by apply HI. unfold dkeys in X. clear - X. induction (t_links t) as [|q L IH]; cbn [filter map] in *; [constructor|].
    inversion X as [|? ? X1 X2]; subst. destruct (negb _); cbn [map]; auto. constructor; auto. intros H. apply X1. apply in_map_iff in H. destruct H as (q' & E & H). apply filter_In in H. apply in_map_iff. exists q'. tauto.
  - intros k x L H HL. apply in_map_iff in H. destruct H as ([k' l] & Eq & H). cbn [fst] in Eq. injection Eq as -> <-. unfold sinr. destruct (rsl k) as [r|]; [|reflexivity].
    exists (val d k). split; [now apply (link_rsl_exact m d)|reflexivity].
Qed.
Theorem analyze_total : cns_served t -> exists R, analyze_interference channel redundant gain t power rsl noise lg = Ok R.
Proof using Hr Hs.
  intros H. unfold analyze_interference. destruct (net_gain_total H) as [m Em]. rewrite Em. cbn [rbind]. destruct (link_rsl_total m Em) as [d ->]. cbn [rbind]. eauto.
Qed.
Lemma mean_nonneg l : (forall x, In x l -> 0 <= x) -> 0 <= mean l.
Proof.
  intros H. destruct l as [|a l]; [cbn; lra|]. unfold mean. apply Qle_shift_div_l; [reflexivity|]. rewrite Qmult_0_l.
  clear -H. induction (a :: l) as [|b r IH]; cbn [fold_right]; [lra|]. pose proof (H b (or_introl eq_refl)). assert (0 <= fold_right Qplus 0 r) by (apply IH; intros; apply H; now right). lra.
Qed.
Lemma disturbance_nonneg v L : (forall i g, 0 <= power i g) -> 0 <= disturbance t gain power v L.
Proof. intros H. unfold disturbance. rewrite total_fold. apply tot_nonneg. intros p _. apply mean_nonneg. intros x Hx. apply in_map_iff in Hx. destruct Hx as (i & <- & _). apply H. Qed.
Lemma disturbance_none v L : (forall p, L p = []) -> disturbance t gain power v L == 0.
Proof. intros H. unfold disturbance. rewrite total_fold. apply tot_zero. intros p _. rewrite H. reflexivity. Qed.
Theorem sinr_bounds R : analyze_interference channel redundant gain t power rsl noise lg = Ok R ->
  (forall i g, 0 <= power i g) -> (forall x y, x <= y -> lg x <= lg y) ->
  forall k s r L, In (k, Some s) R -> rsl k = Some r -> lists_interferers t channel redundant k L ->
    s <= r - lg (noise k) /\ ((forall p i, ~ interferes t channel redundant p k i) -> s == r - lg (noise k)).
Proof using Hr Hs.
  intros E Hp Hm k s r L Hk Hrs HL. destruct (sinr_exact R E) as (_ & _ & X). specialize (X k (Some s) L Hk HL). rewrite Hrs in X. destruct X as (v & Hv & Es). injection Es as ->.
  pose proof (disturbance_nonneg k L Hp) as Hd. rewrite <- Hv in Hd. split.
  - assert (lg (noise k) <= lg (v + noise k)) by (apply Hm; lra). lra.
  - intros Hno. assert (L0 : forall p, L p = []). { intros p. destruct (L p) as [|i l] eqn:El; [reflexivity|]. exfalso. apply (Hno p i). apply HL. rewrite El. now left. }
    rewrite (disturbance_none k L L0) in Hv. assert (lg (noise k) <= lg (v + noise k)) by (apply Hm; lra). assert (lg (v + noise k) <= lg (noise k)) by (apply Hm; lra). lra.
Qed.
End Final.

Lemma polarity_symmetric t cnp l l' tx rx : l_tx l' = l_rx l -> l_rx l' = l_tx l -> dget (t_sites t) (l_tx l) = Some tx -> dget (t_sites t) (l_rx l) = Some rx -> s_type tx <> CN -> s_type rx <> CN ->
  compatible_polarity t cnp l' = compatible_polarity t cnp l.
Proof.
  intros E1 E2 Ht Hx N1 N2. unfold compatible_polarity, get. rewrite E1, E2, Ht, Hx. cbn [rbind]. apply beq_neq in N1. apply beq_neq in N2. rewrite N1, N2. cbn [rbind].
  rewrite orb_comm. destruct (negb (active (s_status tx)) || negb (active (s_status rx))); [reflexivity|]. f_equal. destruct (s_polarity tx), (s_polarity rx); reflexivity.
Qed.
Lemma channel_symmetric channel t l l' a b x y : l_sectors l = Some (a, b) -> l_sectors l' = Some (b, a) -> sector_stored t (key_id a) x -> sector_stored t (key_id b) y ->
  compatible_channel channel t l' = compatible_channel channel t l.
Proof.
  intros E1 E2 Hx Hy. unfold compatible_channel, get. rewrite E1, E2. unfold sector_stored in Hx, Hy. rewrite Hx, Hy. cbn [rbind].
  rewrite orb_comm. destruct (negb (active (x_status x)) || negb (active (x_status y))); [reflexivity|]. f_equal. rewrite Z.eqb_sym. f_equal.
  cbn [mem]. rewrite !orb_false_r. apply orb_comm.
Qed.
(** the table of CN polarities holds exactly what the active links into the CN say *)
Lemma cn_polarities_exact t : reachable t -> exists d, cn_polarities t = Ok d /\
  forall i p, dget d i = Some p <-> (exists s, dget (t_sites t) i = Some s /\ s_type s = CN) /\ cn_polarity t i p.
Proof.
  intros Hr. destruct (cn_polarities_total t Hr) as [d Ed]. exists d. split; [exact Ed|]. intros i p. destruct (cn_polarities_spec t Hr d Ed i) as [C1 C2]. split; [apply C1|].
  intros [Hc Hp]. destruct (dget d i) as [q|] eqn:Eq.
  - destruct (C1 q eq_refl) as [_ Hq]. f_equal. exact (cn_polarity_unique t i q p Hq Hp).
  - exfalso. destruct Hp as [(q & Hq) _]. exact (C2 Hc eq_refl q Hq).
Qed.
Lemma polarity_filter t : reachable t -> exists cnp, cn_polarities t = Ok cnp /\ forall k l, link_stored t k l ->
  (compatible_polarity t cnp l = Ok true <-> polarity_ok t l)
  /\ (forall e, compatible_polarity t cnp l = Err e <->
        e = PyKeyError /\ exists tx rx, dget (t_sites t) (l_tx l) = Some tx /\ dget (t_sites t) (l_rx l) = Some rx /\ is_active (s_status tx) /\ is_active (s_status rx)
          /\ s_type rx = CN /\ forall p, ~ served_as t (l_rx l) p).
Proof. intros Hr. destruct (cn_polarities_total t Hr) as [d Ed]. exists d. split; [exact Ed|]. intros k l. now apply compatible_polarity_iff. Qed.
Lemma gains_exact channel redundant gain t m : reachable t -> sectors_stored t -> net_gain_map channel redundant gain t = Ok m ->
  forall p v i g, (exists r r', dget m p = Some r /\ dget r v = Some r' /\ dget r' i = Some g) <-> interferes t channel redundant p v i /\ g = gain p v i.
Proof.
  intros Hr Hs Em p v i g. destruct (net_gain_exact channel t Hr Hs redundant gain m Em) as [_ G].
  assert (X : (exists r r', dget m p = Some r /\ dget r v = Some r' /\ dget r' i = Some g) <-> gget m p v i = Some g).
  { unfold gget, row. split.
    - intros (r & r' & E1 & E2 & E3). now rewrite E1, E2.
    - destruct (dget m p) as [r|] eqn:E1; [|cbn; discriminate]. destruct (dget r v) as [r'|] eqn:E2; [|cbn; discriminate]. eauto. }
  rewrite X. destruct (G p v i) as [[-> H]|[-> H]]; [|split; [discriminate|tauto]]. split; [intros E; injection E as <-; auto|intros [_ ->]; reflexivity].
Qed.
