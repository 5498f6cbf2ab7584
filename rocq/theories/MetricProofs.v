(** Proofs for C73. *)
From Coq Require Import QArith Qround Lqa Lia Sorted Permutation.
From Verif Require Import Base Dict QLib MonadLib TopologyModel TopologySpec GraphSpec DeploySpec RfModel TpcModel CountModel CountSpec CountProofs CountMainProofs IlpSpec ReportModel ReportSpec ReportProofs MetricSpec.
Local Open Scope Q_scope.
Local Open Scope list_scope.

From Verif Require TopologyProofs OpsProofs.
Lemma ok_eq {A} (x y : A) : Ok x = Ok y -> x = y.
Proof. intros E. now injection E. Qed.
(** *** tables of link hashes *)
Definition tab (d : dict string (list string)) (ks : list string) (R : string -> string -> Prop) : Prop :=
  dkeys d = ks /\ forall k hs, dget d k = Some hs -> NoDup hs /\ forall h, In h hs <-> R k h.
Lemma tab_ext d ks R R' : (forall k h, In k ks -> (R k h <-> R' k h)) -> tab d ks R -> tab d ks R'.
Proof.
  intros H [E T]. split; [exact E|]. intros k hs G. destruct (T k hs G) as [N M]. split; [exact N|]. intros h. rewrite M. apply H.
  rewrite <- E. apply In_dkeys. eauto.
Qed.
Lemma add_hash_tab d ks R k h : tab d ks R -> In k ks -> exists d', add_hash d k h = Ok d' /\ tab d' ks (fun k' h' => R k' h' \/ (k' = k /\ h' = h)).
Proof.
  intros [E T] H. unfold add_hash. assert (G : In k (dkeys d)) by now rewrite E. apply In_dkeys in G. destruct G as [hs Eg]. rewrite Eg.
  eexists. split; [reflexivity|]. split.
  - rewrite dkeys_set. unfold dmem. now rewrite Eg.
  - intros k' hs'. rewrite dget_set. destruct (beq_spec k' k) as [->|N].
    + intros X. injection X as <-. destruct (T k hs Eg) as [Nd M]. split; [now apply sadd_NoDup|]. intros h'. rewrite sadd_In, M. tauto.
    + intros X. destruct (T _ _ X) as [Nd M]. split; [exact Nd|]. intros h'. rewrite M. tauto.
Qed.
Lemma add_hash_ok d k h d' : add_hash d k h = Ok d' -> In k (dkeys d) /\ dkeys d' = dkeys d.
Proof.
  unfold add_hash. destruct (dget d k) as [hs|] eqn:E; [|discriminate]. intros X. injection X as <-. split; [apply In_dkeys; eauto|].
  rewrite dkeys_set. unfold dmem. now rewrite E.
Qed.
Lemma choose {A B} (P : A -> Prop) (f : A -> B) vs : (forall v, In v vs -> exists x, P x /\ f x = v) -> exists reps, map f reps = vs /\ forall x, In x reps -> P x.
Proof.
  induction vs as [|v vs IH]; intros H; [exists []; split; [reflexivity|intros ? []]|].
  destruct (H v (or_introl eq_refl)) as (x & Hx & E). destruct IH as (reps & E' & H'); [intros; apply H; now right|].
  exists (x :: reps). split; [cbn; congruence|]. intros y [<-|Hy]; auto.
Qed.

Lemma table_fold : forall d acc, (forall k x, In (k, x) d -> k = x_id x) -> NoDup (map fst d) -> (forall k, In k (map fst d) -> ~ In k (dkeys acc)) ->
    fold_left (fun a q => if negb (k_cn (x_key (snd q))) && active (x_status (snd q)) then dset a (x_id (snd q)) [] else a) d acc =
    acc ++ map (fun k => (k, @nil string)) (map fst (filter (fun q => negb (k_cn (x_key (snd q))) && active (x_status (snd q))) d)).
Proof.
  induction d as [|[k x] d IH]; intros acc H N D; cbn [fold_left filter map]; [now rewrite app_nil_r|]. inversion N as [|? ? Nk N']; subst. cbn [snd fst] in *.
    assert (H' : forall k x, In (k, x) d -> k = x_id x) by (intros; apply H; now right). destruct (negb _ && _).
    - rewrite <- (H k x (or_introl eq_refl)). assert (Dk : ~ In k (dkeys acc)) by (apply D; now left). assert (E : dset acc k [] = acc ++ [(k, [])]).
      { clear -Dk. induction acc as [|[k1 v1] acc IHa]; cbn; [reflexivity|]. destruct (beq_spec k k1) as [->|Nk]; [exfalso; apply Dk; now left|]. rewrite IHa; [reflexivity|]. intros C. apply Dk. now right. }
      rewrite E, IH; auto; [cbn [map]; now rewrite <- app_assoc|]. intros k' Hk. rewrite <- E, dkeys_set. destruct (dmem acc k); [apply D; now right|]. rewrite in_app_iff. intros [C|[<-|[]]]; [apply (D k'); [now right|exact C]|contradiction].
    - apply IH; auto. intros k' Hk. apply D. now right.
Qed.

Section Topo.
Variables (hash : Z * Z * Z -> string) (t : topo).
Hypothesis W : well_formed t.

(** the links that count for a sector, among those of a list *)
Definition att (ty : link_type) (k : string) (l : link) : Prop :=
  active (l_status l) = true /\ l_type l = ty /\ exists a b, l_sectors l = Some (a, b) /\ (key_id a = k \/ (ty = WIRELESS_BACKHAUL /\ key_id b = k)).
Definition fits (ks : list string) (l : link) : Prop :=
  exists a b, l_sectors l = Some (a, b) /\ (l_type l <> ETHERNET -> In (key_id a) ks) /\ (l_type l = WIRELESS_BACKHAUL -> In (key_id b) ks).
Notation lh := (link_hash hash t).
Lemma loop_tab ks ls : forall b a Rb Ra, tab b ks Rb -> tab a ks Ra -> (forall l, In l ls -> active (l_status l) = true -> fits ks l) ->
  exists b' a', LosRangeModel.foldM (sector_links_step hash t) (b, a) ls = Ok (b', a') /\
    tab b' ks (fun k h => Rb k h \/ exists l, In l ls /\ att WIRELESS_BACKHAUL k l /\ lh l = h) /\
    tab a' ks (fun k h => Ra k h \/ exists l, In l ls /\ att WIRELESS_ACCESS k l /\ lh l = h).
Proof.
  induction ls as [|l ls IH]; intros b a Rb Ra Tb Ta F; cbn [LosRangeModel.foldM].
  - exists b, a. split; [reflexivity|]. split; (eapply tab_ext; [|eassumption]); intros k h _; (split; [tauto|intros [H|(l & [] & _)]; exact H]).
  - assert (F' : forall l', In l' ls -> active (l_status l') = true -> fits ks l') by (intros; apply F; [now right|assumption]).
    unfold sector_links_step at 1. destruct (active (l_status l)) eqn:A.
    + destruct (F l (or_introl eq_refl) A) as (x & y & S & Fx & Fy). rewrite S. destruct (l_type l) eqn:T.
      * destruct (add_hash_tab b ks Rb (key_id x) (lh l) Tb) as (b1 & E1 & T1); [apply Fx; discriminate|].
        destruct (add_hash_tab b1 ks _ (key_id y) (lh l) T1) as (b2 & E2 & T2); [now apply Fy|]. cbn [fst snd]. rewrite E1. cbn [rbind]. rewrite E2. cbn [rbind].
        destruct (IH b2 a _ Ra T2 Ta F') as (b' & a' & E & Tb' & Ta'). exists b', a'. split; [exact E|]. split; (eapply tab_ext; [|eassumption]); intros k h _; split.
        -- intros [[[H|[-> ->]]|[-> ->]]|(l' & H & H')]; [now left|right; exists l|right; exists l|right; exists l'; split; [now right|exact H']]; (split; [now left|]); (split; [|reflexivity]); (split; [exact A|]); (split; [exact T|]); exists x, y; auto.
        -- intros [H|(l' & [<-|H] & H')]; [auto| |right; eauto]. left. destruct H' as ((_ & _ & x' & y' & S' & K) & <-). rewrite S in S'. injection S' as <- <-. destruct K as [<-|[_ <-]]; auto.
        -- intros [H|(l' & H & H')]; [now left|right; exists l'; split; [now right|exact H']].
        -- intros [H|(l' & [<-|H] & H')]; [now left| |right; eauto]. destruct H' as ((_ & T' & _) & _). congruence.
      * destruct (add_hash_tab a ks Ra (key_id x) (lh l) Ta) as (a1 & E1 & T1); [apply Fx; discriminate|]. cbn [fst snd]. rewrite E1. cbn [rbind].
        destruct (IH b a1 Rb _ Tb T1 F') as (b' & a' & E & Tb' & Ta'). exists b', a'. split; [exact E|]. split; (eapply tab_ext; [|eassumption]); intros k h _; split.
        -- intros [H|(l' & H & H')]; [now left|right; exists l'; split; [now right|exact H']].
        -- intros [H|(l' & [<-|H] & H')]; [now left| |right; eauto]. destruct H' as ((_ & T' & _) & _). congruence.
        -- intros [[H|[-> ->]]|(l' & H & H')]; [now left|right; exists l|right; exists l'; split; [now right|exact H']]; (split; [now left|]); (split; [|reflexivity]); (split; [exact A|]); (split; [exact T|]); exists x, y; auto.
        -- intros [H|(l' & [<-|H] & H')]; [auto| |right; eauto]. left. destruct H' as ((_ & _ & x' & y' & S' & K) & <-). rewrite S in S'. injection S' as <- <-. destruct K as [<-|[C _]]; [auto|discriminate].
      * cbn [rbind]. destruct (IH b a Rb Ra Tb Ta F') as (b' & a' & E & Tb' & Ta'). exists b', a'. split; [exact E|]. split; (eapply tab_ext; [|eassumption]); intros k h _; split;
          try (intros [H|(l' & H & H')]; [now left|right; exists l'; split; [now right|exact H']]);
          (intros [H|(l' & [<-|H] & H')]; [now left| |right; eauto]); destruct H' as ((_ & T' & _) & _); congruence.
    + cbn [rbind]. destruct (IH b a Rb Ra Tb Ta F') as (b' & a' & E & Tb' & Ta'). exists b', a'. split; [exact E|]. split; (eapply tab_ext; [|eassumption]); intros k h _; split;
        try (intros [H|(l' & H & H')]; [now left|right; exists l'; split; [now right|exact H']]);
        (intros [H|(l' & [<-|H] & H')]; [now left| |right; eauto]); destruct H' as ((A' & _) & _); congruence.
Qed.
Lemma loop_fits ks ls : forall b a r, dkeys b = ks -> dkeys a = ks -> LosRangeModel.foldM (sector_links_step hash t) (b, a) ls = Ok r ->
  forall l, In l ls -> active (l_status l) = true -> fits ks l.
Proof.
  induction ls as [|l ls IH]; intros b a r Kb Ka E l' Hl A; [destruct Hl|]. cbn [LosRangeModel.foldM] in E. apply rbind_ok in E. destruct E as ([b1 a1] & E1 & E).
  assert (G : (active (l_status l) = true -> fits ks l) /\ dkeys b1 = ks /\ dkeys a1 = ks).
  { unfold sector_links_step in E1. destruct (active (l_status l)); [|apply ok_eq in E1; injection E1 as <- <-; split; [discriminate|auto]].
    destruct (l_sectors l) as [[x y]|] eqn:S; [|discriminate]. destruct (l_type l) eqn:T; cbn [fst snd] in E1.
    - apply rbind_ok in E1. destruct E1 as (b2 & E2 & E1). apply rbind_ok in E1. destruct E1 as (b3 & E3 & E1). apply ok_eq in E1. injection E1 as <- <-.
      apply add_hash_ok in E2. apply add_hash_ok in E3. destruct E2 as [I2 K2], E3 as [I3 K3]. split; [|split; congruence]. intros _. exists x, y. split; [exact S|]. split; intros _; [now rewrite <- Kb|rewrite <- Kb, <- K2; exact I3].
    - apply rbind_ok in E1. destruct E1 as (a2 & E2 & E1). apply ok_eq in E1. injection E1 as <- <-. apply add_hash_ok in E2. destruct E2 as [I2 K2]. split; [|split; congruence].
      intros _. exists x, y. split; [exact S|]. split; [intros _; now rewrite <- Ka|rewrite T; discriminate].
    - apply ok_eq in E1. injection E1 as <- <-. split; [|auto]. intros _. exists x, y. split; [exact S|]. split; [rewrite T; congruence|rewrite T; discriminate]. }
  destruct G as (G & Kb1 & Ka1). destruct Hl as [<-|Hl]; [now apply G|]. exact (IH b1 a1 r Kb1 Ka1 E l' Hl A).
Qed.

(** the DN sectors of the plan *)
Definition dnks : list string := map fst (filter (fun q => negb (k_cn (x_key (snd q))) && active (x_status (snd q))) (t_sectors t)).
Lemma sec_stored k x : sector_stored t k x <-> In (k, x) (t_sectors t).
Proof. unfold sector_stored. apply dget_In_iff. apply W. Qed.
Lemma dnks_lists : lists dnks (dn_sector t).
Proof using W.
  split; [apply OpsProofs.NoDup_map_filter; apply W|]. intros k. unfold dnks. rewrite in_map_iff. split.
  - intros ([k' x] & <- & H). apply filter_In in H. destruct H as [H C]. cbn [snd] in C. apply andb_true_iff in C. destruct C as [C A]. apply negb_true_iff in C. exists x. split; [now apply sec_stored|]. split; [exact C|now apply act_planned].
  - intros (x & H & C & A). exists (k, x). split; [reflexivity|]. apply filter_In. split; [now apply sec_stored|]. cbn [snd]. apply act_planned in A. now rewrite C, A.
Qed.
Lemma table_shape : dn_sector_table t = map (fun k => (k, [])) dnks.
Proof using W.
  unfold dn_sector_table, dnks. assert (H : forall k x, In (k, x) (t_sectors t) -> k = x_id x).
  { intros k x H. apply sec_stored in H. destruct W as (_ & _ & _ & _ & _ & _ & _ & T). now destruct (T k x H). }
  assert (N : NoDup (map fst (t_sectors t))) by apply W. revert H N. generalize (t_sectors t). intros d H N.
  rewrite (table_fold d []); [reflexivity|exact H|exact N|intros k _ []].
Qed.
Lemma table_tab : tab (dn_sector_table t) dnks (fun _ _ => False).
Proof using W.
  rewrite table_shape. split; [unfold dkeys; rewrite map_map; cbn [fst]; apply map_id|]. intros k hs E. apply dget_In in E. apply in_map_iff in E. destruct E as (k' & E & _). injection E as <- <-.
  split; [constructor|]. intros h. split; intros [].
Qed.
Lemma fits_countable l : fits dnks l <-> countable t l.
Proof using W. destruct dnks_lists as [_ M]. unfold fits, countable. split; intros (a & b & S & A & B); exists a, b; (split; [exact S|]); split; intros H; apply M; auto. Qed.
Lemma att_attached ty k l : In l (dvals (t_links t)) /\ att ty k l <-> attached t ty k l.
Proof using W. unfold att, attached. rewrite (plan_In t W). split; [intros (A & B & C & D); exact (conj (conj A B) (conj C D))|intros ((A & B) & C & D); exact (conj A (conj B (conj C D)))]. Qed.
Hypothesis Hd : forall c, no_dash (hash c).
Lemma tab_card d ty : tab d dnks (fun k h => exists l, In l (dvals (t_links t)) /\ att ty k l /\ lh l = h) ->
  exists f, (forall k, dn_sector t k -> card_up_to (attached t ty k) (same_link hash t) (f k)) /\ sizes d = map (fun k => num (f k)) dnks.
Proof.
  intros [K T]. exists (fun k => match dget d k with Some hs => List.length hs | None => 0%nat end). split.
  - intros k Hk. apply dnks_lists in Hk. rewrite <- K in Hk. apply In_dkeys in Hk. destruct Hk as [hs E]. rewrite E. destruct (T k hs E) as [N M].
    destruct (choose (attached t ty k) lh hs) as (reps & Er & Hr). { intros h Hh. apply M in Hh. destruct Hh as (l & H1 & H2 & H3). exists l. split; [apply att_attached; auto|exact H3]. }
    assert (St : forall l, attached t ty k l -> exists k', link_stored t k' l) by (intros l ((k' & L & _) & _); eauto).
    exists reps. split; [exact Hr|]. split; [|split].
    + intros l Hl. assert (Hh : In (lh l) hs) by (apply M; apply att_attached in Hl; exists l; tauto). rewrite <- Er in Hh. apply in_map_iff in Hh. destruct Hh as (l' & E' & Hl'). exists l'. split; [exact Hl'|].
      destruct (St _ Hl) as [k1 S1]. destruct (St _ (Hr _ Hl')) as [k2 S2]. apply (same_link_iff hash t W Hd k1 l k2 l' S1 S2). now symmetry.
    + intros i j x y Hi Hj Sm. destruct (St _ (Hr _ (nth_error_In _ _ Hi))) as [k1 S1]. destruct (St _ (Hr _ (nth_error_In _ _ Hj))) as [k2 S2]. apply (same_link_iff hash t W Hd k1 x k2 y S1 S2) in Sm.
      rewrite <- Er in N. rewrite NoDup_nth_error in N. apply N; [rewrite map_length; apply nth_error_Some; congruence|]. rewrite !nth_error_map, Hi, Hj. cbn. now rewrite Sm.
    + rewrite <- Er. now rewrite map_length.
  - unfold sizes. rewrite <- K. unfold dvals, dkeys. rewrite !map_map. apply map_ext_in. intros [k hs] H. cbn [fst snd]. assert (Wd : dwf d) by (unfold dwf; rewrite K; apply dnks_lists).
    apply (In_dget _ _ _ Wd) in H. now rewrite H.
Qed.
Lemma per_sector_summary l : summary l (m_avg (per_sector (Z.of_nat (List.length l)) l)) (m_max (per_sector (Z.of_nat (List.length l)) l)) (m_min (per_sector (Z.of_nat (List.length l)) l)).
Proof.
  destruct l as [|x l]; [cbn; repeat split; reflexivity|]. assert (H := stats_summary (x :: l)). unfold per_sector. destruct (Z.ltb_spec 0 (Z.of_nat (List.length (x :: l)))) as [_|C]; [exact H|cbn in C; lia].
Qed.
Lemma count_dnks : sectors_of_type t true false = List.length dnks.
Proof using.
  unfold sectors_of_type, dnks. rewrite map_length. f_equal. apply filter_ext. intros q. unfold sel. destruct (k_cn (x_key (snd q))), (active (x_status (snd q))); reflexivity.
Qed.

(** *** classes *)
Lemma fold_dset_get {A K V} `{EqB K} (p : A -> bool) (key : A -> K) (val : A -> V) ls q c :
  (forall l l', In l ls -> In l' ls -> p l = true -> p l' = true -> key l = key l' -> val l = val l') ->
  (dget (fold_left (fun d l => if p l then dset d (key l) (val l) else d) ls []) q = Some c <-> exists l, In l ls /\ p l = true /\ key l = q /\ val l = c).
Proof.
  induction ls as [|x ls IH] using rev_ind; intros Hm; [cbn; split; [discriminate|intros (l & [] & _)]|].
  assert (IH' := IH (fun l l' Hl Hl' => Hm l l' (in_or_app _ _ _ (or_introl Hl)) (in_or_app _ _ _ (or_introl Hl')))). rewrite fold_left_app. cbn [fold_left].
  assert (Hx : In x (ls ++ [x])) by (apply in_or_app; right; now left). destruct (p x) eqn:P.
  - rewrite dget_set. destruct (beq_spec q (key x)) as [->|N].
    + split; [intros E; injection E as <-; exists x; auto|]. intros (l & Hl & P' & Kq & <-). f_equal. symmetry. apply Hm; auto.
    + rewrite IH'. split; [intros (l & Hl & H'); exists l; split; [apply in_or_app; now left|exact H']|]. intros (l & Hl & P' & Kq & C). apply in_app_iff in Hl. destruct Hl as [Hl|[<-|[]]]; [eauto|congruence].
  - rewrite IH'. split; [intros (l & Hl & H'); exists l; split; [apply in_or_app; now left|exact H']|]. intros (l & Hl & P' & Kq & C). apply in_app_iff in Hl. destruct Hl as [Hl|[<-|[]]]; [eauto|congruence].
Qed.
Lemma fold_dset_wf {A K V} `{EqB K} (p : A -> bool) (key : A -> K) (val : A -> V) ls : forall d, dwf d -> dwf (fold_left (fun d l => if p l then dset d (key l) (val l) else d) ls d).
Proof. induction ls as [|x ls IH]; intros d Wd; cbn [fold_left]; [exact Wd|]. apply IH. destruct (p x); [now apply dwf_set|exact Wd]. Qed.
Lemma occ_vals_gen {K V} `{EqB K} `{EqB V} (d : dict K V) c : dwf d -> card (fun k => dget d k = Some c) (occ c (dvals d)).
Proof.
  intros Wd. exists (map fst (filter (fun q => beq c (snd q)) d)). split; [apply OpsProofs.NoDup_map_filter, Wd|]. split.
  - intros k. rewrite in_map_iff. split; [intros ([k' v] & <- & H'); apply filter_In in H'; destruct H' as [H1 H2]; apply beq_true in H2; cbn [snd] in H2; subst v; now apply In_dget|].
    intros E. exists (k, c). split; [reflexivity|]. apply filter_In. split; [now apply dget_In|apply beq_refl].
  - rewrite map_length. unfold occ, dvals. clear Wd. induction d as [|q d IH]; [reflexivity|]. cbn [map filter]. destruct (beq c (snd q)); cbn [List.length]; congruence.
Qed.
Lemma classes mcs ty c n : one_class t mcs -> (dget (mcs_counts t mcs ty) c = Some n <-> (n > 0)%nat /\ card (of_class t mcs ty c) n).
Proof.
  intros O. unfold mcs_counts. rewrite counter_get.
  assert (C : card (of_class t mcs ty c) (occ c (dvals (mcs_table t mcs ty)))).
  { eapply card_ext; [|apply occ_vals_gen; apply (fold_dset_wf (fun l => active (l_status l) && beq (l_type l) ty) sorted_site_ids mcs (dvals (t_links t)) []); apply dwf_nil].
    intros q. unfold mcs_table. rewrite (fold_dset_get (fun l => active (l_status l) && beq (l_type l) ty) sorted_site_ids mcs).
    - unfold of_class. split.
      + intros (l & Hl & P & K & C). apply andb_true_iff in P. destruct P as [A T]. apply beq_true in T. exists l. split; [apply (plan_In t W); auto|]. split; [exact T|]. split; [exact C|]. now apply joins_iff.
      + intros (l & Pl & T & C & J). apply (plan_In t W) in Pl. exists l. split; [apply Pl|]. split; [apply andb_true_iff; split; [apply Pl|subst ty; apply beq_refl]|]. split; [now apply joins_iff|exact C].
    - intros l l' Hl Hl' P P' K. apply andb_true_iff in P, P'. destruct P as [A T], P' as [A' T']. apply beq_true in T, T'.
      assert (Pl : plan_link t l) by (apply (plan_In t W); auto). assert (Pl' : plan_link t l') by (apply (plan_In t W); auto).
      assert (J : joins l (sorted_site_ids l')) by now apply joins_iff. assert (J' : joins l' (sorted_site_ids l')) by now apply joins_iff.
      assert (Same : l_tx l = l_tx l' -> l_rx l = l_rx l' -> mcs l = mcs l').
      { intros T1 T2. destruct Pl as (k & S1 & _), Pl' as (k' & S2 & _). f_equal. apply (ends_unique t W k l k' l' S1 S2). unfold ends. congruence. }
      destruct J as [_ [[A1 A2]|[A1 A2]]], J' as [_ [[B1 B2]|[B1 B2]]]; [apply Same; congruence|apply O; auto; [split; congruence|congruence]|apply O; auto; [split; congruence|congruence]|apply Same; congruence]. }
  split; [intros [-> H]; auto|]. intros [H C']. split; [apply (card_inj _ _ _ C' C)|exact H].
Qed.
Lemma dists_summary dist ty : exists ls, lists ls (fun l => plan_link t l /\ l_type l = ty) /\
  summary (map dist ls) (m_avg (stats_of (link_dists t dist ty))) (m_max (stats_of (link_dists t dist ty))) (m_min (stats_of (link_dists t dist ty))).
Proof.
  exists (filter (fun l => beq (l_type l) ty && active (l_status l)) (dvals (t_links t))). split; [|apply stats_summary]. split.
  - apply NoDup_filter. apply NoDup_map_inv with (f := ends). apply (ends_nodup t W).
  - intros l. rewrite filter_In, (plan_In t W), andb_true_iff, beq_eq. tauto.
Qed.
End Topo.

(** *** failures *)
Lemma sum_app a b : sum_of (a ++ b) == sum_of a + sum_of b.
Proof. unfold sum_of. induction a as [|x a IH]; cbn; [ring|]. rewrite IH. ring. Qed.
Lemma num_nonneg n : 0 <= num n.
Proof. unfold num. change 0 with (inject_Z 0). rewrite <- Zle_Qle. lia. Qed.
Lemma effect (P : string -> Prop) d n : dwf d -> card P n -> (forall i, In i (dkeys d) -> P i) -> (0 < n)%nat -> exists ks, lists ks P /\
  summary (map (fun i => num (lost d i)) ks) (m_avg (fail_effect_sites d n)) (m_max (fail_effect_sites d n)) (m_min (fail_effect_sites d n)).
Proof.
  intros Wd (l & N & M & E) Hd Pn. set (rest := filter (fun i => negb (mem i (dkeys d))) l). exists (dkeys d ++ rest).
  assert (Hr : forall i, In i rest <-> P i /\ ~ In i (dkeys d)).
  { intros i. unfold rest. rewrite filter_In, M, negb_true_iff. split; intros [A B]; (split; [exact A|]); [now apply mem_not_In|now apply mem_not_In]. }
  assert (L : lists (dkeys d ++ rest) P).
  { split.
    - apply TopologyProofs.NoDup_app_iff. split; [exact Wd|]. split; [now apply NoDup_filter|]. intros i H C. apply Hr in C. tauto.
    - intros i. rewrite in_app_iff, Hr. split; [intros [H|H]; [now apply Hd|tauto]|]. intros H. destruct (mem i (dkeys d)) eqn:Ei; [left; now apply mem_In|right; split; [exact H|now apply mem_not_In]]. }
  split; [exact L|]. assert (Len : List.length (dkeys d ++ rest) = n).
  { rewrite <- E. destruct L as [N' M']. apply Nat.le_antisymm; apply NoDup_incl_length; auto; intros i Hi; [apply M, M', Hi|apply M', M, Hi]. }
  set (f := map (fun s => qn (List.length s)) (dvals d)).
  assert (F : map (fun i => num (lost d i)) (dkeys d) = f).
  { unfold f, dvals, dkeys. rewrite !map_map. apply map_ext_in. intros [k v] H. cbn [fst snd]. unfold lost. apply (In_dget _ _ _ Wd) in H. now rewrite H. }
  assert (Z0 : forall x, In x (map (fun i => num (lost d i)) rest) -> x = 0).
  { intros x H. apply in_map_iff in H. destruct H as (i & <- & H). apply Hr in H. unfold lost. destruct (dget d i) as [v|] eqn:Ei; [|reflexivity]. exfalso. apply (proj2 H). apply In_dkeys. eauto. }
  assert (Fn : forall x, In x f -> 0 <= x) by (intros x H; apply in_map_iff in H; destruct H as (s & <- & _); apply num_nonneg).
  rewrite map_app, F. unfold fail_effect_sites. fold f. cbn [m_avg m_max m_min].
  assert (Lf : List.length f = List.length (dkeys d)) by (unfold f, dvals, dkeys; now rewrite !map_length).
  rewrite app_length in Len. destruct (f ++ map (fun i => num (lost d i)) rest) as [|y r] eqn:Ey.
  { exfalso. apply app_eq_nil in Ey. destruct Ey as [E1 E2]. apply map_eq_nil in E2. rewrite E2, <- Lf, E1 in Len. cbn in Len. lia. }
  unfold summary. rewrite <- Ey. split; [|split].
  - rewrite app_length, map_length, Lf, Len. rewrite sum_app, qsum_sum. assert (S0 : sum_of (map (fun i => num (lost d i)) rest) == 0).
    { clear - Z0. induction (map (fun i => num (lost d i)) rest) as [|x r IH]; cbn; [reflexivity|]. rewrite IH by (intros; apply Z0; now right). rewrite (Z0 x (or_introl eq_refl)). ring. }
    rewrite S0. fold (qn n). field. assert (Pq := qn_pos n Pn). intros C. rewrite C in Pq. lra.
  - destruct f as [|x f']; [cbn [app] in Ey |- *; split|].
    + exists y. rewrite Ey. split; [now left|]. rewrite (Z0 y); [reflexivity|]. rewrite Ey. now left.
    + intros z Hz. rewrite (Z0 z Hz). lra.
    + destruct (maxl_greatest x f') as [(m & Hm & Em) U]. split; [exists m; split; [apply in_or_app; now left|exact Em]|]. intros z Hz. apply in_app_iff in Hz. destruct Hz as [Hz|Hz]; [now apply U|].
      rewrite (Z0 z Hz). rewrite <- Em. now apply Fn.
  - destruct f as [|x f']; [cbn [app] in Ey |- *; split|].
    + exists y. rewrite Ey. split; [now left|]. rewrite (Z0 y); [reflexivity|]. rewrite Ey. now left.
    + intros z Hz. rewrite (Z0 z Hz). lra.
    + destruct (Nat.eqb_spec (List.length (x :: f')) n) as [El|El].
      * assert (rest = []) as -> by (destruct rest; [reflexivity|cbn in Len; rewrite Lf in El; lia]). cbn [map]. rewrite app_nil_r. apply minl_least.
      * destruct rest as [|i rest'] eqn:Er; [exfalso; apply El; rewrite Lf, <- Len; cbn; lia|]. split.
        -- exists (num (lost d i)). split; [apply in_or_app; right; now left|]. rewrite (Z0 _ (or_introl eq_refl)). reflexivity.
        -- intros z Hz. apply in_app_iff in Hz. destruct Hz as [Hz|Hz]; [now apply Fn|]. rewrite (Z0 z Hz). lra.
Qed.
