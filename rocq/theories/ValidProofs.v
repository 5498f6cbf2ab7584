(** Proofs about the validation of statuses. *)
From Verif Require Import Base Dict MonadLib SetupModel LosRangeModel TopologyModel TopologySpec ValidModel ValidSpec.
From Verif Require TopologyProofs TopologyLemmas.
Local Open Scope list_scope.

Section Proofs.
Variable sec : seckey -> status.
Notation validate_link := (validate_link sec).
Notation validate_status := (validate_status sec).
Notation suits := (suits sec).

Lemma in_active s : status_in active_status s = true <-> deployed s.
Proof. unfold deployed. destruct s; vm_compute; split; intros H; auto; try discriminate; destruct H as [H|H]; discriminate. Qed.
Lemma in_inactive s : negb (status_in inactive_status s) = true <-> ~ excluded s.
Proof. unfold excluded. destruct s; vm_compute; split; intros H; auto; try discriminate; try (intros [E|E]; discriminate); exfalso; apply H; auto. Qed.
Lemma in_existing s : status_in [EXISTING] s = true <-> EXISTING = s.
Proof. destruct s; vm_compute; split; intros H; auto; discriminate. Qed.
Lemma is_existing s : beq s EXISTING = true <-> EXISTING = s.
Proof. rewrite beq_eq. split; auto. Qed.
Lemma end_sites_iff t l a b (P : status -> Prop) : dget (t_sites t) (l_tx l) = Some a -> dget (t_sites t) (l_rx l) = Some b ->
  (end_sites t l P <-> P (s_status a) /\ P (s_status b)).
Proof.
  intros A B. split.
  - intros H. split; [apply (H _ a (or_introl eq_refl) A)|apply (H _ b (or_intror eq_refl) B)].
  - intros [H1 H2] i s [->| ->] E; congruence.
Qed.
Lemma sectors_in_iff sts (P : status -> Prop) l : (forall s, status_in sts s = true <-> P s) -> (sectors_in sec sts l = true <-> end_sectors sec l P False).
Proof. intros H. unfold sectors_in, end_sectors. destruct (l_sectors l) as [[a b]|]; [|split; [discriminate|intros []]]. rewrite andb_true_iff, !H. reflexivity. Qed.
Lemma sectors_not_iff l : sectors_not_in sec inactive_status l = true <-> end_sectors sec l (fun s => ~ excluded s) True.
Proof. unfold sectors_not_in, end_sectors. destruct (l_sectors l) as [[a b]|]; [|tauto]. rewrite andb_true_iff, !in_inactive. reflexivity. Qed.
Lemma guard_iff b e : guard b e = Ok tt <-> b = true.
Proof. unfold guard. destruct b; split; auto; discriminate. Qed.
Lemma guard2 b c e : (do _ <- guard b e ; guard c e) = Ok tt <-> b = true /\ c = true.
Proof. unfold guard. destruct b, c; cbn; split; auto; try discriminate; intros [A B]; discriminate. Qed.
Lemma guard_two b c e : (do _ <- guard b e ; guard c e) = Ok tt \/ (do _ <- guard b e ; guard c e) = Err e.
Proof. destruct b, c; cbn; auto. Qed.

Lemma link_valid t k l : reachable t -> link_stored t k l ->
  (validate_link t l = Ok tt \/ validate_link t l = Err TopologyExn)
  /\ (validate_link t l = Ok tt <->
      (l_type l <> WIRELESS_ACCESS -> exists r, reverse_of t l r) /\ forall r, reverse_of t l r -> l_status r = l_status l /\ suits t l).
Proof.
  intros R HL. destruct (TopologyLemmas.get_reverse_exact t l k R HL) as (o & Eo & Ho). unfold ValidModel.validate_link. rewrite Eo. cbn [rbind].
  assert (RV : forall r, reverse_of t l r <-> o = Some r). { intros r. rewrite Ho. reflexivity. }
  destruct o as [r|].
  - replace (if beq (l_type l) WIRELESS_ACCESS then Ok tt else guard true TopologyExn) with (Ok tt : result unit) by (destruct (beq (l_type l) WIRELESS_ACCESS); reflexivity). cbn [rbind].
    assert (EX : exists r, reverse_of t l r) by (exists r; now apply RV).
    assert (AL : (forall r0, reverse_of t l r0 -> l_status r0 = l_status l /\ suits t l) <-> l_status r = l_status l /\ suits t l).
    { split; [intros H; apply H; now apply RV|]. intros H r0 Hr. apply RV in Hr. injection Hr as <-. exact H. }
    assert (SPEC : ((l_type l <> WIRELESS_ACCESS -> exists r, reverse_of t l r) /\ (forall r0, reverse_of t l r0 -> l_status r0 = l_status l /\ suits t l))
                   <-> l_status r = l_status l /\ suits t l). { rewrite AL. tauto. }
    rewrite SPEC. clear SPEC AL EX RV.
    destruct (beq_spec (l_status l) (l_status r)) as [Es|Ns]; cbn [guard rbind]; [|split; [now right|]; split; [discriminate|intros [E _]; congruence]].
    assert (HI := TopologyProofs.inv_reachable t R). destruct (TopologyProofs.i_links t HI _ _ HL) as (_ & Ta & Tb & _). apply dmem_Some in Ta, Tb. destruct Ta as [a Ea], Tb as [b Eb].
    unfold lookup_site. rewrite Ea, Eb. cbn [rbind].
    assert (SU : (l_status r = l_status l /\ suits t l) <-> suits t l) by (split; [tauto|intros H; auto]). rewrite SU. clear SU. unfold ValidSpec.suits.
    rewrite !(end_sites_iff t l a b _ Ea Eb). rewrite <- !is_existing, <- !(in_active (s_status _)), <- !(in_inactive (s_status _)), <- sectors_not_iff.
    rewrite <- (sectors_in_iff [EXISTING] (eq EXISTING) l in_existing), <- (sectors_in_iff active_status deployed l in_active).
    destruct (l_status l).
    + split; [apply guard_two|]. rewrite guard2, andb_true_iff.
      split; [intros H; split; [discriminate|split; [tauto|discriminate]]|]. intros (_ & H & _). destruct (H eq_refl). tauto.
    + split; [apply guard_two|]. rewrite guard2, andb_true_iff.
      split; [intros H; split; [tauto|split; discriminate]|]. intros (H & _ & _). destruct (H eq_refl). tauto.
    + split; [apply guard_two|]. rewrite guard2, andb_true_iff.
      split; [intros H; split; [discriminate|split; [discriminate|tauto]]|]. intros (_ & _ & H). destruct (H eq_refl). tauto.
    + split; [now left|]. split; [intros _; split; [discriminate|split; discriminate]|reflexivity].
    + split; [now left|]. split; [intros _; split; [discriminate|split; discriminate]|reflexivity].
  - assert (AL : forall r0, ~ reverse_of t l r0) by (intros r0 H; apply RV in H; discriminate).
    destruct (beq_spec (l_type l) WIRELESS_ACCESS) as [Et|Nt]; cbn [guard rbind].
    + split; [now left|]. split; [|reflexivity]. intros _. split; [intros N; contradiction|]. intros r0 H. now apply AL in H.
    + split; [now right|]. split; [discriminate|]. intros [H _]. destruct (H Nt) as [r0 Hr]. now apply AL in Hr.
Qed.

Lemma fold_unit {A} (f : A -> result unit) l : (forall x, In x l -> f x = Ok tt \/ f x = Err TopologyExn) ->
  (foldM (fun _ x => f x) tt l = Ok tt \/ foldM (fun _ x => f x) tt l = Err TopologyExn) /\ (foldM (fun _ x => f x) tt l = Ok tt <-> forall x, In x l -> f x = Ok tt).
Proof.
  induction l as [|x l IH]; intros H; cbn [foldM]; [split; [now left|]; split; [intros _ x []|reflexivity]|].
  destruct IH as [IH1 IH2]; [intros y Hy; apply H; now right|]. destruct (H x (or_introl eq_refl)) as [E|E]; rewrite E; cbn [rbind].
  - split; [exact IH1|]. rewrite IH2. split; [intros G y [<-|Hy]; auto|]. intros G y Hy. apply G. now right.
  - split; [now right|]. split; [discriminate|]. intros G. rewrite (G x (or_introl eq_refl)) in E. discriminate.
Qed.
Lemma stored_val t l : reachable t -> (In l (dvals (t_links t)) <-> exists k, link_stored t k l).
Proof.
  intros R. apply In_dvals. exact (TopologyProofs.iw_links t (TopologyProofs.inv_reachable t R)).
Qed.
Lemma status_valid t : reachable t ->
  (validate_status t = Ok tt \/ validate_status t = Err TopologyExn)
  /\ (validate_status t = Ok tt <-> forall k l, link_stored t k l ->
        (l_type l <> WIRELESS_ACCESS -> exists r, reverse_of t l r) /\ forall r, reverse_of t l r -> l_status r = l_status l /\ suits t l).
Proof.
  intros R. destruct (fold_unit (validate_link t) (dvals (t_links t))) as [A B].
  - intros l Hl. apply (stored_val t l R) in Hl. destruct Hl as [k Hl]. apply (link_valid t k l R Hl).
  - split; [exact A|]. unfold ValidModel.validate_status. rewrite B. split.
    + intros H k l Hl. apply (link_valid t k l R Hl). apply H. apply (stored_val t l R). eauto.
    + intros H l Hl. apply (stored_val t l R) in Hl. destruct Hl as [k Hl]. apply (link_valid t k l R Hl). eauto.
Qed.
Lemma access_rx_cn l : l_type l = WIRELESS_ACCESS <-> l_wireless l = true /\ l_rx_cn l = true.
Proof. unfold l_type. destruct (l_wireless l), (l_rx_cn l); cbn; split; intros H; try discriminate; try tauto; destruct H; discriminate. Qed.
(** links to clients have no reverse, so nothing is checked about them *)
Lemma access_unchecked t : reachable t -> typed t ->
  (validate_status t = Ok tt <-> forall k l, link_stored t k l -> l_type l <> WIRELESS_ACCESS ->
     exists r, reverse_of t l r /\ l_status r = l_status l /\ suits t l).
Proof.
  intros R T. rewrite (proj2 (status_valid t R)). split.
  - intros H k l Hl Nt. destruct (H k l Hl) as [A B]. destruct (A Nt) as [r Hr]. exists r. split; [exact Hr|]. now apply B.
  - intros H k l Hl. split; [intros Nt; destruct (H k l Hl Nt) as (r & Hr & _); eauto|]. intros r Hr.
    destruct (eqb_dec (l_type l) WIRELESS_ACCESS) as [Et|Nt].
    + exfalso. apply access_rx_cn in Et. destruct Hr as (k' & Hk' & E1 & E2). destruct (T k l Hl) as [_ T1]. destruct (T k' r Hk') as [T2 _].
      assert (HI := TopologyProofs.inv_reachable t R). destruct (TopologyProofs.i_links t HI _ _ Hl) as (_ & _ & Tb & _). apply dmem_Some in Tb. destruct Tb as [b Eb].
      apply (T2 b); [now rewrite E1|]. apply (T1 b Eb). tauto.
    + destruct (H k l Hl Nt) as (r' & (k1 & Hk1 & A1 & A2) & B). destruct Hr as (k2 & Hk2 & C1 & C2).
      assert (HI := TopologyProofs.inv_reachable t R). destruct (TopologyProofs.link_unique t k1 r' k2 r HI Hk1 Hk2) as [_ <-]; [congruence|congruence|]. exact B.
Qed.
Lemma wired_refused t k l : reachable t -> typed t -> link_stored t k l -> l_wireless l = false -> deployed (l_status l) -> l_sectors l = None ->
  validate_status t = Err TopologyExn.
Proof.
  intros R T Hl Hw Hd Hs. destruct (status_valid t R) as [[E|E] _]; [|exact E]. exfalso. assert (E2 := proj1 (access_unchecked t R T) E).
  destruct (E2 k l Hl) as (r & _ & _ & S1 & S2 & _); [unfold l_type; rewrite Hw; discriminate|]. unfold end_sectors in S1, S2. rewrite Hs in S1, S2.
  destruct Hd as [Hd|Hd]; [now apply S2|now apply S1].
Qed.
End Proofs.
