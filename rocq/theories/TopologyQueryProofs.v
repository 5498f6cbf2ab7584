(** The remaining topology queries report exactly what is stored. *)
From Verif Require Import Base Dict TopologyModel TopologySpec TopologyProofs TopologyLemmas.

Lemma in_filter_iff {A} `{EqB A} (f : option (list A)) x :
  in_filter f x = true <-> match f with None => True | Some l => In x l end.
Proof. destruct f; simpl; [apply mem_In|tauto]. Qed.

Definition passes {A} (f : option (list A)) (x : A) : Prop := match f with None => True | Some l => In x l end.

Lemma get_site_ids_exact t sf tf : reachable t ->
  NoDup (get_site_ids t sf tf) /\
  forall i, In i (get_site_ids t sf tf) <->
    exists s, dget (t_sites t) i = Some s /\ passes sf (s_status s) /\ passes tf (s_type s).
Proof.
  intros Hr. apply inv_reachable in Hr. unfold get_site_ids. split.
  - assert (Hn : NoDup (map fst (t_sites t))) by apply (iw_sites t Hr).
    revert Hn. generalize (t_sites t). intros d Hn. induction d as [|p r IH]; simpl in *; [constructor|].
    inversion Hn as [|? ? Hp Hnr]; subst. destruct (_ && _); simpl; [constructor; [|auto]|auto].
    intros Hin. apply Hp. apply in_map_iff in Hin. destruct Hin as (q & Eq & Hq). apply filter_In in Hq.
    rewrite <- Eq. apply in_map. tauto.
  - intros i. rewrite in_map_iff. split.
    + intros ([j s] & <- & Hin). apply filter_In in Hin. simpl in *. destruct Hin as [Hin Hf].
      apply andb_true_iff in Hf. rewrite !in_filter_iff in Hf. exists s. split; [|exact Hf].
      apply In_dget; [apply Hr|exact Hin].
    + intros (s & Es & Hf). exists (i, s). split; [reflexivity|]. apply filter_In. split; [now apply dget_In|].
      simpl. apply andb_true_iff. rewrite !in_filter_iff. exact Hf.
Qed.

Lemma get_link_pairs_exact t sf tf a b : reachable t ->
  (In (a, b) (get_link_site_id_pairs t sf tf) <->
   exists k l, link_stored t k l /\ l_tx l = a /\ l_rx l = b /\ passes sf (l_status l) /\ passes tf (l_type l)).
Proof.
  intros Hr. apply inv_reachable in Hr. unfold get_link_site_id_pairs, link_stored. rewrite in_map_iff. split.
  - intros ([k l] & E & Hin). apply filter_In in Hin. simpl in *. destruct Hin as [Hin Hf].
    inversion E; subst. apply andb_true_iff in Hf. rewrite !in_filter_iff in Hf. exists k, l.
    split; [apply In_dget; [apply Hr|exact Hin]|]. auto.
  - intros (k & l & El & <- & <- & Hf). exists (k, l). split; [reflexivity|]. apply filter_In.
    split; [now apply dget_In|]. simpl. apply andb_true_iff. rewrite !in_filter_iff. exact Hf.
Qed.

Lemma get_sectorless_exact t a b : reachable t ->
  (In (a, b) (get_sectorless_links t) <->
   exists k l, link_stored t k l /\ l_tx l = a /\ l_rx l = b /\ l_wireless l = true /\ l_sectors l = None).
Proof.
  intros Hr. apply inv_reachable in Hr. unfold get_sectorless_links, link_stored. rewrite in_map_iff. split.
  - intros ([k l] & E & Hin). apply filter_In in Hin. simpl in *. destruct Hin as [Hin Hf].
    inversion E; subst. exists k, l. split; [apply In_dget; [apply Hr|exact Hin]|].
    unfold l_type, is_out_of_sector in Hf. destruct (l_wireless l); [|discriminate Hf].
    destruct (l_sectors l); [destruct (l_rx_cn l); discriminate Hf|]. auto.
  - intros (k & l & El & <- & <- & Hw & Hs). exists (k, l). split; [reflexivity|]. apply filter_In.
    split; [now apply dget_In|]. simpl. unfold l_type, is_out_of_sector. rewrite Hw, Hs.
    destruct (l_rx_cn l); reflexivity.
Qed.

(** co-located groups *)
Definition at_loc (c : Z * Z * Z) (d : dict string site) : list string :=
  map fst (filter (fun p => beq (s_loc (snd p)) c) d).
Lemma colocated_fold d : forall acc c,
  dget (fold_left (fun acc p => dappend acc (s_loc (snd p)) (fst p)) d acc) c =
  match dget acc c, at_loc c d with
  | None, [] => None
  | None, l => Some l
  | Some r, l => Some (r ++ l)
  end.
Proof.
  induction d as [|p r IH]; intros acc c; simpl.
  - destruct (dget acc c); [now rewrite app_nil_r|reflexivity].
  - rewrite IH. unfold dappend, at_loc. simpl. rewrite dget_set.
    rewrite (beq_sym (s_loc (snd p)) c).
    destruct (beq_spec c (s_loc (snd p))) as [->|Hn]; simpl; [|reflexivity].
    destruct (dget acc (s_loc (snd p))); simpl; [now rewrite <- app_assoc|reflexivity].
Qed.
Lemma colocated_exact t c : reachable t ->
  (forall i, (exists g, dget (get_colocated_sites t) c = Some g /\ In i g) <->
             exists s, dget (t_sites t) i = Some s /\ s_loc s = c) /\
  (forall g, dget (get_colocated_sites t) c = Some g -> g <> [] /\ NoDup g).
Proof.
  intros Hr. apply inv_reachable in Hr. unfold get_colocated_sites.
  pose proof (colocated_fold (t_sites t) [] c) as Hf. simpl in Hf.
  assert (Hin : forall i, In i (at_loc c (t_sites t)) <-> exists s, dget (t_sites t) i = Some s /\ s_loc s = c).
  { intros i. unfold at_loc. rewrite in_map_iff. split.
    - intros ([j s] & <- & Hq). apply filter_In in Hq. simpl in *. destruct Hq as [Hq Hb].
      exists s. split; [apply In_dget; [apply Hr|exact Hq]|]. now apply beq_true in Hb.
    - intros (s & Es & <-). exists (i, s). split; [reflexivity|]. apply filter_In. split; [now apply dget_In|].
      simpl. apply beq_refl. }
  assert (Hnd : NoDup (at_loc c (t_sites t))).
  { unfold at_loc. assert (Hn : NoDup (map fst (t_sites t))) by apply (iw_sites t Hr).
    revert Hn. generalize (t_sites t). intros d Hn. induction d as [|p r IH]; simpl in *; [constructor|].
    inversion Hn as [|? ? Hp Hnr]; subst. destruct (beq _ _); simpl; [constructor; [|auto]|auto].
    intros Hq. apply Hp. apply in_map_iff in Hq. destruct Hq as (q & Eq & Hq). apply filter_In in Hq.
    rewrite <- Eq. apply in_map. tauto. }
  split.
  - intros i. rewrite <- Hin, Hf. destruct (at_loc c (t_sites t)) as [|j l].
    + split; [intros (g & E & _); discriminate|intros []].
    + split; [intros (g & E & Hi); inversion E; now subst|intros Hi; eauto].
  - intros g. rewrite Hf. destruct (at_loc c (t_sites t)) as [|j l]; [discriminate|].
    intros E; inversion E; subst. split; [discriminate|exact Hnd].
Qed.

(** sectors by site and status *)
Lemma sector_ids_fold sf (d : dict string sector) : forall acc s (k : string),
  In k (row (fold_left (fun acc p => if mem (x_status (snd p)) sf
     then dset acc (x_site (snd p)) (sadd (fst p) (row acc (x_site (snd p)))) else acc) d acc) s) <->
  In k (row acc s) \/ exists x, In (k, x) d /\ x_site x = s /\ In (x_status x) sf.
Proof.
  induction d as [|[k1 x1] r IH]; intros acc s k; simpl.
  - split; [auto|intros [H|(x & [] & _)]; exact H].
  - rewrite IH. simpl. destruct (mem (x_status x1) sf) eqn:Em.
    + apply mem_In in Em. destruct (eqb_dec s (x_site x1)) as [->|Hn].
      * rewrite row_set_eq, sadd_In. split.
        -- intros [[->|H]|(x & H & Hx)]; [right; exists x1; auto|auto|right; exists x; tauto].
        -- intros [H|(x & [E|H] & Hx)]; [auto|inversion E; subst; auto|right; exists x; auto].
      * rewrite row_set_neq by exact Hn. split.
        -- intros [H|(x & H & Hx)]; [auto|right; exists x; tauto].
        -- intros [H|(x & [E|H] & Hx)]; [auto|inversion E; subst; destruct Hx; congruence|right; exists x; auto].
    + apply mem_not_In in Em. split.
      * intros [H|(x & H & Hx)]; [auto|right; exists x; tauto].
      * intros [H|(x & [E|H] & Hx)]; [auto|inversion E; subst; tauto|right; exists x; auto].
Qed.
Lemma get_sector_ids_exact t sf s k : reachable t ->
  (listed_in (get_sector_ids t sf) s k <-> exists x, sector_stored t k x /\ x_site x = s /\ In (x_status x) sf).
Proof.
  intros Hr. apply inv_reachable in Hr. rewrite listed_row. unfold get_sector_ids.
  rewrite sector_ids_fold. unfold sector_stored. split.
  - intros [[]|(x & Hin & Hx)]. exists x. split; [apply In_dget; [apply Hr|exact Hin]|exact Hx].
  - intros (x & Ex & Hx). right. exists x. split; [now apply dget_In|exact Hx].
Qed.

Lemma get_site_polarities_exact t p i : reachable t ->
  (In i (get_site_polarities t p) <->
   exists s, dget (t_sites t) i = Some s /\ active (s_status s) = true /\ s_type s <> CN /\ s_polarity s = p).
Proof.
  intros Hr. destruct (get_site_ids_exact t (Some [PROPOSED; EXISTING]) (Some [POP; DN]) Hr) as [_ Hi].
  unfold get_site_polarities. rewrite filter_In, Hi. split.
  - intros [(s & Es & Hst & Hty) Hp]. rewrite Es in Hp. apply beq_true in Hp. exists s. split; [exact Es|].
    simpl in *. destruct Hst as [<-|[<-|[]]]; destruct Hty as [<-|[<-|[]]]; repeat split; auto; discriminate.
  - intros (s & Es & Ha & Ht & Hp). rewrite Es. split.
    + exists s. split; [reflexivity|]. simpl. destruct (s_status s); try discriminate; destruct (s_type s); try congruence; auto.
    + subst p. apply beq_refl.
Qed.

(** sector-to-sector connectivity *)
Definition joins (l : link) (a b : string) : Prop :=
  exists ka kb, l_sectors l = Some (ka, kb) /\ key_id ka = a /\ key_id kb = b.
Lemma joins_unique t k1 l1 k2 l2 a b : Inv t -> dget (t_links t) k1 = Some l1 -> dget (t_links t) k2 = Some l2 ->
  joins l1 a b -> joins l2 a b -> k1 = k2 /\ l1 = l2.
Proof.
  intros HI E1 E2 (a1 & b1 & S1 & A1 & B1) (a2 & b2 & S2 & A2 & B2).
  destruct (i_links t HI _ _ E1) as (_ & T1 & R1 & G1). destruct (i_links t HI _ _ E2) as (_ & T2 & R2 & G2).
  unfold link_args_ok in *. rewrite S1 in G1. rewrite S2 in G2. destruct G1 as [G1 G1']. destruct G2 as [G2 G2'].
  apply (link_unique t k1 l1 k2 l2); auto.
  - rewrite <- G1, <- G2. apply key_id_site_inj; try congruence; rewrite ?G1, ?G2; now apply (site_no_dash t).
  - rewrite <- G1', <- G2'. apply key_id_site_inj; try congruence; rewrite ?G1', ?G2'; now apply (site_no_dash t).
Qed.
Lemma sector_conn_fold (f : seckey * seckey -> string * string) (d : dict string link) : forall acc a b k,
  (forall k1 l1 k2 l2 ab1 ab2, In (k1, l1) d -> In (k2, l2) d -> l_sectors l1 = Some ab1 -> l_sectors l2 = Some ab2 ->
     f ab1 = f ab2 -> l_id l1 = l_id l2) ->
  (forall k1 l1 ab1, In (k1, l1) d -> l_sectors l1 = Some ab1 -> get2 acc (fst (f ab1)) (snd (f ab1)) = None) ->
  get2 (fold_left (fun acc p => match l_sectors (snd p) with
                          | None => acc
                          | Some ab => set2 acc (fst (f ab)) (snd (f ab)) (l_id (snd p))
                          end) d acc) a b = Some k <->
  get2 acc a b = Some k \/ exists k1 l1 ab1, In (k1, l1) d /\ l_sectors l1 = Some ab1 /\ f ab1 = (a, b) /\ l_id l1 = k.
Proof.
  intros acc a b k Hu Hacc.
  assert (Hgen : forall d', incl d' d ->
    forall acc', (forall a b k, get2 acc' a b = Some k -> get2 acc a b = Some k \/
         exists k1 l1 ab1, In (k1, l1) d /\ l_sectors l1 = Some ab1 /\ f ab1 = (a, b) /\ l_id l1 = k) ->
    (get2 (fold_left (fun acc p => match l_sectors (snd p) with
                          | None => acc
                          | Some ab => set2 acc (fst (f ab)) (snd (f ab)) (l_id (snd p))
                          end) d' acc') a b = Some k <->
     get2 acc' a b = Some k \/ exists k1 l1 ab1, In (k1, l1) d' /\ l_sectors l1 = Some ab1 /\ f ab1 = (a, b) /\ l_id l1 = k)).
  { induction d' as [|[k1 l1] r IH]; intros Hd' acc' Hac; simpl.
    - split; [auto|intros [H|(? & ? & ? & [] & _)]; exact H].
    - assert (Hr : incl r d) by (intros q Hq; apply Hd'; now right).
      assert (Hin1 : In (k1, l1) d) by (apply Hd'; now left).
      destruct (l_sectors l1) as [ab|] eqn:Es.
      + assert (Hac' : forall a b k, get2 (set2 acc' (fst (f ab)) (snd (f ab)) (l_id l1)) a b = Some k ->
           get2 acc a b = Some k \/
           exists k1 l1 ab1, In (k1, l1) d /\ l_sectors l1 = Some ab1 /\ f ab1 = (a, b) /\ l_id l1 = k).
        { intros a0 b0 k0. rewrite get2_set2.
          destruct (beq_spec a0 (fst (f ab))) as [->|Ha]; [|apply Hac].
          destruct (beq_spec b0 (snd (f ab))) as [->|Hb]; simpl; [|apply Hac].
          intros E; inversion E; subst. right. exists k1, l1, ab. rewrite <- surjective_pairing. auto. }
        rewrite (IH Hr _ Hac'). rewrite get2_set2. split.
        * intros [H|(k2 & l2 & ab2 & H1 & H2 & H3)].
          -- destruct (beq_spec a (fst (f ab))) as [->|Ha]; simpl in H; [|auto].
             destruct (beq_spec b (snd (f ab))) as [->|Hb]; simpl in H; [|auto].
             inversion H; subst. right. exists k1, l1, ab. rewrite <- surjective_pairing. auto.
          -- right. exists k2, l2, ab2. auto.
        * intros [H|(k2 & l2 & ab2 & [E|H1] & H2 & H3 & H4)].
          -- left. destruct (beq_spec a (fst (f ab))) as [->|Ha]; simpl; [|exact H].
             destruct (beq_spec b (snd (f ab))) as [->|Hb]; simpl; [|exact H].
             apply Hac in H. destruct H as [H|(k2 & l2 & ab2 & H1 & H2 & H3 & H4)].
             ++ rewrite (Hacc k1 l1 ab Hin1 Es) in H. discriminate.
             ++ rewrite <- H4. f_equal. apply (Hu k1 l1 k2 l2 ab ab2); auto. rewrite H3. now rewrite <- surjective_pairing.
          -- inversion E; subst. left. rewrite Es in H2. inversion H2; subst. rewrite H3. simpl.
             now rewrite !beq_refl.
          -- right. exists k2, l2, ab2. auto.
      + rewrite (IH Hr acc' Hac). split.
        * intros [H|(k2 & l2 & ab2 & H1 & H2 & H3)]; [auto|]. right. exists k2, l2, ab2. auto.
        * intros [H|(k2 & l2 & ab2 & [E|H1] & H2 & H3 & H4)]; [auto|inversion E; subst; congruence|].
          right. exists k2, l2, ab2. auto. }
  apply Hgen; [apply incl_refl|auto].
Qed.

Lemma fold_left_ext {A B} (f g : A -> B -> A) l : (forall a b, f a b = g a b) -> forall a, fold_left f l a = fold_left g l a.
Proof. intros H. induction l as [|x r IH]; intros a; simpl; [reflexivity|]. now rewrite H, IH. Qed.

Lemma sector_connectivity_exact t a b k : reachable t ->
  (edge_in (sector_connectivity t) a b k <-> exists l, link_stored t k l /\ joins l a b) /\
  (edge_in (sector_connectivity_reverse t) b a k <-> exists l, link_stored t k l /\ joins l a b).
Proof.
  intros Hr. assert (HI := inv_reachable t Hr). rewrite !edge_get2.
  assert (Hin : forall k1 l1, In (k1, l1) (t_links t) <-> dget (t_links t) k1 = Some l1).
  { intros k1 l1. rewrite dget_In_iff by apply HI. reflexivity. }
  assert (Huniq : forall k1 l1 k2 l2 a1 b1 a2 b2, In (k1, l1) (t_links t) -> In (k2, l2) (t_links t) ->
     l_sectors l1 = Some (a1, b1) -> l_sectors l2 = Some (a2, b2) ->
     key_id a1 = key_id a2 -> key_id b1 = key_id b2 -> l_id l1 = l_id l2).
  { intros k1 l1 k2 l2 a1 b1 a2 b2 H1 H2 S1 S2 Ha Hb. apply Hin in H1. apply Hin in H2.
    destruct (joins_unique t k1 l1 k2 l2 (key_id a1) (key_id b1) HI H1 H2) as [_ ->]; [| |reflexivity].
    - exists a1, b1. auto.
    - exists a2, b2. auto. }
  split.
  - unfold sector_connectivity.
    rewrite (fold_left_ext _ (fun acc p => match l_sectors (snd p) with
                          | None => acc
                          | Some ab => set2 acc (fst ((fun ab => (key_id (fst ab), key_id (snd ab))) ab))
                                 (snd ((fun ab => (key_id (fst ab), key_id (snd ab))) ab)) (l_id (snd p))
                          end)) by (intros acc p; destruct (l_sectors (snd p)) as [[? ?]|]; reflexivity).
    rewrite (sector_conn_fold (fun ab => (key_id (fst ab), key_id (snd ab)))).
    + split.
      * intros [H|(k1 & l1 & [a1 b1] & H1 & H2 & H3 & H4)]; [discriminate|].
        apply Hin in H1. destruct (i_links t HI _ _ H1) as (K & _). exists l1.
        inversion H3; subst. split; [exact H1|]. exists a1, b1. auto.
      * intros (l & El & a1 & b1 & S1 & A1 & B1). right. exists k, l, (a1, b1).
        destruct (i_links t HI _ _ El) as (K & _). repeat split; auto; [now apply Hin|]. simpl. congruence.
    + intros k1 l1 k2 l2 [a1 b1] [a2 b2] H1 H2 S1 S2 E. inversion E. eapply Huniq; eauto.
    + intros; reflexivity.
  - unfold sector_connectivity_reverse.
    rewrite (fold_left_ext _ (fun acc p => match l_sectors (snd p) with
                          | None => acc
                          | Some ab => set2 acc (fst ((fun ab => (key_id (snd ab), key_id (fst ab))) ab))
                                 (snd ((fun ab => (key_id (snd ab), key_id (fst ab))) ab)) (l_id (snd p))
                          end)) by (intros acc p; destruct (l_sectors (snd p)) as [[? ?]|]; reflexivity).
    rewrite (sector_conn_fold (fun ab => (key_id (snd ab), key_id (fst ab)))).
    + split.
      * intros [H|(k1 & l1 & [a1 b1] & H1 & H2 & H3 & H4)]; [discriminate|].
        apply Hin in H1. destruct (i_links t HI _ _ H1) as (K & _). exists l1.
        inversion H3; subst. split; [exact H1|]. exists a1, b1. auto.
      * intros (l & El & a1 & b1 & S1 & A1 & B1). right. exists k, l, (a1, b1).
        destruct (i_links t HI _ _ El) as (K & _). repeat split; auto; [now apply Hin|]. simpl. congruence.
    + intros k1 l1 k2 l2 [a1 b1] [a2 b2] H1 H2 S1 S2 E. inversion E. eapply Huniq; eauto.
    + intros; reflexivity.
Qed.
