(** Proofs: reading back a whole file. *)
From Coq Require Import ZArith QArith Ascii Lia Permutation.
From Verif Require Import Base Dict TopologyModel SetupModel LosRangeModel RfModel ConfModel MonadLib KmlModel KmlSpec KmlTextProofs KmlMarkProofs.
From Verif Require TopologyProofs.
Local Open Scope string_scope.
Local Open Scope list_scope.

(** Groups *)
Lemma group_flat {A K} `{EqB K} (key : A -> K) l : flat_map snd (group_by key l) = l.
Proof.
  induction l as [|x l IH]; [reflexivity|]. cbn [group_by]. destruct (group_by key l) as [|[k g] gs]; [cbn in *; now subst|].
  destruct (beq (key x) k); cbn in *; now rewrite IH.
Qed.
Lemma group_key {A K} `{EqB K} (key : A -> K) l k g : In (k, g) (group_by key l) -> g <> [] /\ forall x, In x g -> key x = k /\ In x l.
Proof.
  revert k g. induction l as [|x l IH]; intros k g; [contradiction|]. cbn [group_by]. destruct (group_by key l) as [|[k' g'] gs] eqn:E.
  - cbn. intros [F|[]]. injection F as <- <-. split; [discriminate|]. intros y [<-|[]]. auto.
  - destruct (beq_spec (key x) k') as [Ek|Nk]; cbn [In].
    + intros [F|F].
      * injection F as <- <-. split; [discriminate|]. intros y [<-|Hy]; [auto|]. destruct (proj2 (IH k' g' (or_introl eq_refl)) y Hy). auto.
      * destruct (IH k g (or_intror F)) as [A1 A2]. split; [exact A1|]. intros y Hy. destruct (A2 y Hy). auto.
    + intros [F|F].
      * injection F as <- <-. split; [discriminate|]. intros y [<-|[]]. auto.
      * destruct (IH k g F) as [A1 A2]. split; [exact A1|]. intros y Hy. destruct (A2 y Hy). auto.
Qed.
Lemma link_order_perm ls : Permutation (link_order ls) ls.
Proof.
  unfold link_order. set (s := TopologyModel.sort_by _ ls). transitivity s; [|apply TopologyProofs.sort_by_perm].
  rewrite <- (group_flat e_hash s) at 2. induction (group_by e_hash s) as [|g gs IH]; [constructor|]. cbn [flat_map].
  apply Permutation_app; [apply TopologyProofs.sort_by_perm|exact IH].
Qed.

(** Partition by a key *)
Lemma filter_or {A} (f g : A -> bool) l : (forall x, f x = true -> g x = false) -> Permutation (filter (fun x => f x || g x) l) (filter f l ++ filter g l).
Proof.
  intros H. induction l as [|x l IH]; [constructor|]. cbn [filter]. destruct (f x) eqn:F; cbn [orb].
  - rewrite (H x F). cbn [app]. now constructor.
  - destruct (g x); [|exact IH]. transitivity (x :: filter f l ++ filter g l); [now constructor|apply Permutation_middle].
Qed.
Lemma partition_by {A K} `{EqB K} (key : A -> K) (l : list A) ks : NoDup ks ->
  Permutation (flat_map (fun k => filter (fun x => beq (key x) k) l) ks) (filter (fun x => mem (key x) ks) l).
Proof.
  induction ks as [|k ks IH]; intros N.
  - cbn. induction l; [constructor|exact IHl].
  - apply NoDup_cons_iff in N. destruct N as [N1 N2]. cbn [flat_map]. rewrite (IH N2). symmetry.
    rewrite <- filter_or.
    + apply Permutation_refl'. apply filter_ext. intros x. cbn [mem]. reflexivity.
    + intros x E. apply beq_true in E. rewrite E. now apply mem_not_In.
Qed.
Lemma filter_all {A} (f : A -> bool) l : (forall x, f x = true) -> filter f l = l.
Proof. intros H. induction l as [|x l IH]; [reflexivity|]. cbn. now rewrite H, IH. Qed.
Lemma nodup_status : NoDup all_status.
Proof. unfold all_status. repeat (constructor; [cbn; intuition discriminate|]). constructor. Qed.
Lemma all_sites t : Permutation (flat_map (sites_of t) all_status) (kt_sites t).
Proof.
  transitivity (flat_map (fun k => filter (fun x => beq (k_status x) k) (kt_sites t)) all_status).
  - induction all_status as [|k ks IH]; [constructor|]. cbn [flat_map]. apply Permutation_app; [apply TopologyProofs.sort_by_perm|exact IH].
  - rewrite (partition_by k_status (kt_sites t) all_status nodup_status), filter_all; [apply Permutation_refl|]. intros x. destruct (k_status x); reflexivity.
Qed.
Lemma all_links t : Permutation (flat_map (links_of t) all_status) (kt_links t).
Proof.
  transitivity (flat_map (fun k => filter (fun x => beq (e_status x) k) (kt_links t)) all_status).
  - induction all_status as [|k ks IH]; [constructor|]. cbn [flat_map]. apply Permutation_app; [apply TopologyProofs.sort_by_perm|exact IH].
  - rewrite (partition_by e_status (kt_links t) all_status nodup_status), filter_all; [apply Permutation_refl|]. intros x. destruct (e_status x); reflexivity.
Qed.
Lemma in_sites_of t st s : In s (sites_of t st) -> In s (kt_sites t) /\ k_status s = st.
Proof.
  intros H. apply (Permutation_in _ (TopologyProofs.sort_by_perm _ _)) in H. apply filter_In in H. destruct H as [A B]. apply beq_true in B. auto.
Qed.
Lemma in_links_of t st s : In s (links_of t st) -> In s (kt_links t) /\ e_status s = st.
Proof.
  intros H. apply (Permutation_in _ (TopologyProofs.sort_by_perm _ _)) in H. apply filter_In in H. destruct H as [A B]. apply beq_true in B. auto.
Qed.

Section reading.
Variables (num : Q -> string) (attribute : klink -> string -> option string) (pop : list string -> string).
Hypothesis Hnum : float_text num.
Hypothesis Hattr : attribute_text attribute.
Hypothesis Hpop : picks pop.

Definition run (ls : list (string * list placemark)) (r : read_state) : result read_state :=
  do xs <- mapM read_layer ls ; Ok (fold_left (read_step pop) xs r).
Lemma run_app a b r : run (a ++ b) r = do r' <- run a r ; run b r'.
Proof.
  unfold run. rewrite mapM_app. destruct (mapM read_layer a) as [xs|]; [|reflexivity]. cbn [rbind]. destruct (mapM read_layer b) as [ys|]; [|reflexivity].
  cbn [rbind]. now rewrite fold_left_app.
Qed.
Lemma run1 n ms fs r : text n = Ok n -> mapM read_mark ms = Ok fs -> run [(n, ms)] r = Ok (read_step pop r (n, fs)).
Proof. intros A B. unfold run, read_layer. cbn [mapM fst snd]. rewrite A, B. reflexivity. Qed.

Lemma run_site_folder k g r : Forall site_texts g -> (forall s, In s g -> k_type s = k /\ k_status s = rd_status r) ->
  exists raws, run (layers (site_folder num (k, g))) r = Ok (mkRead (rd_status r) (rd_sites r ++ raws) (rd_links r) (rd_demands r)) /\ Forall2 same_site g raws.
Proof.
  intros HT HK. cbn [site_folder layers flat_map fst snd]. unfold site_folder. cbn [layers flat_map fst snd].
  assert (E : exists fs, mapM read_mark (map (site_mark num) g) = Ok fs /\ Forall2 same_site g (map (extract_site pop k (rd_status r)) fs)).
  { induction HT as [|s g Hs HT IH]; [exists []; split; [reflexivity|constructor]|].
    destruct IH as (fs & E & F); [intros x Hx; apply HK; now right|]. cbn [map mapM]. rewrite (read_site num Hnum s Hs), E. cbn [rbind].
    eexists. split; [reflexivity|]. cbn [map]. constructor; [|exact F]. destruct (HK s (or_introl eq_refl)) as [K1 K2]. now apply site_back. }
  destruct E as (fs & E & F). exists (map (extract_site pop k (rd_status r)) fs). split; [|exact F].
  rewrite (run1 _ _ fs); [|destruct k; reflexivity|exact E]. f_equal. destruct k; reflexivity.
Qed.
Lemma run_site_folders gs : forall r, (forall k g, In (k, g) gs -> Forall site_texts g /\ forall s, In s g -> k_type s = k /\ k_status s = rd_status r) ->
  exists raws, run (flat_map layers (map (site_folder num) gs)) r = Ok (mkRead (rd_status r) (rd_sites r ++ raws) (rd_links r) (rd_demands r)) /\ Forall2 same_site (flat_map snd gs) raws.
Proof.
  induction gs as [|[k g] gs IH]; intros r H.
  - exists []. split; [|constructor]. cbn. rewrite app_nil_r. destruct r; reflexivity.
  - cbn [map flat_map]. rewrite run_app. destruct (H k g (or_introl eq_refl)) as [A B].
    destruct (run_site_folder k g r A B) as (r1 & E1 & F1). rewrite E1. cbn [rbind].
    destruct (IH (mkRead (rd_status r) (rd_sites r ++ r1) (rd_links r) (rd_demands r))) as (r2 & E2 & F2); [intros k' g' Hin; apply H; now right|].
    rewrite E2. cbn [rd_status rd_sites rd_links rd_demands]. exists (r1 ++ r2). split; [now rewrite app_assoc|]. now apply Forall2_app.
Qed.

Definition link_texts (l : klink) : Prop := site_texts (e_tx l) /\ site_texts (e_rx l).
Lemma run_link_folder t k g f r : link_folder num attribute t (k, g) = Ok f -> Forall link_texts g -> (forall l, In l g -> e_status l = rd_status r) ->
  exists raws ls, run (layers f) r = Ok (mkRead (rd_status r) (rd_sites r) (rd_links r ++ raws) (rd_demands r)) /\ Permutation ls g /\ Forall2 same_link ls raws.
Proof.
  intros Ef HT HK. unfold link_folder in Ef. cbn [fst snd] in Ef. destruct (mapM _ _) as [ms|] eqn:Em in Ef; [|discriminate]. cbn [rbind] in Ef. apply ok_inj in Ef. subst f.
  pose proof (link_order_perm g) as P. set (o := link_order g) in *. 
  assert (HT' : Forall link_texts o). { apply (Permutation_Forall (Permutation_sym P)), HT. }
  assert (HK' : forall l, In l o -> e_status l = rd_status r). { intros l Hl. apply HK. apply (Permutation_in _ P Hl). }
  cbn [layers flat_map].
  assert (E : exists fs, mapM read_mark ms = Ok fs /\ Forall2 same_link o (map (extract_link pop (rd_status r)) fs)).
  { apply mapM_ok in Em. clear P. induction Em as [|l m o' ms' Hm Em IH]; [exists []; split; [reflexivity|constructor]|].
    apply Forall_cons_iff in HT'. destruct HT' as [[T1 T2] HT']. destruct IH as (fs & E & F); [exact HT'|intros x Hx; apply HK'; now right|].
    destruct (read_link num attribute Hnum Hattr t l m T1 T2 Hm) as (c & Ec). cbn [mapM]. rewrite Ec, E. cbn [rbind].
    eexists. split; [reflexivity|]. cbn [map]. constructor; [|exact F]. apply link_back; [exact Hnum|exact Hpop|apply HK'; now left]. }
  destruct E as (fs & E & F). exists (map (extract_link pop (rd_status r)) fs), o. split; [|auto].
  rewrite (run1 _ _ fs); [|destruct k; reflexivity|exact E]. f_equal. destruct k; reflexivity.
Qed.
Lemma run_link_folders t gs fs : mapM (link_folder num attribute t) gs = Ok fs -> forall r,
  (forall k g, In (k, g) gs -> Forall link_texts g /\ forall l, In l g -> e_status l = rd_status r) ->
  exists raws ls, run (flat_map layers fs) r = Ok (mkRead (rd_status r) (rd_sites r) (rd_links r ++ raws) (rd_demands r)) /\ Permutation ls (flat_map snd gs) /\ Forall2 same_link ls raws.
Proof.
  intros Em. apply mapM_ok in Em. induction Em as [|[k g] f gs fs Hf Em IH]; intros r H.
  - exists [], []. split; [|split; constructor]. cbn. rewrite app_nil_r. destruct r; reflexivity.
  - cbn [flat_map]. rewrite run_app. destruct (H k g (or_introl eq_refl)) as [A B].
    destruct (run_link_folder t k g f r Hf A B) as (r1 & l1 & E1 & P1 & F1). rewrite E1. cbn [rbind].
    destruct (IH (mkRead (rd_status r) (rd_sites r) (rd_links r ++ r1) (rd_demands r))) as (r2 & l2 & E2 & P2 & F2); [intros k' g' Hin; apply (H k'); now right|].
    rewrite E2. cbn [rd_status rd_sites rd_links rd_demands]. exists (r1 ++ r2), (l1 ++ l2). split; [now rewrite app_assoc|].
    split; [now apply Permutation_app|now apply Forall2_app].
Qed.

Lemma run_status t st fs r : texts t -> status_folder num attribute t st = Ok fs ->
  exists st' rs rl ls, run (flat_map layers fs) r = Ok (mkRead st' (rd_sites r ++ rs) (rd_links r ++ rl) (rd_demands r))
    /\ Forall2 same_site (sites_of t st) rs /\ Permutation ls (links_of t st) /\ Forall2 same_link ls rl.
Proof.
  intros (_ & TS & TL & _) E. unfold status_folder in E.
  assert (C : (sites_of t st = [] /\ links_of t st = [] /\ fs = []) \/
    exists lf, mapM (link_folder num attribute t) (group_by e_type (links_of t st)) = Ok lf /\ fs = [Folder (status_name st) [] (map (site_folder num) (group_by k_type (sites_of t st)) ++ lf)]).
  { destruct (sites_of t st) as [|s0 ss] eqn:Es; destruct (links_of t st) as [|l0 ls] eqn:El.
    - left. apply ok_inj in E. auto.
    - right. destruct (mapM _ _) as [lf|] in E |- *; [|discriminate]. cbn [rbind] in E. apply ok_inj in E. eauto.
    - right. destruct (mapM _ _) as [lf|] in E |- *; [|discriminate]. cbn [rbind] in E. apply ok_inj in E. eauto.
    - right. destruct (mapM _ _) as [lf|] in E |- *; [|discriminate]. cbn [rbind] in E. apply ok_inj in E. eauto. }
  destruct C as [(E1 & E2 & ->)|(lf & E1 & ->)].
  - exists (rd_status r), [], [], []. rewrite E1, E2. split; [|split; [constructor|split; constructor]]. cbn. rewrite !app_nil_r. destruct r; reflexivity.
  - cbn [flat_map layers]. rewrite app_nil_r, flat_map_app.
    change ((status_name st, @nil placemark) :: ?x) with ([(status_name st, @nil placemark)] ++ x). rewrite run_app.
    rewrite (run1 _ _ []); [|destruct st; reflexivity|reflexivity].
    replace (read_step pop r (status_name st, [])) with (mkRead st (rd_sites r) (rd_links r) (rd_demands r)) by (destruct st; reflexivity).
    cbn [rbind]. rewrite run_app.
    destruct (run_site_folders (group_by k_type (sites_of t st)) (mkRead st (rd_sites r) (rd_links r) (rd_demands r))) as (rs & R1 & F1).
    { intros k g Hg. destruct (group_key _ _ _ _ Hg) as [_ G]. split.
      - apply Forall_forall. intros s Hs. destruct (G s Hs) as [_ Hin]. apply in_sites_of in Hin. rewrite Forall_forall in TS. now apply TS.
      - intros s Hs. destruct (G s Hs) as [Hk Hin]. apply in_sites_of in Hin. split; [exact Hk|apply Hin]. }
    rewrite R1. cbn [rbind rd_status rd_sites rd_links rd_demands].
    destruct (run_link_folders t _ _ E1 (mkRead st (rd_sites r ++ rs) (rd_links r) (rd_demands r))) as (rl & ls & R2 & P2 & F2).
    { intros k g Hg. destruct (group_key _ _ _ _ Hg) as [_ G]. split.
      - apply Forall_forall. intros s Hs. destruct (G s Hs) as [_ Hin]. apply in_links_of in Hin. rewrite Forall_forall in TL. now apply TL.
      - intros s Hs. destruct (G s Hs) as [Hk Hin]. apply in_links_of in Hin. apply Hin. }
    rewrite R2. cbn [rd_status rd_sites rd_links rd_demands]. rewrite group_flat in F1; rewrite group_flat in P2. exists st, rs, rl, ls. auto.
Qed.
Lemma run_statuses t sts fss : texts t -> mapM (status_folder num attribute t) sts = Ok fss -> forall r,
  exists st' rs rl ls, run (flat_map layers (List.concat fss)) r = Ok (mkRead st' (rd_sites r ++ rs) (rd_links r ++ rl) (rd_demands r))
    /\ Forall2 same_site (flat_map (sites_of t) sts) rs /\ Permutation ls (flat_map (links_of t) sts) /\ Forall2 same_link ls rl.
Proof.
  intros T Em. apply mapM_ok in Em. induction Em as [|st fs sts fss Hf Em IH]; intros r.
  - exists (rd_status r), [], [], []. split; [|split; [constructor|split; constructor]]. cbn. rewrite !app_nil_r. destruct r; reflexivity.
  - cbn [List.concat flat_map]. rewrite flat_map_app, run_app. destruct (run_status t st fs r T Hf) as (s1 & rs1 & rl1 & l1 & E1 & A1 & B1 & C1).
    rewrite E1. cbn [rbind]. destruct (IH (mkRead s1 (rd_sites r ++ rs1) (rd_links r ++ rl1) (rd_demands r))) as (s2 & rs2 & rl2 & l2 & E2 & A2 & B2 & C2).
    rewrite E2. cbn [rd_sites rd_links rd_demands]. exists s2, (rs1 ++ rs2), (rl1 ++ rl2), (l1 ++ l2). rewrite !app_assoc. split; [reflexivity|].
    split; [now apply Forall2_app|]. split; [now apply Permutation_app|now apply Forall2_app].
Qed.

Lemma read_demand ds d p : word (b_hash d) -> demand_mark ds d = Ok p -> exists f, read_mark p = Ok (f, Point (b_lon d) (b_lat d) 0).
Proof.
  intros W E. unfold demand_mark in E. destruct (if uniform _ then _ else _) as [z|] in E; [|discriminate]. cbn [rbind] in E. apply ok_inj in E. subst p.
  unfold read_mark. cbn [p_name p_data p_geometry p_mode]. rewrite (text_word _ W). eexists. reflexivity.
Qed.
Lemma connections_read ds : Forall (fun d => word (b_id d) /\ word (b_hash d) /\ Forall site_texts (b_sites d)) ds ->
  exists fs, mapM read_mark (flat_map connection_marks ds) = Ok fs.
Proof.
  intros H. apply mapM_total. intros p Hp. apply in_flat_map in Hp. destruct Hp as (d & Hd & Hp). rewrite Forall_forall in H. destruct (H d Hd) as (W & _ & S').
  unfold connection_marks in Hp. apply in_map_iff in Hp. destruct Hp as (s & <- & Hs). apply filter_In in Hs. destruct Hs as [Hs _].
  rewrite Forall_forall in S'. destruct (S' s Hs) as (_ & _ & W' & _). unfold read_mark. cbn [p_name p_data p_geometry p_mode mapM].
  rewrite text_word; [cbn [rbind]; eauto|]. unfold word in *. rewrite !every_app. repeat split; auto; unfold word_char, code; cbn; try lia.
Qed.
Lemma run_demands t f r : texts t -> demand_folder t = Ok f ->
  exists rd, run (layers f) r = Ok (mkRead (rd_status r) (rd_sites r) (rd_links r) (rd_demands r ++ rd)) /\ Forall2 same_demand (kt_demands t) rd.
Proof.
  intros (_ & _ & _ & TD) E. unfold demand_folder in E. destruct (mapM _ _) as [ms|] eqn:Em in E; [|discriminate]. cbn [rbind] in E. apply ok_inj in E. subst f.
  cbn [layers flat_map app]. destruct (connections_read _ TD) as (cs & Ec).
  assert (F : exists fs, mapM read_mark ms = Ok fs /\ Forall2 same_demand (kt_demands t) (map extract_demand fs)).
  { apply mapM_ok in Em. clear Ec. revert TD Em. generalize (kt_demands t) at 2. intros all. induction 2 as [|d p ds ps Hp Em IH]; [exists []; split; [reflexivity|constructor]|].
    apply Forall_cons_iff in TD. destruct TD as [(_ & W & _) TD]. destruct (IH TD) as (fs & E & F). destruct (read_demand _ _ _ W Hp) as (f & Ef).
    cbn [mapM]. rewrite Ef, E. eexists. split; [reflexivity|]. cbn [map]. constructor; [reflexivity|exact F]. }
  destruct F as (fs & Ef & F). exists (map extract_demand fs). split; [|exact F].
  unfold run. cbn [mapM]. unfold read_layer. cbn [fst snd mapM]. rewrite Ef, Ec. reflexivity.
Qed.

Lemma round_trip t d : texts t -> no_markup (kt_name t) -> write_kml num attribute t = Ok d ->
  exists rs rl rd rs' rl', read_kml pop d = Ok (rs, rl, rd) /\ Permutation rs' rs /\ Forall2 same_site (kt_sites t) rs'
    /\ Permutation rl' rl /\ Forall2 same_link (kt_links t) rl' /\ Forall2 same_demand (kt_demands t) rd.
Proof.
  intros T M E. unfold write_kml in E. destruct (mapM _ _) as [fss|] eqn:E1 in E; [|discriminate]. cbn [rbind] in E. destruct (demand_folder t) as [df|] eqn:E2; [|discriminate].
  cbn [rbind] in E. apply ok_inj in E. subst d. unfold read_kml. cbn [d_name d_folders].
  replace (text (if beq (kt_name t) "" then "topology" else kt_name t)) with (@Ok string (if beq (kt_name t) "" then "topology" else kt_name t)).
  2: { symmetry. unfold text, opt_text. destruct (beq (kt_name t) ""); [reflexivity|]. rewrite plain_text; [reflexivity|apply T|exact M]. }
  cbn [rbind]. destruct (run_statuses t _ _ T E1 (mkRead CANDIDATE [] [] [])) as (s1 & rs & rl & ls & R1 & A & B & C).
  destruct (run_demands t df (mkRead s1 ([] ++ rs) ([] ++ rl) []) T E2) as (rd & R2 & D).
  assert (R : run (flat_map layers (List.concat fss ++ [df])) (mkRead CANDIDATE [] [] []) = Ok (mkRead s1 rs rl rd)).
  { rewrite flat_map_app, run_app, R1. cbn [rbind rd_demands rd_sites rd_links]. cbn [flat_map]. rewrite app_nil_r. rewrite R2. reflexivity. }
  unfold run in R. destruct (mapM read_layer _) as [xs|]; [|discriminate]. cbn [rbind] in R |- *. apply ok_inj in R. rewrite R. cbn [rd_sites rd_links rd_demands].
  destruct (Permutation_Forall2 (all_sites t) A) as (rs' & P1 & F1).
  assert (B' : Permutation ls (kt_links t)) by (rewrite B; apply all_links).
  destruct (Permutation_Forall2 B' C) as (rl' & P2 & F2).
  exists rs, rl, rd, rs', rl'. split; [reflexivity|]. split; [now symmetry|]. split; [exact F1|]. split; [now symmetry|]. auto.
Qed.
End reading.
