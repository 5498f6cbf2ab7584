(** Proofs: when the file is written, its layout and its styles. *)
From Coq Require Import ZArith QArith Ascii Lia Lqa Permutation Sorting.Sorted.
From Verif Require Import Base Dict TopologyModel SetupModel LosRangeModel RfModel ConfModel MonadLib KmlModel KmlSpec KmlTextProofs KmlMarkProofs KmlReadProofs KmlOrderProofs.
From Verif Require TopologyProofs.
Local Open Scope string_scope.
Local Open Scope list_scope.

(** Demands *)
Lemma uniform_iff l : uniform l = true <-> forall a b, In a l -> In b l -> (a == b)%Q.
Proof.
  destruct l as [|x l]; cbn [uniform]; [split; [contradiction|reflexivity]|]. rewrite forallb_forall. split.
  - intros H. assert (F : forall a, In a (x :: l) -> (x == a)%Q). { intros a [<-|Ha]; [reflexivity|]. apply Qeq_bool_iff. auto. }
    intros a b Ha Hb. rewrite <- (F a Ha), <- (F b Hb). reflexivity.
  - intros H y Hy. apply Qeq_bool_iff. apply H; [now left|now right].
Qed.
Lemma qmax_fold l : forall x, let m := fold_left (fun m y => if qgtb y m then y else m) l x in (In m (x :: l)) /\ forall y, In y (x :: l) -> (y <= m)%Q.
Proof.
  induction l as [|y l IH]; intros x; cbn [fold_left].
  - split; [now left|]. intros z [<-|[]]. lra.
  - destruct (qgtb y x) eqn:E.
    + destruct (IH y) as [A B]. split; [now right|]. intros z [<-|Hz]; [|auto]. apply qgtb_true in E. pose proof (B y (or_introl eq_refl)). lra.
    + destruct (IH x) as [A B]. split; [destruct A as [A|A]; [now left|right; now right]|]. intros z [<-|[<-|Hz]]; [apply B; now left| |apply B; now right].
      apply qgtb_false in E. pose proof (B x (or_introl eq_refl)). lra.
Qed.
Lemma qmax_list_max l : l <> [] -> In (qmax_list l) l /\ forall y, In y l -> (y <= qmax_list l)%Q.
Proof. destruct l as [|x l]; [congruence|]. intros _. apply qmax_fold. Qed.
Lemma uniform_values ds : uniform (map demand_value ds) = true <-> forall a b, In a ds -> In b ds -> (value a == value b)%Q.
Proof.
  rewrite uniform_iff. split.
  - intros H a b Ha Hb. apply H; apply (in_map demand_value); assumption.
  - intros H a b Ha Hb. apply in_map_iff in Ha, Hb. destruct Ha as (a' & <- & Ha), Hb as (b' & <- & Hb). now apply H.
Qed.
Lemma demands_ok ds : (exists ms, mapM (demand_mark ds) ds = Ok ms) <-> demands_writable ds.
Proof.
  unfold demand_mark. destruct (uniform (map demand_value ds)) eqn:U.
  - split; [intros _; left; now apply uniform_values|]. intros _. cbn [rbind]. apply mapM_total. eauto.
  - assert (N : ds <> []) by (intros ->; discriminate). assert (N' : map demand_value ds <> []) by (destruct ds; [congruence|discriminate]).
    destruct (qmax_list_max _ N') as [M1 M2]. set (m := qmax_list _) in *.
    assert (X : maximum ds 0 <-> (m == 0)%Q).
    { unfold maximum. apply in_map_iff in M1. destruct M1 as (d0 & E0 & H0). split.
      - intros [(d & Hd & Ed) L]. apply Qle_antisym.
        + rewrite <- E0. now apply (L d0).
        + rewrite <- Ed. apply M2. now apply (in_map demand_value).
      - intros E. split.
        + exists d0. split; [exact H0|]. change (demand_value d0 == 0)%Q. now rewrite E0.
        + intros d Hd. rewrite <- E. apply M2. now apply (in_map demand_value). }
    unfold scale_of. destruct (Qeq_bool m 0) eqn:Z.
    + apply Qeq_bool_iff in Z. split.
      * intros [ms E]. destruct ds as [|d ds]; [congruence|]. cbn [mapM] in E. destruct (b_demand d); discriminate.
      * intros [H|[_ H]]; [apply uniform_values in H; congruence|]. exfalso. tauto.
    + assert (Z' : ~ (m == 0)%Q) by (intros E; apply Qeq_bool_iff in E; congruence). split.
      * intros [ms E]. right. split; [|tauto]. intros d Hd. destruct (mapM_In _ _ _ _ E Hd) as (y & Ey & _). destruct (b_demand d); [discriminate|]. discriminate.
      * intros [H|[H _]]; [apply uniform_values in H; congruence|]. apply mapM_total. intros d Hd. specialize (H d Hd). destruct (b_demand d); [|congruence]. cbn. eauto.
Qed.

Section layout.
Variables (num : Q -> string) (attribute : klink -> string -> option string).

Lemma link_ok t l : (exists p, link_mark num attribute t l = Ok p) <-> link_writable l.
Proof.
  unfold link_mark, link_fields, link_writable, e_channel, deployed. split.
  - intros [p E]. destruct (guard _ _) eqn:G in E; [|discriminate]. apply guard_ok in G. apply beq_true in G. cbn [rbind] in E. split.
    + destruct (k_alt (e_tx l)), (k_alt (e_rx l)); cbn in G; split; congruence.
    + intros D x y Ec. rewrite Ec in E. replace (active (e_status l)) with true in E by (destruct D as [-> | ->]; reflexivity).
      destruct (x =? y)%Z eqn:Eab; [now apply Z.eqb_eq|discriminate].
  - intros [A B].
    assert (G : guard (beq (altitude_mode (k_alt (e_tx l))) (altitude_mode (k_alt (e_rx l)))) TopologyExn = Ok tt).
    { destruct (k_alt (e_tx l)), (k_alt (e_rx l)); try reflexivity; exfalso; destruct A as [A1 A2]; [discriminate (A2 eq_refl)|discriminate (A1 eq_refl)]. }
    rewrite G. cbn [rbind]. destruct (active (e_status l)) eqn:Ea; [|cbn [rbind]; eauto]. destruct (e_channels l) as [[a b]|]; [|cbn [rbind]; eauto].
    rewrite (B ltac:(destruct (e_status l); try discriminate; auto) a b eq_refl), Z.eqb_refl. cbn [rbind]. eauto.
Qed.
Lemma status_ok t st : (exists fs, status_folder num attribute t st = Ok fs) <-> (forall l, In l (links_of t st) -> link_writable l).
Proof.
  assert (M : (exists lf, mapM (link_folder num attribute t) (group_by e_type (links_of t st)) = Ok lf) <-> (forall l, In l (links_of t st) -> link_writable l)).
  { split.
    - intros [lf E] l Hl. rewrite <- (group_flat e_type (links_of t st)) in Hl. apply in_flat_map in Hl. destruct Hl as ([k g] & Hg & Hl). cbn [snd] in Hl.
      destruct (mapM_In _ _ _ _ E Hg) as (f & Ef & _). unfold link_folder in Ef. cbn [fst snd] in Ef. destruct (mapM _ (link_order g)) as [ms|] eqn:Em; [|discriminate].
      apply (Permutation_in _ (Permutation_sym (link_order_perm g))) in Hl. destruct (mapM_In _ _ _ _ Em Hl) as (p & Ep & _). apply (link_ok t). eauto.
    - intros H. apply mapM_total. intros [k g] Hg. unfold link_folder. cbn [fst snd].
      destruct (mapM_total (link_mark num attribute t) (link_order g)) as [ms Em]; [|rewrite Em; cbn [rbind]; eauto].
      intros l Hl. apply (link_ok t). apply H. apply (Permutation_in _ (link_order_perm g)) in Hl. now apply (proj2 (group_key _ _ _ _ Hg) l). }
  rewrite <- M. unfold status_folder. destruct (sites_of t st), (links_of t st) as [|l0 ls].
  - split; intros _; [exists []; reflexivity|eauto].
  - split; intros [x E]; [destruct (mapM _ _) as [lf|]; [eauto|discriminate]|rewrite E; cbn [rbind]; eauto].
  - split; intros [x E]; [destruct (mapM _ _) as [lf|]; [eauto|discriminate]|rewrite E; cbn [rbind]; eauto].
  - split; intros [x E]; [destruct (mapM _ _) as [lf|]; [eauto|discriminate]|rewrite E; cbn [rbind]; eauto].
Qed.
Lemma write_ok t : (exists d, write_kml num attribute t = Ok d) <-> (forall l, In l (kt_links t) -> link_writable l) /\ demands_writable (kt_demands t).
Proof.
  rewrite <- demands_ok. unfold write_kml, demand_folder. split.
  - intros [d E]. destruct (mapM (status_folder _ _ _) _) as [fs|] eqn:E1; [|discriminate]. cbn [rbind] in E. destruct (mapM (demand_mark _) _) as [ms|]; [|discriminate].
    split; [|eauto]. intros l Hl. destruct (mapM_In _ _ _ (e_status l) E1) as (f & Ef & _); [destruct (e_status l); cbn; auto 10|].
    assert (Hst : exists fs, status_folder num attribute t (e_status l) = Ok fs) by eauto. rewrite status_ok in Hst. apply Hst.
    unfold links_of. apply (Permutation_in _ (Permutation_sym (TopologyProofs.sort_by_perm _ _))). apply filter_In. split; [exact Hl|apply beq_refl].
  - intros [H [ms E2]]. destruct (mapM_total (status_folder num attribute t) all_status) as [fs E1].
    { intros st _. apply status_ok. intros l Hl. apply H. now apply (in_links_of t st). }
    rewrite E1, E2. cbn [rbind]. eauto.
Qed.

(** Folders *)
Lemma folders_of t d : write_kml num attribute t = Ok d ->
  exists fss df, mapM (status_folder num attribute t) all_status = Ok fss /\ demand_folder t = Ok df /\ d_folders d = List.concat fss ++ [df] /\ d_styles d = styles.
Proof.
  unfold write_kml. destruct (mapM _ _) as [fss|]; [|discriminate]. cbn [rbind]. destruct (demand_folder t) as [df|]; [|discriminate].
  cbn [rbind]. intros E. apply ok_inj in E. subst d. exists fss, df. auto.
Qed.
Lemma status_form t st fs : status_folder num attribute t st = Ok fs ->
  fs = [] \/ exists lf, mapM (link_folder num attribute t) (group_by e_type (links_of t st)) = Ok lf
    /\ fs = [Folder (status_name st) [] (map (site_folder num) (group_by k_type (sites_of t st)) ++ lf)].
Proof.
  unfold status_folder. intros E. destruct (sites_of t st) as [|s0 ss] eqn:Es; destruct (links_of t st) as [|l0 ls] eqn:El.
  - left. apply ok_inj in E. auto.
  - right. destruct (mapM _ _) as [lf|] in E |- *; [|discriminate]. cbn [rbind] in E. apply ok_inj in E. eauto.
  - right. destruct (mapM _ _) as [lf|] in E |- *; [|discriminate]. cbn [rbind] in E. apply ok_inj in E. eauto.
  - right. destruct (mapM _ _) as [lf|] in E |- *; [|discriminate]. cbn [rbind] in E. apply ok_inj in E. eauto.
Qed.
Lemma folder_cases t d f : write_kml num attribute t = Ok d -> In f (d_folders d) ->
  (exists st lf, mapM (link_folder num attribute t) (group_by e_type (links_of t st)) = Ok lf
    /\ f = Folder (status_name st) [] (map (site_folder num) (group_by k_type (sites_of t st)) ++ lf))
  \/ exists ms, mapM (demand_mark (kt_demands t)) (kt_demands t) = Ok ms /\
     f = Folder "Demand" [] [Folder "Demand Sites" ms []; Folder "Demand Connections" (flat_map connection_marks (kt_demands t)) []].
Proof.
  intros E Hf. destruct (folders_of t d E) as (fss & df & E1 & E2 & E3 & _). rewrite E3 in Hf. apply in_app_or in Hf. destruct Hf as [Hf|[<-|[]]].
  - left. apply in_concat in Hf. destruct Hf as (fs & Hfs & Hf). destruct (mapM_inv _ _ _ _ E1 Hfs) as (st & _ & Est).
    destruct (status_form t st fs Est) as [->|(lf & Elf & ->)]; [contradiction|]. destruct Hf as [<-|[]]. eauto.
  - right. unfold demand_folder in E2. destruct (mapM (demand_mark (kt_demands t)) (kt_demands t)) as [ms|]; [|discriminate]. cbn [rbind] in E2. apply ok_inj in E2. subst df. eauto.
Qed.
Lemma link_folder_form t k g f : link_folder num attribute t (k, g) = Ok f ->
  exists ms, mapM (link_mark num attribute t) (link_order g) = Ok ms /\ f = Folder (link_type_name k ++ " Links") ms [].
Proof. unfold link_folder. cbn [fst snd]. destruct (mapM _ _) as [ms|]; [|discriminate]. cbn [rbind]. intros E. apply ok_inj in E. eauto. Qed.

Lemma site_folder_names (gs : list (site_type * list ksite)) : map folder_name (map (site_folder num) gs) = map (fun g => (site_type_name (fst g) ++ " Sites")%string) gs.
Proof. rewrite map_map. reflexivity. Qed.
Lemma link_folder_names t gs lf : mapM (link_folder num attribute t) gs = Ok lf -> map folder_name lf = map (fun g => (link_type_name (fst g) ++ " Links")%string) gs.
Proof.
  intros E. apply mapM_ok in E. induction E as [|[k g] f gs lf Hf E IH]; [reflexivity|]. cbn [map fst]. rewrite IH. f_equal.
  destruct (link_folder_form t k g f Hf) as (ms & _ & ->). reflexivity.
Qed.
Lemma subfolders_nodup t d f : write_kml num attribute t = Ok d -> In f (d_folders d) -> NoDup (map folder_name (subfolders f)).
Proof.
  intros E Hf. destruct (folder_cases t d f E Hf) as [(st & lf & Elf & ->)|(ms & _ & ->)].
  - cbn [subfolders]. rewrite map_app, site_folder_names, (link_folder_names _ _ _ Elf). apply TopologyProofs.NoDup_app_iff. split; [|split].
    + eapply ss_nodup; [|apply site_groups]. intros [[] g] [[] h] [_ N]; cbn; try discriminate; intros _; apply N; reflexivity.
    + eapply ss_nodup; [|apply link_groups]. intros [[] g] [[] h] [_ N]; cbn; try discriminate; intros _; apply N; reflexivity.
    + intros x H1 H2. apply in_map_iff in H1, H2. destruct H1 as ([[] g1] & <- & _), H2 as ([[] g2] & H2 & _); cbn in H2; discriminate.
  - cbn. repeat constructor; cbn; intuition discriminate.
Qed.
Lemma status_names_nodup t sts fss : NoDup sts -> mapM (status_folder num attribute t) sts = Ok fss ->
  NoDup (map folder_name (List.concat fss)) /\ forall n, In n (map folder_name (List.concat fss)) -> exists st, In st sts /\ n = status_name st.
Proof.
  intros N E. apply mapM_ok in E. induction E as [|st fs sts fss Hf E IH]; [split; [constructor|contradiction]|].
  apply NoDup_cons_iff in N. destruct N as [N1 N2]. destruct (IH N2) as [A B]. cbn [List.concat]. rewrite map_app.
  destruct (status_form t st fs Hf) as [->|(lf & _ & ->)]; cbn [map app folder_name].
  - split; [exact A|]. intros n Hn. destruct (B n Hn) as (s & ? & ?). eauto using in_cons.
  - split.
    + constructor; [|exact A]. intros Hn. destruct (B _ Hn) as (s & Hs & Es). assert (st = s) by (destruct st, s; cbn in Es; try discriminate; reflexivity). congruence.
    + intros n [<-|Hn]; [exists st; auto using in_eq|]. destruct (B n Hn) as (s & ? & ?). eauto using in_cons.
Qed.
Lemma folders_nodup t d : write_kml num attribute t = Ok d -> NoDup (map folder_name (d_folders d)).
Proof.
  intros E. destruct (folders_of t d E) as (fss & df & E1 & E2 & -> & _). destruct (status_names_nodup _ _ _ nodup_status E1) as [A B].
  rewrite map_app. apply TopologyProofs.NoDup_app_iff. split; [exact A|]. split; [repeat constructor; intros []|].
  unfold demand_folder in E2. destruct (mapM (demand_mark (kt_demands t)) (kt_demands t)) as [ms|]; [|discriminate]. cbn [rbind] in E2. apply ok_inj in E2. subst df.
  intros x H1 [<-|[]]. destruct (B _ H1) as (st & _ & Es). destruct st; discriminate.
Qed.
Lemma status_name_inj a b : status_name a = status_name b -> a = b.
Proof. destruct a, b; cbn; try discriminate; reflexivity. Qed.

Lemma site_folder_content t d f g ty : texts t -> write_kml num attribute t = Ok d -> In f (d_folders d) -> In g (subfolders f) ->
  folder_name g = (site_type_name ty ++ " Sites")%string ->
  exists ss, (forall s, In s ss <-> In s (kt_sites t) /\ k_type s = ty /\ status_name (k_status s) = folder_name f)
    /\ StronglySorted name_before ss /\ Forall2 (fun s p => xml_text (p_name p) = Some (shown s)) ss (marks g).
Proof.
  intros T E Hf Hg Eg. destruct (folder_cases t d f E Hf) as [(st & lf & Elf & ->)|(ms & _ & ->)].
  - cbn [subfolders folder_name] in *. apply in_app_or in Hg. destruct Hg as [Hg|Hg].
    + apply in_map_iff in Hg. destruct Hg as ([k ss] & <- & Hg). cbn [folder_name site_folder fst snd] in Eg.
      assert (k = ty) by (destruct k, ty; cbn in Eg; try discriminate; reflexivity). subst k. exists ss.
      pose proof (proj2 (group_key _ _ _ _ Hg)) as GK. split; [|split].
      * intros s. split.
        -- intros Hs. destruct (GK s Hs) as [K1 K2]. apply in_sites_of in K2. destruct K2 as [K2 <-]. auto.
        -- intros (Hs & Ht & Hst). apply status_name_inj in Hst. eapply (group_all k_type); [|..|exact Hg|exact Ht].
           ++ eapply ss_nodup; [|apply site_groups]. intros x y [_ N]. exact N.
           ++ unfold sites_of. apply (Permutation_in _ (Permutation_sym (TopologyProofs.sort_by_perm _ _))). apply filter_In. split; [exact Hs|]. rewrite Hst. apply beq_refl.
      * eapply ss_imp; [|eapply (ss_group _ k_type); [apply (sites_sorted t st)|exact Hg]]. intros x y Hx Hy H. apply ple_cases in H. cbn in H.
        rewrite (proj1 (GK x Hx)), (proj1 (GK y Hy)) in H. destruct H as [H|[_ H]]; [lia|exact H].
      * unfold site_folder. cbn [marks fst snd]. destruct T as (_ & TS & _). rewrite Forall_forall in TS.
        assert (TS' : forall s, In s ss -> site_texts s). { intros s Hs. apply TS. destruct (GK s Hs) as [_ K2]. now apply in_sites_of in K2. }
        clear - TS'. induction ss as [|s ss IH]; [constructor|]. cbn [map]. constructor; [|apply IH; intros x Hx; apply TS'; now right].
        cbn [site_mark p_name]. apply text_recovered, name_readable, TS'. now left.
    + destruct (mapM_inv _ _ _ _ Elf Hg) as ([k g'] & _ & Eg'). destruct (link_folder_form t k g' g Eg') as (ms & _ & ->). cbn in Eg. destruct k, ty; discriminate.
  - cbn [subfolders] in Hg. destruct Hg as [<-|[<-|[]]]; destruct ty; discriminate.
Qed.
Lemma link_folder_content t d f g ty : write_kml num attribute t = Ok d -> In f (d_folders d) -> In g (subfolders f) ->
  folder_name g = (link_type_name ty ++ " Links")%string ->
  exists ls, (forall l, In l ls <-> In l (kt_links t) /\ kind l ty /\ status_name (e_status l) = folder_name f)
    /\ StronglySorted link_before ls /\ Forall2 (fun l p => p_name p = e_hash l) ls (marks g).
Proof.
  intros E Hf Hg Eg. destruct (folder_cases t d f E Hf) as [(st & lf & Elf & ->)|(ms & _ & ->)].
  - cbn [subfolders folder_name] in *. apply in_app_or in Hg. destruct Hg as [Hg|Hg].
    + apply in_map_iff in Hg. destruct Hg as ([k ss] & <- & Hg). cbn [folder_name site_folder fst snd] in Eg. destruct k, ty; discriminate.
    + destruct (mapM_inv _ _ _ _ Elf Hg) as ([k g'] & Hin & Eg'). destruct (link_folder_form t k g' g Eg') as (ms & Em & ->). cbn [folder_name marks] in *.
      assert (k = ty) by (destruct k, ty; cbn in Eg; try discriminate; reflexivity). subst k. exists (link_order g').
      pose proof (proj2 (group_key _ _ _ _ Hin)) as GK. split; [|split].
      * intros l. split.
        -- intros Hl. apply (Permutation_in _ (link_order_perm g')) in Hl. destruct (GK l Hl) as [K1 K2]. apply in_links_of in K2. destruct K2 as [K2 <-]. split; [exact K2|]. split; [now apply kind_iff|reflexivity].
        -- intros (Hl & Ht & Hst). apply kind_iff in Ht. apply status_name_inj in Hst. apply (Permutation_in _ (Permutation_sym (link_order_perm g'))).
           eapply (group_all e_type); [|..|exact Hin|exact Ht].
           ++ eapply ss_nodup; [|apply link_groups]. intros x y [_ N]. exact N.
           ++ unfold links_of. apply (Permutation_in _ (Permutation_sym (TopologyProofs.sort_by_perm _ _))). apply filter_In. split; [exact Hl|]. rewrite Hst. apply beq_refl.
      * apply link_order_sorted.
      * apply mapM_ok in Em. clear - Em. induction Em as [|l p ls ms Hp Em IH]; [constructor|]. constructor; [|exact IH]. unfold link_mark in Hp.
        destruct (guard _ _) in Hp; [|discriminate]. cbn [rbind] in Hp. destruct (link_fields _ _ _) in Hp; [|discriminate]. cbn [rbind] in Hp. apply ok_inj in Hp. now subst p.
  - cbn [subfolders] in Hg. destruct Hg as [<-|[<-|[]]]; destruct ty; discriminate.
Qed.

(** Styles *)
Lemma in_folder_leaf p n ms : in_folder p (Folder n ms []) <-> In p ms.
Proof. cbn. tauto. Qed.
Lemma in_folder_subs p n ms subs : in_folder p (Folder n ms subs) <-> In p ms \/ exists f, In f subs /\ in_folder p f.
Proof.
  cbn [in_folder]. apply or_iff_compat_l. induction subs as [|f subs IH]; [split; [contradiction|intros (f & [] & _)]|]. rewrite IH. split.
  - intros [H|(f' & H1 & H2)]; [exists f; auto using in_eq|exists f'; auto using in_cons].
  - intros (f' & [<-|H1] & H2); [now left|right; eauto].
Qed.
Lemma mark_cases t d p : write_kml num attribute t = Ok d -> in_document p d ->
  (exists s, In s (kt_sites t) /\ p = site_mark num s) \/ (exists l, In l (kt_links t) /\ link_mark num attribute t l = Ok p)
  \/ (exists b, In b (kt_demands t) /\ demand_mark (kt_demands t) b = Ok p) \/ p_style p = "demand_links".
Proof.
  intros E (f & Hf & Hp). destruct (folder_cases t d f E Hf) as [(st & lf & Elf & ->)|(ms & Em & ->)].
  - rewrite in_folder_subs in Hp. destruct Hp as [[]|(g & Hg & Hp)]. apply in_app_or in Hg. destruct Hg as [Hg|Hg].
    + apply in_map_iff in Hg. destruct Hg as ([k ss] & <- & Hg). unfold site_folder in Hp. rewrite in_folder_leaf in Hp. cbn [snd] in Hp.
      apply in_map_iff in Hp. destruct Hp as (s & <- & Hs). left. exists s. split; [|reflexivity]. destruct (proj2 (group_key _ _ _ _ Hg) s Hs) as [_ H]. now apply in_sites_of in H.
    + destruct (mapM_inv _ _ _ _ Elf Hg) as ([k g'] & Hin & Eg'). destruct (link_folder_form t k g' g Eg') as (ms & Em & ->). rewrite in_folder_leaf in Hp.
      destruct (mapM_inv _ _ _ _ Em Hp) as (l & Hl & El). right. left. exists l. split; [|exact El].
      apply (Permutation_in _ (link_order_perm g')) in Hl. destruct (proj2 (group_key _ _ _ _ Hin) l Hl) as [_ H]. now apply in_links_of in H.
  - rewrite in_folder_subs in Hp. destruct Hp as [[]|(g & [<-|[<-|[]]] & Hp)]; rewrite in_folder_leaf in Hp; right; right.
    + left. destruct (mapM_inv _ _ _ _ Em Hp) as (b & Hb & Eb). eauto.
    + right. apply in_flat_map in Hp. destruct Hp as (b & _ & Hp). unfold connection_marks in Hp. apply in_map_iff in Hp. destruct Hp as (s & <- & _). reflexivity.
Qed.
Lemma high_util_iff t l : high_util t l = true -> used_over t l 80 /\ e_wireless l = true.
Proof.
  unfold high_util. rewrite andb_true_iff. intros [H W]. split; [|exact W]. apply qgtb_true in H. unfold used_over, find_link in *.
  destruct (find _ _) as [r|] eqn:F.
  - apply find_some in F. destruct F as [F1 F2]. apply andb_prop in F2. destruct F2 as [F2 F3]. apply beq_true in F2, F3.
    destruct (qgtb (e_util r) (e_util l)); [right; eauto 6|now left].
  - destruct (qgtb 0 (e_util l)); [exfalso; lra|now left].
Qed.
Lemma styles_in x : mem x styles = true -> In x styles.
Proof. apply mem_In. Qed.
Lemma scale_range ds b z : (forall x, In x ds -> (0 <= value x)%Q) -> In b ds -> uniform (map demand_value ds) = false ->
  scale_of (qmax_list (map demand_value ds)) b = Ok z -> (0 <= z <= 2)%Z.
Proof.
  intros Hpos Hb U E. assert (N' : map demand_value ds <> []) by (destruct ds; [contradiction|discriminate]).
  destruct (qmax_list_max _ N') as [M1 M2]. set (m := qmax_list _) in *. unfold scale_of in E. destruct (b_demand b) as [q|] eqn:Eq; [|discriminate].
  destruct (Qeq_bool m 0) eqn:Z; [discriminate|]. assert (Hq : (0 <= q)%Q). { specialize (Hpos b Hb). unfold value in Hpos. now rewrite Eq in Hpos. }
  assert (Hm : (0 <= m)%Q). { apply in_map_iff in M1. destruct M1 as (x & <- & Hx). now apply Hpos. }
  assert (H : (0 <= q / m * 3)%Q).
  { apply Qmult_le_0_compat; [|lra]. apply Qmult_le_0_compat; [exact Hq|]. now apply Qinv_le_0_compat. }
  apply ok_inj in E. subst z. set (v := (q / m * 3)%Q) in *.
  assert (0 <= Z.quot (Qnum v) (Zpos (Qden v)))%Z. { apply Z.quot_pos; [|lia]. clearbody v; destruct v as [vn vd]; unfold Qle in H; cbn [Qnum Qden] in *; lia. }
  destruct (3 <=? Z.quot (Qnum v) (Z.pos (Qden v)))%Z eqn:L; [lia|]. apply Z.leb_gt in L. lia.
Qed.
Lemma styles_defined t d p : write_kml num attribute t = Ok d -> in_document p d ->
  (forall s, In s (kt_sites t) -> k_type s = POP -> k_status s <> UNREACHABLE) ->
  (forall l, In l (kt_links t) -> e_wireless l = true -> used_over t l 80 -> deployed (e_status l)) ->
  (forall b, In b (kt_demands t) -> (0 <= value b)%Q) ->
  In (p_style p) (d_styles d).
Proof.
  intros E Hp H1 H2 H3. destruct (folders_of t d E) as (_ & _ & _ & _ & _ & ->).
  destruct (mark_cases t d p E Hp) as [(s & Hs & ->)|[(l & Hl & El)|[(b & Hb & Eb)|Es]]].
  - specialize (H1 s Hs). cbn [site_mark p_style]. apply styles_in. destruct (k_type s), (k_status s); try reflexivity. exfalso. now apply H1.
  - unfold link_mark in El. destruct (guard _ _) in El; [|discriminate]. cbn [rbind] in El. destruct (link_fields _ _ _) in El; [|discriminate]. cbn [rbind] in El.
    apply ok_inj in El. subst p. cbn [p_style]. apply styles_in. destruct (high_util t l) eqn:U.
    + apply high_util_iff in U. destruct U as [U W]. destruct (H2 l Hl W U) as [-> | ->]; reflexivity.
    + destruct (e_status l); reflexivity.
  - unfold demand_mark in Eb. destruct (uniform _) eqn:U.
    + cbn [rbind] in Eb. apply ok_inj in Eb. subst p. apply styles_in. reflexivity.
    + destruct (scale_of _ _) as [z|] eqn:Ez in Eb; [|discriminate]. cbn [rbind] in Eb. apply ok_inj in Eb. subst p. cbn [p_style].
      pose proof (scale_range _ _ _ H3 Hb U Ez) as R. apply styles_in. assert (z = 0 \/ z = 1 \/ z = 2)%Z as [->|[->| ->]] by lia; reflexivity.
  - rewrite Es. apply styles_in. reflexivity.
Qed.
End layout.
