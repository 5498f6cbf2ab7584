(** What the tables built by the setup contain, in terms of the topology. *)
From Coq Require Import QArith Lqa Lia Permutation.
From Verif Require Import Base Dict TopologyModel TopologySpec TopologyQueryProofs GraphSpec GraphProofs RfModel SetupModel IlpModel IlpSpec QLib MonadLib.
Local Open Scope Q_scope.

(** ** names *)
Fixpoint last_char (s : string) : option ascii :=
  match s with EmptyString => None | String a EmptyString => Some a | String _ r => last_char r end.
Lemma last_char_app a b c : last_char b = Some c -> last_char (append a b) = Some c.
Proof.
  intros E. induction a as [|x a IH]; [exact E|]. cbn. destruct (append a b) eqn:F; [|exact IH].
  cbn in IH. discriminate.
Qed.
Lemma key_id_last k : last_char (key_id k) = Some "N"%char.
Proof. unfold key_id. repeat apply last_char_app. now destruct (k_cn k). Qed.
Lemma super_not_key i k : super_sec i <> key_id k.
Proof.
  intros E. assert (H := key_id_last k). rewrite <- E in H. unfold super_sec in H.
  rewrite (last_char_app i "_super" "r"%char eq_refl) in H. discriminate.
Qed.
Lemma demand_not_key i k : demand_sec i <> key_id k.
Proof.
  intros E. assert (H := key_id_last k). rewrite <- E in H. unfold demand_sec in H.
  rewrite (last_char_app i "_demand" "d"%char eq_refl) in H. discriminate.
Qed.
Lemma append_inj a b c : append a b = append a c -> b = c.
Proof. induction a as [|x a IH]; cbn; intros E; [exact E|]. injection E as E. auto. Qed.
Lemma append_nil_inv a b : append a b = a -> b = EmptyString.
Proof. induction a as [|x a IH]; cbn; intros E; [exact E|]. injection E as E. auto. Qed.
Lemma NoDup_map_inj {A B} (f : A -> B) l : (forall x y, In x l -> In y l -> f x = f y -> x = y) -> NoDup l -> NoDup (map f l).
Proof.
  intros Hf Hn. induction Hn as [|x l Hx Hn IH]; cbn; [constructor|]. constructor.
  - intros Hin. apply in_map_iff in Hin. destruct Hin as (y & E & Hy). apply Hf in E; [subst; contradiction|now right|now left].
  - apply IH. intros; apply Hf; auto; now right.
Qed.
Lemma NoDup_flat {A B} (f : A -> list B) l : NoDup l -> (forall x, In x l -> NoDup (f x)) ->
  (forall x y z, In x l -> In y l -> In z (f x) -> In z (f y) -> x = y) -> NoDup (flat_map f l).
Proof.
  intros Hn. induction Hn as [|x l Hx Hn IH]; intros Hf Hd; cbn; [constructor|].
  assert (G := IH (fun y Hy => Hf y (or_intror Hy)) (fun a b z Ha Hb => Hd a b z (or_intror Ha) (or_intror Hb))).
  assert (Hfx := Hf x (or_introl eq_refl)).
  assert (Hdis : forall z, In z (f x) -> ~ In z (flat_map f l)).
  { intros z Hz Hin. apply in_flat_map in Hin. destruct Hin as (y & Hy & Hz').
    assert (x = y) by (apply (Hd x y z); auto; [now left|now right]). subst. contradiction. }
  clear -G Hfx Hdis. induction (f x) as [|a r IHr]; cbn; [exact G|]. inversion_clear Hfx. constructor.
  - rewrite in_app_iff. intros [?|?]; [contradiction|]. apply (Hdis a); [now left|auto].
  - apply IHr; auto. intros z Hz. apply Hdis. now right.
Qed.
Lemma demand_ids_iff at_ d n : In n (demand_ids at_ d) <-> consumer_of at_ d n.
Proof.
  unfold demand_ids, consumer_of. rewrite in_map_iff. split.
  - intros (k & E & Hk). apply in_seq in Hk. exists k. split; [lia|auto].
  - intros (k & Hk & E). exists k. split; [auto|]. apply in_seq. lia.
Qed.
Lemma demand_ids_NoDup at_ d : NoDup (demand_ids at_ d).
Proof.
  unfold demand_ids. apply NoDup_map_inj; [|apply seq_NoDup]. intros [|x] [|y] _ _ E; auto.
  - symmetry in E. apply append_nil_inv in E. discriminate.
  - apply append_nil_inv in E. discriminate.
  - apply append_inj in E. apply (append_inj "_") in E. apply dec_inj in E. exact E.
Qed.

Lemma dict_nodup {V} (d : dict string V) : dwf d -> NoDup d.
Proof. intros Hd. apply (NoDup_map_inv fst). exact Hd. Qed.

(** ** lists collected under keys *)
Definition under {K V} `{EqB K} (d : dict K (list V)) (k : K) : list V := match dget d k with Some r => r | None => [] end.
Lemma fold_dappend {K V} `{EqB K} (l : list (K * V)) : forall d k,
  under (fold_left (fun d p => dappend d (fst p) (snd p)) l d) k = (under d k ++ map snd (filter (fun p => beq (fst p) k) l))%list.
Proof.
  induction l as [|[k1 v1] l IH]; intros d k; cbn [fold_left filter map fst snd]; [now rewrite app_nil_r|].
  rewrite IH. unfold dappend. unfold under at 1. rewrite dget_set. rewrite (beq_sym k k1). destruct (beq_spec k1 k) as [->|?]; cbn [map snd].
  - now rewrite <- app_assoc.
  - reflexivity.
Qed.
Lemma fold_dappend_dom {K V} `{EqB K} (l : list (K * V)) : forall d k,
  dmem (fold_left (fun d p => dappend d (fst p) (snd p)) l d) k = dmem d k || mem k (map fst l).
Proof.
  induction l as [|[k1 v1] l IH]; intros d k; cbn [fold_left filter map fst snd mem]; [now rewrite orb_false_r|].
  rewrite IH. unfold dappend. unfold dmem at 1. rewrite dget_set. destruct (beq k k1); cbn.
  - now rewrite orb_true_r.
  - reflexivity.
Qed.
Lemma fold_default {V} (ks : list string) (v0 : V) : forall d k,
  dget (fold_left (fun d (k : string) => if dmem d k then d else dset d k v0) ks d) k =
  match dget d k with Some v => Some v | None => if mem k ks then Some v0 else None end.
Proof.
  induction ks as [|k1 ks IH]; intros d k; cbn [fold_left mem]; [now destruct (dget d k)|].
  rewrite IH. destruct (dmem d k1) eqn:E.
  - destruct (dget d k) eqn:F; [auto|]. destruct (beq_spec k k1) as [->|?]; [|auto]. apply dmem_Some in E. destruct E. congruence.
  - rewrite dget_set. destruct (beq_spec k k1) as [->|?]; [|auto]. apply dmem_None in E. now rewrite E.
Qed.

Section Facts.
Variables (ps : params) (at_ : attrs) (t : topo) (I : inst).
Hypothesis Hw : well_formed t.
Hypothesis Hn : names_ok at_ t.
Hypothesis Hs : setup ps at_ t = Ok I.

Let Wsites : dwf (t_sites t). Proof. apply Hw. Qed.
Let Wlinks : dwf (t_links t). Proof. apply Hw. Qed.
Let Wsecs : dwf (t_sectors t). Proof. apply Hw. Qed.
Let Wdem : dwf (t_demands t). Proof. apply Hw. Qed.
Let Closed : tables_closed t. Proof. apply Hw. Qed.

Lemma consumer_In n : consumer at_ t n <-> In n (map fst (demand_locations at_ t)).
Proof.
  unfold consumer, demand_locations. rewrite in_map_iff. split.
  - intros (i & d & Ed & Hc). exists (n, d). split; [auto|]. apply in_flat_map. exists (i, d). split; [now apply dget_In|].
    cbn. apply in_map_iff. exists n. split; [auto|]. now apply demand_ids_iff.
  - intros ((n' & d) & E & Hin). cbn in E. subst. apply in_flat_map in Hin. destruct Hin as ((i & d') & Hd & Hin).
    cbn in Hin. apply in_map_iff in Hin. destruct Hin as (n' & E & Hin). injection E as <- <-. exists i, d'.
    split; [now apply In_dget|]. now apply demand_ids_iff.
Qed.
Lemma demand_locations_In n d : In (n, d) (demand_locations at_ t) <-> exists i, dget (t_demands t) i = Some d /\ consumer_of at_ d n.
Proof.
  unfold demand_locations. rewrite in_flat_map. split.
  - intros ((i & d') & Hd & Hin). cbn in Hin. apply in_map_iff in Hin. destruct Hin as (n' & E & Hin). injection E as <- <-.
    exists i. split; [now apply In_dget|now apply demand_ids_iff].
  - intros (i & Ed & Hc). exists (i, d). split; [now apply dget_In|]. cbn. apply in_map_iff. exists n. split; [auto|].
    now apply demand_ids_iff.
Qed.
Lemma consumers_NoDup : NoDup (map fst (demand_locations at_ t)).
Proof.
  replace (map fst (demand_locations at_ t)) with (flat_map (fun p : string * demand => demand_ids at_ (snd p)) (t_demands t)).
  2:{ unfold demand_locations. generalize (t_demands t). clear. intros l. induction l as [|[k d] r IH]; cbn; [reflexivity|].
      rewrite map_app, <- IH, map_map. f_equal. symmetry. apply map_id. }
  apply NoDup_flat; [now apply dict_nodup|intros; apply demand_ids_NoDup|].
  intros [i d] [i' d'] n Hi Hi' Hx Hy. cbn in *. apply demand_ids_iff in Hx, Hy. apply In_dget in Hi; [|auto]. apply In_dget in Hi'; [|auto].
  destruct Hn as (_ & _ & _ & Hu & _). assert (i = i') by (eapply Hu; eauto). subst. congruence.
Qed.
Lemma sites_In i : In i (dkeys (t_sites t)) <-> site_stored t i.
Proof. apply In_dkeys. Qed.

(** ** the fields of the instance *)
Lemma setup_fields : exists thr,
  mapM (get (i_demand I)) (filter (fun k => mem k (setup_set at_ t Demand)) (setup_locations at_ t)) = Ok thr /\
  forallb (endpoint_ok at_ t) (dkeys (setup_cap ps at_ t)) = true /\
  (forall k d, dget (t_demands t) k = Some d -> check_demand ps at_ d = Ok tt) /\
  (forall k l, dget (t_links t) k = Some l -> l_tx l <> l_rx l) /\
  i_params I = ps /\ i_locations I = setup_locations at_ t /\ i_type I = setup_type at_ t /\ i_set I = setup_set at_ t /\
  i_secs I = setup_secs at_ t /\ i_sectype I = setup_sectype at_ t /\ i_l2s I = setup_l2s at_ t /\ i_cap I = setup_cap ps at_ t /\
  i_demand I = dict_of (map (fun p => (fst p, 0)) (t_sites t) ++ map (fun p => (fst p, demand_value ps at_ (snd p))) (demand_locations at_ t)) /\
  i_geo I = dict_of (map (fun p => (fst p, s_loc (snd p))) (t_sites t)) /\
  i_colocated I = get_colocated_sites t /\
  i_wired I = (map fst (filter (fun p => negb (l_wireless (snd p))) (topology_edges t))
         ++ filter (fun e => beq (fst e) SUPERSOURCE) (dkeys (setup_cap ps at_ t))
         ++ flat_map (fun loc => filter (fun e => beq (snd e) loc) (dkeys (setup_cap ps at_ t)))
              (filter (fun k => mem k (setup_set at_ t Demand)) (setup_locations at_ t)))%list /\
  i_existing_sites I = get_site_ids t (Some [EXISTING]) None /\ i_proposed_sites I = get_site_ids t (Some [PROPOSED]) None /\
  i_inactive_sites I = get_site_ids t (Some [UNAVAILABLE; UNREACHABLE]) None /\
  i_existing_links I = get_link_site_id_pairs t (Some [EXISTING]) None /\
  i_proposed_links I = get_link_site_id_pairs t (Some [PROPOSED]) None /\
  i_inactive_links I = (get_link_site_id_pairs t (Some [UNAVAILABLE; UNREACHABLE]) None ++ get_sectorless_links t)%list /\
  i_proposed_sectors I = get_sector_ids t [PROPOSED] /\
  i_seccost I = dict_of (sector_costs at_ [] (t_sectors t)) /\
  i_max_throughput I = fold_left Qplus thr 0.
Proof.
  assert (Hs0 := Hs). unfold setup in Hs0. inv_do. exists x2. rewrite <- Hs0. cbn [i_params i_locations i_type i_set i_geo i_secs i_sectype i_node i_demand i_seccost i_l2s i_cap i_colocated i_wired i_existing_sites i_proposed_sites i_inactive_sites i_existing_links i_proposed_links i_inactive_links i_proposed_sectors i_max_throughput].
  split; [assumption|]. split; [now apply guard_ok in E1|]. split; [|split].
  - intros k d Ed. destruct (mapM_In _ _ _ (k, d) E (dget_In _ _ _ Ed)) as ([] & Ec & _). exact Ec.
  - intros k l El. destruct (mapM_In _ _ _ ((l_tx l, l_rx l), l) E0) as ([] & Ec & _).
    { unfold topology_edges. apply in_map_iff. exists (k, l). split; [reflexivity|now apply dget_In]. }
    unfold check_link in Ec. apply guard_ok in Ec. cbn in Ec. apply negb_true_iff in Ec. now apply beq_false in Ec.
  - repeat split; reflexivity.
Qed.
Ltac fields := destruct setup_fields as (thr & Ethr & Eep & Edem & Eself & Fps & Floc & Ftype & Fset & Fsecs & Fst & Fl2s & Fcap & Fdem & Fgeo & Fcol & Fwired & Fes & Fpsi & Fis & Fel & Fpl & Fil & Fpsec & Fcost & Fmax).

Lemma i_params_eq : i_params I = ps. Proof. fields. exact Fps. Qed.
(** ** locations *)
Lemma locations_iff n : In n (i_locations I) <-> n = SUPERSOURCE \/ site_stored t n \/ consumer at_ t n.
Proof.
  fields. rewrite Floc. unfold setup_locations. cbn [In]. rewrite in_app_iff, sites_In, <- consumer_In.
  split; [intros [<-|[?|?]]; auto|intros [->|[?|?]]; auto].
Qed.
Lemma locations_NoDup : NoDup (i_locations I).
Proof.
  fields. rewrite Floc. unfold setup_locations. destruct Hn as (N1 & N2 & N3 & N4). constructor.
  - rewrite in_app_iff, sites_In, <- consumer_In. tauto.
  - assert (D : forall x, In x (dkeys (t_sites t)) -> ~ In x (map fst (demand_locations at_ t))).
    { intros x Hx Hc. apply sites_In in Hx. apply consumer_In in Hc. exact (N3 _ Hc Hx). }
    assert (A : NoDup (dkeys (t_sites t))) by exact Wsites. assert (B := consumers_NoDup).
    induction A as [|x l Hx A IH]; cbn; [exact B|]. constructor.
    + rewrite in_app_iff. intros [?|?]; [contradiction|]. apply (D x); [now left|auto].
    + apply IH. intros y Hy. apply D. now right.
Qed.
Lemma type_site i s : dget (t_sites t) i = Some s -> dget (i_type I) i = Some (Real (s_type s)).
Proof.
  intros E. fields. rewrite Ftype. unfold setup_type. destruct Hn as (N1 & N2 & N3 & N4). apply dict_of_value.
  - right. apply in_app_iff. left. apply in_map_iff. exists (i, s). split; [reflexivity|now apply dget_In].
  - intros v [Ev|Hv].
    + injection Ev as <- <-. exfalso. apply N1. now exists s.
    + apply in_app_iff in Hv. destruct Hv as [Hv|Hv]; apply in_map_iff in Hv; destruct Hv as ((j & s') & Ev & Hin); injection Ev as -> <-.
      * apply In_dget in Hin; [congruence|auto].
      * exfalso. apply (N3 i); [|now exists s]. apply consumer_In. apply in_map_iff. exists (i, s'). auto.
Qed.
Lemma type_consumer n : consumer at_ t n -> dget (i_type I) n = Some Demand.
Proof.
  intros Hc. fields. rewrite Ftype. unfold setup_type. destruct Hn as (N1 & N2 & N3 & N4). apply dict_of_value.
  - right. apply in_app_iff. right. apply consumer_In in Hc. apply in_map_iff in Hc. destruct Hc as (p & <- & Hp).
    apply in_map_iff. exists p. auto.
  - intros v [Ev|Hv].
    + injection Ev as <- <-. contradiction.
    + apply in_app_iff in Hv. destruct Hv as [Hv|Hv]; apply in_map_iff in Hv; destruct Hv as ((j & s') & Ev & Hin); injection Ev as -> <-; [|auto].
      exfalso. apply (N3 n Hc). exists s'. now apply In_dget.
Qed.
Lemma type_super : dget (i_type I) SUPERSOURCE = Some Supersource.
Proof.
  fields. rewrite Ftype. unfold setup_type. destruct Hn as (N1 & N2 & N3 & N4). apply dict_of_value; [now left|].
  intros v [Ev|Hv]; [congruence|].
  apply in_app_iff in Hv. destruct Hv as [Hv|Hv]; apply in_map_iff in Hv; destruct Hv as ((j & s') & Ev & Hin); injection Ev as -> <-.
  - exfalso. apply N1. exists s'. now apply In_dget.
  - exfalso. apply N2. apply consumer_In. apply in_map_iff. exists (SUPERSOURCE, s'). auto.
Qed.
Lemma type_inv n ty : dget (i_type I) n = Some ty ->
  (n = SUPERSOURCE /\ ty = Supersource) \/ (exists s, dget (t_sites t) n = Some s /\ ty = Real (s_type s)) \/ (consumer at_ t n /\ ty = Demand).
Proof.
  intros E. fields. rewrite Ftype in E. unfold setup_type in E. apply dict_of_In in E. destruct E as [E|E]; [injection E as <- <-; auto|].
  apply in_app_iff in E. destruct E as [Hv|Hv]; apply in_map_iff in Hv; destruct Hv as ((j & s') & Ev & Hin); injection Ev as -> <-.
  - right. left. exists s'. split; [now apply In_dget|auto].
  - right. right. split; [|auto]. apply consumer_In. apply in_map_iff. exists (n, s'). auto.
Qed.
Lemma type_location n : In n (i_locations I) <-> exists ty, dget (i_type I) n = Some ty.
Proof.
  rewrite locations_iff. split.
  - intros [->|[(s & E)|Hc]]; [exists Supersource; apply type_super|exists (Real (s_type s)); now apply type_site|exists Demand; now apply type_consumer].
  - intros (ty & E). apply type_inv in E. destruct E as [(-> & _)|[(s & E & _)|(Hc & _)]]; auto. right; left. now exists s.
Qed.
Lemma demand_set n : In n (i_set I Demand) <-> consumer at_ t n.
Proof. fields. rewrite Fset. cbn. symmetry. apply consumer_In. Qed.
Lemma sites_of_type_iff ty i : In i (sites_of_type t ty) <-> exists s, dget (t_sites t) i = Some s /\ s_type s = ty.
Proof.
  unfold sites_of_type. rewrite in_map_iff. split.
  - intros ((j & s) & E & Hin). cbn in E. subst j. apply filter_In in Hin. destruct Hin as [Hin Hb]. apply beq_true in Hb.
    exists s. split; [now apply In_dget|auto].
  - intros (s & E & Ht). exists (i, s). split; [auto|]. apply filter_In. split; [now apply dget_In|]. cbn. rewrite Ht. apply beq_refl.
Qed.
Lemma real_set ty i : In i (i_set I (Real ty)) <-> exists s, dget (t_sites t) i = Some s /\ s_type s = ty.
Proof. fields. rewrite Fset. cbn. apply sites_of_type_iff. Qed.
Lemma pop_set i : In i (i_set I (Real POP)) <-> is_pop t i.
Proof. apply real_set. Qed.

(** ** links *)
Lemma topology_edge_In e l : In (e, l) (topology_edges t) <-> exists k, link_stored t k l /\ e = (l_tx l, l_rx l).
Proof.
  unfold topology_edges. rewrite in_map_iff. split.
  - intros ((k & l') & E & Hin). cbn in E. injection E as <- <-. exists k. split; [now apply In_dget|auto].
  - intros (k & El & ->). exists (k, l). split; [reflexivity|now apply dget_In].
Qed.
Lemma link_of_ends k l k' l' : link_stored t k l -> link_stored t k' l' -> l_tx l = l_tx l' -> l_rx l = l_rx l' -> l = l'.
Proof.
  intros E E' H1 H2. destruct Closed as (_ & C & _). destruct (C _ _ E) as (K & _). destruct (C _ _ E') as (K' & _).
  unfold link_stored in *. rewrite K in E. rewrite K' in E'. unfold l_id in *. rewrite H1, H2 in E. congruence.
Qed.
Lemma topology_edge_unique e l l' : In (e, l) (topology_edges t) -> In (e, l') (topology_edges t) -> l = l'.
Proof.
  rewrite !topology_edge_In. intros (k & E & ->) (k' & E' & Ee). injection Ee as H1 H2. eapply link_of_ends; eauto.
Qed.
Lemma demand_edge_In e s : In (e, s) (demand_edges at_ t) <-> s = fst e /\ exists i d, dget (t_demands t) i = Some d /\ In (fst e) (d_sites d) /\ consumer_of at_ d (snd e).
Proof.
  unfold demand_edges. rewrite in_flat_map. split.
  - intros ((n & d) & Hd & Hin). cbn in Hin. apply in_map_iff in Hin. destruct Hin as (s' & E & Hin). injection E as <- ->.
    apply demand_locations_In in Hd. destruct Hd as (i & Ed & Hc). split; [auto|]. exists i, d. cbn. auto.
  - intros (-> & i & d & Ed & Hin & Hc). exists (snd e, d). split; [apply demand_locations_In; eauto|]. cbn. apply in_map_iff.
    exists (fst e). split; [now destruct e|auto].
Qed.
Lemma links_iff e : In e (i_links I) <-> flow_edge at_ t e.
Proof.
  fields. unfold i_links. rewrite Fcap. unfold setup_cap. rewrite dict_of_keys, !map_app, !map_map. cbn [fst]. rewrite !in_app_iff.
  unfold flow_edge, is_pop. split.
  - intros [H|[H|H]]; apply in_map_iff in H.
    + destruct H as (i & <- & Hi). apply sites_of_type_iff in Hi. left. auto.
    + destruct H as ((e' & s) & <- & Hi). apply demand_edge_In in Hi. right; left. cbn. tauto.
    + destruct H as ((e' & l) & <- & Hi). apply topology_edge_In in Hi. right; right. destruct Hi as (k & ? & ?). cbn. eauto.
  - intros [(E & H)|[H|(k & l & El & ->)]].
    + left. apply in_map_iff. exists (snd e). split; [destruct e; cbn in *; congruence|]. now apply sites_of_type_iff.
    + right; left. apply in_map_iff. exists (e, fst e). split; [auto|]. apply demand_edge_In. auto.
    + right; right. apply in_map_iff. exists ((l_tx l, l_rx l), l). split; [auto|]. apply topology_edge_In. eauto.
Qed.
Lemma links_NoDup : NoDup (i_links I).
Proof. fields. unfold i_links. rewrite Fcap. apply dict_of_wf. Qed.
Lemma link_ends e : In e (i_links I) -> In (fst e) (i_locations I) /\ In (snd e) (i_locations I).
Proof.
  intros He. fields. unfold i_links in He. rewrite Fcap in He. rewrite forallb_forall in Eep. specialize (Eep e He).
  unfold endpoint_ok in Eep. apply andb_true_iff in Eep. rewrite !mem_In in Eep. now rewrite Floc.
Qed.
(** a topology link is neither a super-source edge nor a consumer edge *)
Lemma topology_ends k l : link_stored t k l -> site_stored t (l_tx l) /\ site_stored t (l_rx l).
Proof. intros E. destruct Closed as (_ & C & _). now destruct (C _ _ E). Qed.
Lemma topology_cap k l : link_stored t k l -> dget (i_cap I) (l_tx l, l_rx l) = Some (a_cap at_ (l_tx l, l_rx l)).
Proof.
  intros E. fields. rewrite Fcap. unfold setup_cap. rewrite !dict_of_app.
  rewrite (dict_of_value (map (fun p => (fst p, a_cap at_ (fst p))) (topology_edges t)) _ (a_cap at_ (l_tx l, l_rx l))); [auto| |].
  - apply in_map_iff. exists ((l_tx l, l_rx l), l). split; [reflexivity|]. apply topology_edge_In. eauto.
  - intros v Hv. apply in_map_iff in Hv. destruct Hv as (p & Ep & _). injection Ep as E1 E2. now rewrite <- E2, E1.
Qed.
Lemma topology_l2s k l : link_stored t k l -> dget (i_l2s I) (l_tx l, l_rx l) =
  Some (match l_sectors l with Some (x, y) => (Some (key_id x), Some (key_id y)) | None => (None, None) end).
Proof.
  intros E. fields. rewrite Fl2s. unfold setup_l2s. rewrite !dict_of_app.
  rewrite (dict_of_value (map (fun p => (fst p, match l_sectors (snd p) with
                         | Some (x, y) => (Some (key_id x), Some (key_id y))
                         | None => (None, None) end)) (topology_edges t)) _ (match l_sectors l with Some (x, y) => (Some (key_id x), Some (key_id y)) | None => (None, None) end)); [auto| |].
  - apply in_map_iff. exists ((l_tx l, l_rx l), l). split; [reflexivity|]. apply topology_edge_In. eauto.
  - intros v Hv. apply in_map_iff in Hv. destruct Hv as ((e' & l') & Ep & Hl). cbn in Ep. injection Ep as E1 E2. subst e' v.
    assert (l' = l) by (eapply topology_edge_unique; eauto; apply topology_edge_In; eauto). now subst.
Qed.
(** the sectors of the other edges are imaginary *)
Lemma l2s_inv e a b : dget (i_l2s I) e = Some (a, b) ->
  (exists k l, link_stored t k l /\ e = (l_tx l, l_rx l)) \/
  ((forall s, a <> Some (key_id s)) /\ (forall s, b <> Some (key_id s))).
Proof.
  intros E. fields. rewrite Fl2s in E. unfold setup_l2s in E. apply dict_of_In in E. rewrite !in_app_iff in E.
  destruct E as [H|[H|H]]; apply in_map_iff in H.
  - destruct H as (i & E & _). injection E as <- <- <-. right. split; intros s E; [discriminate|]. injection E as E. now apply super_not_key in E.
  - destruct H as (i & E & _). injection E as <- <- <-. right. split; intros s E; [|discriminate]. injection E as E. now apply demand_not_key in E.
  - destruct H as ((e' & l) & E & Hl). apply topology_edge_In in Hl. destruct Hl as (k & ? & ?). left. exists k, l. split; [auto|].
    cbn in E. destruct (l_sectors l) as [[? ?]|]; congruence.
Qed.
Lemma l2s_total e : In e (i_links I) -> exists p, dget (i_l2s I) e = Some p.
Proof.
  fields. unfold i_links. rewrite Fcap, Fl2s. unfold setup_cap, setup_l2s. intros He. apply (proj1 (dict_of_keys _ _)) in He.
  rewrite !map_app, !map_map in He. cbn [fst] in He. apply In_dkeys. apply (proj2 (dict_of_keys _ _)). rewrite !map_app, !map_map. exact He.
Qed.
Lemma super_cap i : is_pop t i -> dget (i_cap I) (SUPERSOURCE, i) = Some (p_pop_capacity ps).
Proof.
  intros Hp. fields. destruct Hn as (N1 & N2 & N3 & N4). rewrite Fcap. unfold setup_cap.
  assert (Hi : In i (sites_of_type t POP)) by now apply sites_of_type_iff.
  assert (Hst : site_stored t i) by (destruct Hp as (s & Es & _); now exists s).
  apply dict_of_value; [apply in_app_iff; left; apply in_map_iff; eauto|].
  intros v Hv. rewrite !in_app_iff in Hv. destruct Hv as [Hv|[Hv|Hv]]; apply in_map_iff in Hv.
  - destruct Hv as (j & Ej & _). now injection Ej.
  - destruct Hv as ((e' & s) & Ej & Hd). cbn in Ej. apply demand_edge_In in Hd. destruct Hd as (_ & j & d & Ed & _ & Hc).
    injection Ej as -> <-. exfalso. apply (N3 i); auto. exists j, d. auto.
  - destruct Hv as ((e' & l) & Ej & Hd). cbn in Ej. apply topology_edge_In in Hd. destruct Hd as (k & El & ->).
    injection Ej as Et _ _. exfalso. apply N1. rewrite <- Et. now apply (topology_ends k).
Qed.
Lemma wired_topology k l : link_stored t k l -> mem (l_tx l, l_rx l) (i_wired I) = negb (l_wireless l).
Proof.
  intros E. fields. destruct Hn as (N1 & N2 & N3 & N4). destruct (topology_ends k l E) as (S1 & S2). rewrite Fwired. destruct (l_wireless l) eqn:W; cbn [negb].
  - apply mem_not_In. rewrite !in_app_iff. intros [H|[H|H]].
    + apply in_map_iff in H. destruct H as ((e' & l') & Ee & H). cbn in Ee. subst e'. apply filter_In in H. destruct H as [Hl Hw']. cbn in Hw'.
      assert (l' = l) by (eapply topology_edge_unique; [exact Hl|]; apply topology_edge_In; eauto). subst. rewrite W in Hw'. discriminate.
    + apply filter_In in H. destruct H as [_ H]. apply beq_true in H. cbn in H. apply N1. now rewrite <- H.
    + apply in_flat_map in H. destruct H as (n & Hn' & H). apply filter_In in H. destruct H as [_ H]. apply beq_true in H. cbn in H. subst n.
      apply filter_In in Hn'. destruct Hn' as [_ Hn']. apply mem_In in Hn'. cbn in Hn'. apply consumer_In in Hn'. exact (N3 _ Hn' S2).
  - apply mem_In. apply in_app_iff. left. apply in_map_iff. exists ((l_tx l, l_rx l), l). split; [auto|]. apply filter_In. split.
    + apply topology_edge_In. eauto.
    + cbn. now rewrite W.
Qed.
(** ** sectors *)
Lemma secs_entries loc l : dget (i_secs I) loc = Some l -> forall a, In a l <->
  (is_pop t loc /\ a = super_sec loc) \/ (exists x, sector_stored t a x /\ x_site x = loc) \/
  (exists e, In (e, loc) (demand_edges at_ t) /\ a = demand_sec loc).
Proof.
  intros E a. fields. rewrite Fsecs in E. unfold setup_secs in E. rewrite fold_default in E.
  set (L := (map (fun i => (i, super_sec i)) (sites_of_type t POP) ++ map (fun p => (x_site (snd p), fst p)) (t_sectors t) ++
     map (fun p => (snd p, demand_sec (snd p))) (demand_edges at_ t))%list) in E.
  assert (R := fold_dappend L [] loc). unfold under in R. cbn [dget app] in R.
  assert (Hl : l = map snd (filter (fun p => beq (fst p) loc) L)).
  { destruct (dget _ loc) eqn:F in E; rewrite F in R; [congruence|]. destruct (mem loc _) in E; congruence. }
  rewrite Hl. rewrite in_map_iff. unfold L. split.
  - intros ((loc' & a') & Ea & Hin). cbn in Ea. subst a'. apply filter_In in Hin. destruct Hin as [Hin Hb]. apply beq_true in Hb. cbn in Hb. subst loc'.
    rewrite !in_app_iff in Hin. destruct Hin as [H|[H|H]]; apply in_map_iff in H.
    + destruct H as (i & Ei & Hi). injection Ei as -> <-. left. split; [now apply sites_of_type_iff|auto].
    + destruct H as ((k & x) & Ei & Hi). cbn in Ei. injection Ei as E1 E2. right; left. exists x. split; [subst; now apply In_dget|auto].
    + destruct H as ((e & s) & Ei & Hi). cbn in Ei. injection Ei as -> <-. right; right. eauto.
  - intros [(Hp & ->)|[(x & Ex & Hx)|(e & He & ->)]].
    + exists (loc, super_sec loc). split; [auto|]. apply filter_In. split; [|apply beq_refl]. rewrite !in_app_iff. left.
      apply in_map_iff. exists loc. split; [auto|]. now apply sites_of_type_iff.
    + exists (loc, a). split; [auto|]. apply filter_In. split; [|apply beq_refl]. rewrite !in_app_iff. right; left.
      apply in_map_iff. exists (a, x). cbn. split; [now rewrite Hx|now apply dget_In].
    + exists (loc, demand_sec loc). split; [auto|]. apply filter_In. split; [|apply beq_refl]. rewrite !in_app_iff. right; right.
      apply in_map_iff. exists (e, loc). auto.
Qed.
(** the sectors of a location that are stored, each once *)
Lemma secs_real loc l (f : string -> Q) : dget (i_secs I) loc = Some l -> (forall a, f (super_sec a) == 0) -> (forall a, f (demand_sec a) == 0) ->
  total f l == total (fun p => if beq (x_site (snd p)) loc then f (fst p) else 0) (t_sectors t).
Proof.
  intros E F1 F2. fields. rewrite Fsecs in E. unfold setup_secs in E. rewrite fold_default in E.
  set (A := map (fun i => (i, super_sec i)) (sites_of_type t POP)) in E. set (C := map (fun p => (snd p, demand_sec (snd p))) (demand_edges at_ t)) in E.
  set (L := (A ++ map (fun p => (x_site (snd p), fst p)) (t_sectors t) ++ C)%list) in E.
  assert (R := fold_dappend L [] loc). unfold under in R. cbn [dget app] in R.
  assert (Hl : l = map snd (filter (fun p => beq (fst p) loc) L)).
  { destruct (dget _ loc) eqn:F in E; rewrite F in R; [congruence|]. destruct (mem loc _) in E; congruence. }
  assert (T : forall M, total f (map snd (filter (fun p : string * string => beq (fst p) loc) M)) == total (fun p => if beq (fst p) loc then f (snd p) else 0) M).
  { intros M. rewrite total_map, total_filter. reflexivity. }
  rewrite Hl, T. unfold L. rewrite !total_app.
  assert (Z1 : total (fun p => if beq (fst p) loc then f (snd p) else 0) A == 0).
  { unfold A. rewrite total_map. cbn [fst snd]. rewrite (total_ext _ (fun _ => 0)); [apply total_const0|]. intros x _. destruct (beq x loc); [apply F1|reflexivity]. }
  assert (Z2 : total (fun p => if beq (fst p) loc then f (snd p) else 0) C == 0).
  { unfold C. rewrite total_map. cbn [fst snd]. rewrite (total_ext _ (fun _ => 0)); [apply total_const0|]. intros x _. destruct (beq (snd x) loc); [apply F2|reflexivity]. }
  rewrite Z1, Z2, total_map. cbn [fst snd]. lra.
Qed.
Lemma secs_total loc : In loc (i_locations I) -> exists l, dget (i_secs I) loc = Some l.
Proof.
  intros Hl. fields. rewrite Fsecs. unfold setup_secs. rewrite fold_default. rewrite Floc in Hl. apply mem_In in Hl.
  destruct (dget _ loc); [eauto|]. rewrite Hl. eauto.
Qed.
Lemma secs_location loc l : dget (i_secs I) loc = Some l -> In loc (i_locations I).
Proof.
  intros E. fields. rewrite Fsecs in E. unfold setup_secs in E. rewrite fold_default in E.
  destruct (dget (fold_left _ _ _) loc) eqn:F in E.
  - clear E. assert (D : dmem (fold_left (fun d p => dappend d (fst p) (snd p))
        (map (fun i => (i, super_sec i)) (sites_of_type t POP) ++ map (fun p => (x_site (snd p), fst p)) (t_sectors t) ++
        map (fun p => (snd p, demand_sec (snd p))) (demand_edges at_ t)) []) loc = true) by (apply dmem_Some; eauto).
    rewrite fold_dappend_dom in D. cbn in D. apply mem_In in D. rewrite !map_app, !map_map, !in_app_iff in D. cbn in D.
    destruct D as [H|[H|H]]; apply in_map_iff in H.
    + destruct H as (i & <- & Hi). apply sites_of_type_iff in Hi. destruct Hi as (s & Es & _). apply locations_iff. right; left. now exists s.
    + destruct H as ((k & x) & <- & Hi). apply locations_iff. right; left. destruct Closed as (_ & _ & C). cbn. apply (C k x). now apply In_dget.
    + destruct H as ((e & s) & <- & Hi). cbn. assert (G := Hi). apply demand_edge_In in G. destruct G as (-> & _).
      apply (link_ends e). unfold i_links. rewrite Fcap. unfold setup_cap. apply dict_of_keys. rewrite !map_app, !map_map, !in_app_iff. cbn [fst].
      right; left. apply in_map_iff. exists (e, fst e). auto.
  - destruct (mem loc _) eqn:M in E; [|discriminate]. apply mem_In in M. now rewrite Floc.
Qed.
Lemma secs_sector k x : sector_stored t k x -> exists l, dget (i_secs I) (x_site x) = Some l /\ In k l.
Proof.
  intros E. destruct Closed as (_ & _ & C). destruct (C _ _ E) as (_ & S1).
  destruct (secs_total (x_site x)) as (l & El); [apply locations_iff; auto|]. exists l. split; [exact El|].
  apply (secs_entries _ _ El). right; left. eauto.
Qed.
Lemma sectype_sector k x : sector_stored t k x -> dget (i_sectype I) k = Some (if k_cn (x_key x) then SecCN else SecDN).
Proof.
  intros E. fields. rewrite Fst. unfold setup_sectype. destruct Closed as (_ & _ & C). destruct (C _ _ E) as (Ek & _). apply dict_of_value.
  - rewrite !in_app_iff. right; left. apply in_map_iff. exists (k, x). split; [reflexivity|now apply dget_In].
  - intros v Hv. rewrite !in_app_iff in Hv. destruct Hv as [H|[H|H]]; apply in_map_iff in H.
    + destruct H as (i & Ei & _). injection Ei as Ei _. rewrite Ek in Ei. now apply super_not_key in Ei.
    + destruct H as ((k' & x') & Ei & Hi). cbn in Ei. injection Ei as -> <-. apply In_dget in Hi; [|auto]. unfold sector_stored in E. now assert (x' = x) by congruence; subst.
    + destruct H as (i & Ei & _). injection Ei as Ei _. rewrite Ek in Ei. now apply demand_not_key in Ei.
Qed.
(** a super or demand sector has an imaginary type, unless a sector of that name exists *)
Lemma sectype_total loc l a : dget (i_secs I) loc = Some l -> In a l -> exists ty, dget (i_sectype I) a = Some ty.
Proof.
  intros El Ha. apply (secs_entries _ _ El) in Ha. fields. rewrite Fst. unfold setup_sectype. apply In_dkeys, dict_of_keys.
  rewrite !map_app, !map_map, !in_app_iff. cbn [fst]. destruct Ha as [(Hp & ->)|[(x & Ex & Hx)|(e & He & ->)]].
  - left. apply in_map_iff. exists loc. split; [auto|]. now apply sites_of_type_iff.
  - right; left. apply in_map_iff. exists (a, x). split; [auto|now apply dget_In].
  - right; right. apply in_map_iff. exists (e, loc). auto.
Qed.
Lemma real_sector_inv loc l a ty : dget (i_secs I) loc = Some l -> In a l -> dget (i_sectype I) a = Some ty -> imaginary_sec ty = false ->
  exists x, sector_stored t a x /\ x_site x = loc.
Proof.
  intros El Ha Ety Him. apply (secs_entries _ _ El) in Ha. destruct Ha as [(Hp & ->)|[?|(e & He & ->)]]; [|auto|].
  - exfalso. fields. rewrite Fst in Ety. apply dict_of_In in Ety. rewrite !in_app_iff in Ety. destruct Ety as [H|[H|H]]; apply in_map_iff in H.
    + destruct H as (i & Ei & _). injection Ei as _ <-. discriminate.
    + destruct H as ((k & x) & Ei & Hi). injection Ei as Ei _. cbn in Ei. destruct Closed as (_ & _ & C). destruct (C k x) as (Ek & _); [now apply In_dget|].
      rewrite Ek in Ei. symmetry in Ei. now apply super_not_key in Ei.
    + destruct H as (i & Ei & _). injection Ei as _ <-. discriminate.
  - exfalso. fields. rewrite Fst in Ety. apply dict_of_In in Ety. rewrite !in_app_iff in Ety. destruct Ety as [H|[H|H]]; apply in_map_iff in H.
    + destruct H as (i & Ei & _). injection Ei as _ <-. discriminate.
    + destruct H as ((k & x) & Ei & Hi). injection Ei as Ei _. cbn in Ei. destruct Closed as (_ & _ & C). destruct (C k x) as (Ek & _); [now apply In_dget|].
      rewrite Ek in Ei. symmetry in Ei. now apply demand_not_key in Ei.
    + destruct H as (i & Ei & _). injection Ei as _ <-. discriminate.
Qed.

(** ** statuses *)
Lemma links_by_status sf e : In e (get_link_site_id_pairs t (Some sf) None) <-> exists k l, link_stored t k l /\ e = (l_tx l, l_rx l) /\ In (l_status l) sf.
Proof.
  unfold get_link_site_id_pairs. rewrite in_map_iff. split.
  - intros ((k & l) & <- & Hin). apply filter_In in Hin. destruct Hin as [Hin Hb]. cbn in Hb. rewrite andb_true_r in Hb. apply mem_In in Hb.
    exists k, l. split; [now apply In_dget|auto].
  - intros (k & l & El & -> & Hst). exists (k, l). split; [auto|]. apply filter_In. split; [now apply dget_In|]. cbn. rewrite andb_true_r. now apply mem_In.
Qed.
Lemma sites_by_status sf i : In i (get_site_ids t (Some sf) None) <-> exists s, dget (t_sites t) i = Some s /\ In (s_status s) sf.
Proof.
  unfold get_site_ids. rewrite in_map_iff. split.
  - intros ((k & s) & <- & Hin). apply filter_In in Hin. destruct Hin as [Hin Hb]. cbn in *. rewrite andb_true_r in Hb. apply mem_In in Hb.
    exists s. split; [now apply In_dget|auto].
  - intros (s & Es & Hst). exists (i, s). split; [auto|]. apply filter_In. split; [now apply dget_In|]. cbn. rewrite andb_true_r. now apply mem_In.
Qed.
Definition active_link_of (e : edge) : Prop := exists k l, link_stored t k l /\ e = (l_tx l, l_rx l) /\ (l_status l = PROPOSED \/ l_status l = EXISTING).
Lemma active_links_iff e : In e (i_proposed_links I ++ i_existing_links I)%list <-> active_link_of e.
Proof.
  fields. rewrite Fpl, Fel, in_app_iff, !links_by_status. unfold active_link_of. cbn. split.
  - intros [(k & l & ? & ? & [H|[]])|(k & l & ? & ? & [H|[]])]; exists k, l; auto.
  - intros (k & l & ? & ? & [H|H]); [left|right]; exists k, l; auto.
Qed.

(** ** demand *)
Lemma consumer_demand n : consumer at_ t n -> exists i d, dget (t_demands t) i = Some d /\ consumer_of at_ d n /\ dget (i_demand I) n = Some (demand_value ps at_ d).
Proof.
  intros Hc. assert (Hc' := Hc). destruct Hc' as (i & d & Ed & Hd). exists i, d. split; [auto|]. split; [auto|].
  fields. rewrite Fdem. rewrite dict_of_app. rewrite (dict_of_value _ n (demand_value ps at_ d)); [auto| |].
  - apply in_map_iff. exists (n, d). split; [reflexivity|]. apply demand_locations_In. eauto.
  - intros v Hv. apply in_map_iff in Hv. destruct Hv as ((n' & d') & E & Hin). cbn in E. injection E as -> <-.
    apply demand_locations_In in Hin. destruct Hin as (i' & Ed' & Hd'). destruct Hn as (_ & _ & _ & Hu & _).
    assert (i = i') by (eapply Hu; eauto). subst. congruence.
Qed.
(** ** co-located sites *)
Lemma colocated_get c locs : dget (i_colocated I) c = Some locs ->
  lists locs (fun i => exists s, dget (t_sites t) i = Some s /\ s_loc s = c).
Proof.
  intros E. fields. rewrite Fcol in E. unfold get_colocated_sites in E.
  assert (R := fold_dappend (map (fun p => (s_loc (snd p), fst p)) (t_sites t)) [] c). unfold under in R. cbn [dget app] in R.
  assert (Q : forall (l : dict string site) d, fold_left (fun d p => dappend d (fst p) (snd p)) (map (fun p : string * site => (s_loc (snd p), fst p)) l) d =
     fold_left (fun acc p => dappend acc (s_loc (snd p)) (fst p)) l d).
  { induction l as [|p r IH]; intros d; cbn; auto. }
  rewrite Q, E in R. subst locs. split.
  - assert (D := dict_nodup _ Wsites). assert (D' : NoDup (map fst (t_sites t))) by exact Wsites. clear -D'.
    induction (t_sites t) as [|[i s] r IH]; cbn; [constructor|]. cbn in D'. inversion_clear D'. specialize (IH H0).
    destruct (beq (s_loc s) c); cbn; [|auto]. constructor; [|auto]. intros Hin. apply H. apply in_map_iff in Hin. destruct Hin as ((c' & i') & Ei & Hin).
    cbn in Ei. subst i'. apply filter_In in Hin. destruct Hin as [Hin _]. apply in_map_iff in Hin. destruct Hin as (p & Ep & Hp).
    apply in_map_iff. exists p. injection Ep as _ Ep. auto.
  - intros i. rewrite in_map_iff. split.
    + intros ((c' & i') & Ei & Hin). cbn in Ei. subst i'. apply filter_In in Hin. destruct Hin as [Hin Hb]. apply beq_true in Hb. cbn in Hb. subst c'.
      apply in_map_iff in Hin. destruct Hin as ((i' & s) & Ep & Hp). injection Ep as Ec ->. exists s. split; [now apply In_dget|auto].
    + intros (s & Es & Ec). exists (c, i). split; [auto|]. apply filter_In. split; [|apply beq_refl]. apply in_map_iff. exists (i, s). cbn. rewrite Ec. split; [auto|now apply dget_In].
Qed.
Lemma colocated_dom i s : dget (t_sites t) i = Some s -> exists locs, dget (i_colocated I) (s_loc s) = Some locs.
Proof.
  intros E. fields. rewrite Fcol. unfold get_colocated_sites. apply dmem_Some.
  assert (D := fold_dappend_dom (map (fun p => (s_loc (snd p), fst p)) (t_sites t)) [] (s_loc s)). cbn [dmem dget orb] in D.
  assert (Q : forall (l : dict string site) d, fold_left (fun d p => dappend d (fst p) (snd p)) (map (fun p : string * site => (s_loc (snd p), fst p)) l) d =
     fold_left (fun acc p => dappend acc (s_loc (snd p)) (fst p)) l d).
  { induction l as [|p r IH]; intros d; cbn; auto. }
  rewrite Q in D. rewrite D. apply mem_In. rewrite map_map. cbn. apply in_map_iff. exists (i, s). split; [auto|now apply dget_In].
Qed.
Lemma colocated_wf : dwf (i_colocated I).
Proof.
  fields. rewrite Fcol. unfold get_colocated_sites. assert (G : forall (l : dict string site) d, dwf d -> dwf (fold_left (fun acc p => dappend acc (s_loc (snd p)) (fst p)) l d)).
  { induction l as [|p r IH]; intros d Hd; cbn; auto. apply IH. now apply dwf_set. }
  apply G. constructor.
Qed.
Lemma geo_site i s : dget (t_sites t) i = Some s -> dget (i_geo I) i = Some (s_loc s).
Proof.
  intros E. fields. rewrite Fgeo. apply dict_of_value.
  - apply in_map_iff. exists (i, s). split; [reflexivity|now apply dget_In].
  - intros v Hv. apply in_map_iff in Hv. destruct Hv as ((j & s') & Ej & Hj). cbn in Ej. injection Ej as -> <-. apply In_dget in Hj; [congruence|auto].
Qed.
End Facts.
