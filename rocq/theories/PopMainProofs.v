(** The POPs chosen by the POP proposal. *)
From Coq Require Import QArith ZArith Lia Lqa Permutation FunctionalExtensionality.
From Verif Require Import Base Dict TopologyModel TopologySpec StatusModel GraphModel GraphSpec GraphProofs SetupModel IlpModel IlpSpec.
From Verif Require ApplySpec ApplyProofs TopologyProofs.
From Verif Require Import MonadLib SetupProofs IlpLemmas IlpProofs PopModel PopSpec PopProofs.
Local Open Scope list_scope.

(** ** setting statuses *)
Definition mapv (f : string -> site -> site) (d : dict string site) : dict string site := map (fun p => (fst p, f (fst p) (snd p))) d.
Lemma mapv_get f d i : dget (mapv f d) i = option_map (f i) (dget d i).
Proof. unfold mapv. induction d as [|[k s] r IH]; cbn; [reflexivity|]. destruct (beq_spec i k) as [->|N]; [reflexivity|exact IH]. Qed.
Lemma mapv_keys f d : dkeys (mapv f d) = dkeys d.
Proof. unfold mapv, dkeys. rewrite map_map. reflexivity. Qed.
Lemma mapv_map {A} f d (h : string * site -> A) : (forall k s, h (k, f k s) = h (k, s)) -> map h (mapv f d) = map h d.
Proof. intros H. unfold mapv. rewrite map_map. apply map_ext. intros [k s]. apply H. Qed.
Lemma mapv_filter f d (p q : string * site -> bool) : (forall k s, In (k, s) d -> p (k, f k s) = q (k, s)) -> map fst (filter p (mapv f d)) = map fst (filter q d).
Proof.
  intros H. unfold mapv. induction d as [|[k s] r IH]; [reflexivity|]. cbn [map filter fst snd]. rewrite (H k s (or_introl eq_refl)). destruct (q (k, s)); cbn [map]; rewrite IH by (intros k' s' Hk; apply H; now right); reflexivity.
Qed.
Lemma dset_mapv d i s s' : dwf d -> dget d i = Some s -> dset d i s' = mapv (fun k x => if beq k i then s' else x) d.
Proof.
  intros Wd. unfold dwf in Wd. induction d as [|[k x] r IH]; cbn; [discriminate|]. cbn in Wd. inversion_clear Wd as [|? ? N1 N2].
  rewrite (beq_sym k i). destruct (beq_spec i k) as [->|N].
  - intros _. cbn. f_equal. unfold mapv. clear IH N2. induction r as [|[k' x'] r IH]; cbn; [reflexivity|]. cbn in N1.
    destruct (beq_spec k' k) as [->|N]; [exfalso; apply N1; now left|]. f_equal. apply IH. intros H. apply N1. now right.
  - intros E. cbn. f_equal. apply IH; auto.
Qed.
Definition proposing (ids : list string) (k : string) (s : site) : site := if mem k ids then with_site_status s PROPOSED else s.
Definition proposed_topo (ids : list string) (t : topo) : topo := set_sites t (mapv (proposing ids) (t_sites t)).
Lemma set_status_topo t i s : dwf (t_sites t) -> dget (t_sites t) i = Some s -> immutable (s_status s) = false ->
  set_site_status i PROPOSED t = ok (proposed_topo [i] t).
Proof.
  intros Wd E H. unfold set_site_status. rewrite E. unfold assign_ok. rewrite H. cbn [negb immutable andb]. unfold ok, proposed_topo. repeat f_equal.
  rewrite (dset_mapv _ _ _ _ Wd E). unfold mapv. apply map_ext_in. intros [k x] Hk. cbn. f_equal. unfold proposing. cbn [mem existsb]. destruct (beq_spec k i) as [->|N]; [|reflexivity].
  cbn. apply In_dget in Hk; [|exact Wd]. congruence.
Qed.
Lemma proposed_wf ids t : dwf (t_sites t) -> dwf (t_sites (proposed_topo ids t)).
Proof. unfold dwf, proposed_topo. cbn [set_sites t_sites]. now rewrite mapv_keys. Qed.
Lemma proposed_get ids t i : dget (t_sites (proposed_topo ids t)) i = option_map (proposing ids i) (dget (t_sites t) i).
Proof. apply mapv_get. Qed.
Lemma proposed_more i r t : proposed_topo r (proposed_topo [i] t) = proposed_topo (i :: r) t.
Proof.
  unfold proposed_topo, set_sites. cbn. f_equal. unfold mapv. rewrite map_map. apply map_ext. intros [k s]. cbn. f_equal. unfold proposing. cbn [mem existsb].
  rewrite orb_false_r. destruct (beq k i); [|reflexivity]. cbn [orb]. now destruct (mem k r).
Qed.
Lemma for_each_ok ids : forall t, dwf (t_sites t) -> (forall i, In i ids -> exists s, dget (t_sites t) i = Some s /\ immutable (s_status s) = false) ->
  for_each (fun i => set_site_status i PROPOSED) ids t = ok (proposed_topo ids t).
Proof.
  induction ids as [|i r IH]; intros t Wd H.
  - cbn. unfold ok. f_equal. unfold proposed_topo, mapv, set_sites. destruct t as [a b c d e f g]. cbn. f_equal. rewrite <- (map_id a) at 1. apply map_ext. now intros [k s].
  - cbn [for_each]. destruct (H i (or_introl eq_refl)) as (s & Es & Hs). rewrite (set_status_topo t i s Wd Es Hs). cbv beta iota delta [andthen ok]. cbn [fst snd].
    rewrite IH; [now rewrite proposed_more|now apply proposed_wf|]. intros j Hj. destruct (H j (or_intror Hj)) as (sj & Ej & Hsj). rewrite proposed_get, Ej. cbn. eexists. split; [reflexivity|]. unfold proposing. now destruct (mem j [i]).
Qed.
Lemma for_each_fails ids : forall t, dwf (t_sites t) -> (forall i, In i ids -> site_stored t i) -> NoDup ids ->
  (exists i s, In i ids /\ dget (t_sites t) i = Some s /\ immutable (s_status s) = true) ->
  fst (for_each (fun i => set_site_status i PROPOSED) ids t) = Err TopologyExn.
Proof.
  induction ids as [|i r IH]; intros t Wd H ND (j & sj & Hj & Ej & Hm); [destruct Hj|]. inversion_clear ND as [|? ? N1 N2].
  cbn [for_each]. destruct (H i (or_introl eq_refl)) as [s Es]. destruct (immutable (s_status s)) eqn:M.
  - unfold set_site_status. rewrite Es. unfold assign_ok. rewrite M. cbn. reflexivity.
  - rewrite (set_status_topo t i s Wd Es M). unfold andthen, ok. cbn [fst snd]. apply IH.
    + now apply proposed_wf.
    + intros k Hk. destruct (H k (or_intror Hk)) as [sk Ek]. unfold site_stored. rewrite proposed_get, Ek. cbn. eauto.
    + exact N2.
    + assert (Nij : j <> i). { intros ->. congruence. } destruct Hj as [->|Hj]; [congruence|]. exists j, sj. split; [exact Hj|]. split; [|exact Hm].
      rewrite proposed_get, Ej. cbn. unfold proposing. cbn [mem existsb]. now rewrite (proj2 (beq_neq _ _) Nij).
Qed.

(** ** the instance with the input POPs proposed is the instance of the topology with the input POPs proposed *)
Lemma dict_of_nodup {K V} `{EqB K} (l : list (K * V)) : NoDup (map fst l) -> dict_of l = l.
Proof.
  assert (G : forall (l d : list (K * V)), NoDup (map fst (d ++ l)) -> fold_left (fun d p => dset d (fst p) (snd p)) l d = d ++ l).
  { clear l. induction l as [|[k v] r IH]; intros d N; cbn; [now rewrite app_nil_r|].
    assert (E : dset d k v = d ++ [(k, v)]).
    { rewrite map_app in N. cbn in N. assert (X : ~ In k (map fst d)). { intros Hk. apply NoDup_remove_2 in N. apply N. apply in_or_app. now left. }
      clear - X. induction d as [|[k' v'] d IH]; cbn; [reflexivity|]. cbn in X. destruct (beq_spec k k') as [->|Nk]; [exfalso; apply X; now left|]. f_equal. apply IH. intros Hk. apply X. now right. }
    rewrite E, IH, <- app_assoc; [reflexivity|]. now rewrite <- app_assoc. }
  intros N. unfold dict_of. now rewrite G.
Qed.
Lemma get_site_ids_set f t sf sf' : (forall k s, dget (t_sites t) k = Some s -> in_filter sf (s_status (f k s)) = in_filter sf' (s_status s)) -> dwf (t_sites t) ->
  get_site_ids (set_sites t (mapv f (t_sites t))) sf None = get_site_ids t sf' None.
Proof.
  intros H Wd. unfold get_site_ids. cbn [set_sites t_sites]. apply mapv_filter. intros k s Hk. apply In_dget in Hk; [|exact Wd]. cbn. now rewrite (H k s Hk).
Qed.
Lemma setup_proposed ps at_ t ids I : dwf (t_sites t) -> setup ps at_ t = Ok I ->
  (forall i, In i ids -> exists s, dget (t_sites t) i = Some s /\ (s_status s = PROPOSED \/ s_status s = CANDIDATE)) ->
  setup ps at_ (proposed_topo ids t) = Ok (with_proposed ids I).
Proof.
  intros Wd HS Hids. unfold proposed_topo. set (f := proposing ids). set (t' := set_sites t (mapv f (t_sites t))).
  assert (Ft : forall k s, s_type (f k s) = s_type s) by (intros k s; unfold f, proposing; now destruct (mem k ids)).
  assert (Fl : forall k s, s_loc (f k s) = s_loc s) by (intros k s; unfold f, proposing; now destruct (mem k ids)).
  assert (A1 : forall ty, sites_of_type t' ty = sites_of_type t ty).
  { intros ty. unfold sites_of_type. cbn [t' set_sites t_sites]. apply mapv_filter. intros k s _. cbn. now rewrite Ft. }
  assert (A2 : dkeys (t_sites t') = dkeys (t_sites t)) by apply mapv_keys.
  assert (A3 : setup_cap ps at_ t' = setup_cap ps at_ t) by (unfold setup_cap; rewrite A1; reflexivity).
  assert (A4 : setup_l2s at_ t' = setup_l2s at_ t) by (unfold setup_l2s; rewrite A1; reflexivity).
  assert (A5 : setup_locations at_ t' = setup_locations at_ t) by (unfold setup_locations; rewrite A2; reflexivity).
  assert (A6 : setup_type at_ t' = setup_type at_ t).
  { unfold setup_type. cbn [t' set_sites t_sites]. rewrite (mapv_map f (t_sites t) (fun p => (fst p, Real (s_type (snd p))))); [reflexivity|]. intros k s. cbn. now rewrite Ft. }
  assert (A7 : setup_secs at_ t' = setup_secs at_ t) by (unfold setup_secs; rewrite A1, A5; reflexivity).
  assert (A8 : setup_sectype at_ t' = setup_sectype at_ t) by (unfold setup_sectype; rewrite A1; reflexivity).
  assert (A9 : map (fun p => (fst p, s_loc (snd p))) (t_sites t') = map (fun p => (fst p, s_loc (snd p))) (t_sites t)).
  { apply (mapv_map f (t_sites t) (fun p => (fst p, s_loc (snd p)))). intros k s. cbn. now rewrite Fl. }
  assert (A10 : map (fun p => (fst p, 0%Q)) (t_sites t') = map (fun p => (fst p, 0%Q)) (t_sites t)).
  { now apply (mapv_map f (t_sites t) (fun p => (fst p, 0%Q))). }
  assert (A11 : get_colocated_sites t' = get_colocated_sites t).
  { unfold get_colocated_sites. cbn [t' set_sites t_sites]. clear - Fl. generalize (@nil (Z * Z * Z * list string)). generalize (t_sites t). intros d. induction d as [|[k s] r IH]; intros acc; cbn; [reflexivity|]. rewrite Fl. apply IH. }
  assert (B1 : get_site_ids t' (Some [EXISTING]) None = get_site_ids t (Some [EXISTING]) None).
  { apply get_site_ids_set; [|exact Wd]. intros k s Ek. unfold f, proposing. destruct (mem k ids) eqn:M; [|reflexivity]. apply mem_In, Hids in M. destruct M as (s' & Es' & H). rewrite Ek in Es'. injection Es' as <-. destruct H as [-> | ->]; reflexivity. }
  assert (B2 : get_site_ids t' (Some [UNAVAILABLE; UNREACHABLE]) None = get_site_ids t (Some [UNAVAILABLE; UNREACHABLE]) None).
  { apply get_site_ids_set; [|exact Wd]. intros k s Ek. unfold f, proposing. destruct (mem k ids) eqn:M; [|reflexivity]. apply mem_In, Hids in M. destruct M as (s' & Es' & H). rewrite Ek in Es'. injection Es' as <-. destruct H as [-> | ->]; reflexivity. }
  assert (B3 : get_site_ids t' (Some [PROPOSED]) None = filter (fun i => mem i (get_site_ids t (Some [PROPOSED]) None) || mem i ids) (dkeys (t_sites t))).
  { assert (Q : forall k s, In (k, s) (t_sites t) -> mem k (get_site_ids t (Some [PROPOSED]) None) = beq (s_status s) PROPOSED).
    { intros k s Hk. unfold get_site_ids. destruct (beq (s_status s) PROPOSED) eqn:E.
      - apply mem_In, in_map_iff. exists (k, s). split; [reflexivity|]. apply filter_In. split; [exact Hk|]. cbn. apply beq_true in E. now rewrite E.
      - apply mem_not_In. intros H. apply in_map_iff in H. destruct H as ([k' s'] & <- & H). apply filter_In in H. destruct H as (H & Hp). apply In_dget in H, Hk; try exact Wd. cbn in H, Hk. rewrite Hk in H. injection H as <-. cbn in Hp. rewrite orb_false_r, andb_true_r in Hp. apply beq_true in Hp. rewrite Hp in E. discriminate. }
    revert Q. generalize (get_site_ids t (Some [PROPOSED]) None). intros pr Q. unfold get_site_ids. cbn [t' set_sites t_sites]. unfold mapv, dkeys. clear - Q. revert Q. generalize (t_sites t). intros d Q.
    induction d as [|[k s] r IH]; [reflexivity|]. cbn [map filter fst snd]. rewrite (Q k s (or_introl eq_refl)). unfold f at 1, proposing. cbn [in_filter]. rewrite andb_true_r.
    destruct (mem k ids).
    - cbn [with_site_status s_status mem existsb]. rewrite beq_refl, orb_true_r. cbn [orb map fst]. f_equal. apply IH. intros k' s' Hk. apply Q. now right.
    - cbn [mem existsb]. rewrite !orb_false_r. destruct (beq (s_status s) PROPOSED); cbn [map fst]; [f_equal|]; apply IH; intros k' s' Hk; apply Q; now right. }
  revert HS. unfold setup. rewrite A3, A4, A5, A6, A7, A8, A9, A10, A11, B1, B2, B3.
  change (t_demands t') with (t_demands t). change (topology_edges t') with (topology_edges t). change (t_sectors t') with (t_sectors t).
  assert (A12 : setup_set at_ t' = setup_set at_ t) by (apply functional_extensionality; intros [ty| |]; cbn [setup_set]; [apply A1|reflexivity|reflexivity]).
  assert (A13 : endpoint_ok at_ t' = endpoint_ok at_ t) by (apply functional_extensionality; intros e; unfold endpoint_ok; now rewrite A5).
  rewrite A12, A13. change (demand_locations at_ t') with (demand_locations at_ t).
  intros HS. inv_do. repeat match goal with H : ?x = Ok _ |- context [?x] => rewrite H; cbn [rbind] end.
  assert (G : dkeys (dict_of (map (fun p => (fst p, s_loc (snd p))) (t_sites t))) = dkeys (t_sites t)).
  { rewrite dict_of_nodup; [unfold dkeys; now rewrite map_map|]. rewrite map_map. exact Wd. }
  subst I. unfold with_proposed. cbn [i_params i_locations i_type i_set i_geo i_secs i_sectype i_node i_demand i_seccost i_l2s i_cap i_colocated i_wired
    i_existing_sites i_proposed_sites i_inactive_sites i_existing_links i_proposed_links i_inactive_links i_proposed_sectors i_max_throughput]. rewrite G. reflexivity.
Qed.
Lemma network_proposed ps at_ t ids I : dwf (t_sites t) -> network ps at_ t = Ok I ->
  (forall i, In i ids -> exists s, dget (t_sites t) i = Some s /\ (s_status s = PROPOSED \/ s_status s = CANDIDATE)) ->
  network ps at_ (proposed_topo ids t) = Ok (with_proposed ids I).
Proof.
  intros Wd H Hids. unfold network in *. destruct (setup ps at_ t) as [I0|] eqn:E; [|discriminate]. cbn [rbind] in H.
  assert (X : I0 = I) by (destruct (check_pop_feasibility I0); [cbn in H|discriminate]; destruct (check_demand_feasibility I0 t); [cbn in H; now injection H|discriminate]). subst I0.
  rewrite (setup_proposed ps at_ t ids I Wd E Hids). cbn [rbind].
  change (check_pop_feasibility (with_proposed ids I)) with (check_pop_feasibility I). change (check_demand_feasibility (with_proposed ids I) (proposed_topo ids t)) with (check_demand_feasibility I t).
  destruct (check_pop_feasibility I); [cbn in *|discriminate]. destruct (check_demand_feasibility I t); [reflexivity|discriminate].
Qed.

(** ** the topology of the problem *)
Lemma usable_pops_lists t : well_formed t -> lists (usable_pops t) (input_pop t).
Proof.
  intros W. pose proof W as (W1 & _ & _ & _ & _ & (C1 & _)).
  assert (E : usable_pops t = map fst (filter (fun p => beq (s_type (snd p)) POP && negb (mem (s_status (snd p)) [UNAVAILABLE; UNREACHABLE])) (t_sites t))).
  { unfold usable_pops, dvals. assert (G : forall d, (forall k s, In (k, s) d -> s_id s = k) -> map s_id (filter (fun s => beq (s_type s) POP && negb (mem (s_status s) [UNAVAILABLE; UNREACHABLE])) (map snd d)) =
      map fst (filter (fun p : string * site => beq (s_type (snd p)) POP && negb (mem (s_status (snd p)) [UNAVAILABLE; UNREACHABLE])) d)).
    { induction d as [|[k s] r IH]; intros H; [reflexivity|]. cbn [map filter fst snd]. destruct (_ && _); cbn [map fst]; [f_equal|]; [apply H; now left|apply IH|apply IH]; intros k' s' Hk; apply H; now right. }
    apply G. intros k s H. apply In_dget in H; [|exact W1]. now apply C1 in H. }
  rewrite E. split.
  - assert (G : forall (p : string * site -> bool) d, NoDup (map fst d) -> NoDup (map fst (filter p d))).
    { intros p. induction d as [|[k s] r IH]; intros N; cbn; [constructor|]. inversion_clear N as [|? ? N1 N2]. destruct (p (k, s)); [|now apply IH]. cbn. constructor; [|now apply IH].
      intros H. apply N1. apply in_map_iff in H. destruct H as (q & Eq & Hq). apply filter_In in Hq. apply in_map_iff. exists q. tauto. }
    apply G. exact W1.
  - intros i. rewrite in_map_iff. unfold input_pop, usable_status. split.
    + intros ([k s] & <- & H). apply filter_In in H. destruct H as (H & B). apply In_dget in H; [|exact W1]. cbn [fst snd] in *. apply andb_prop in B. destruct B as (B1 & B2). apply beq_true in B1. exists s. split; [exact H|]. split; [exact B1|].
      destruct (s_status s); try discriminate; split; discriminate.
    + intros (s & Es & Ts & U1 & U2). exists (i, s). split; [reflexivity|]. apply filter_In. split; [now apply dget_In|]. cbn [fst snd]. rewrite Ts. destruct (s_status s); try reflexivity; congruence.
Qed.
Lemma eligible_dec t i : well_formed t -> eligible t i \/ ~ eligible t i.
Proof.
  intros W. destruct (dget (t_sites t) i) as [s|] eqn:Es; [|right; intros (s & E & _); congruence].
  destruct (eqb_dec (s_type s) DN) as [T|T]; [|right; intros (s' & E & T' & _); congruence].
  destruct (mem i (dns_on_pops t)) eqn:M.
  - right. intros (s' & E & _ & N). apply mem_In, (dns_on_pops_iff t i W) in M. destruct M as (s2 & E2 & _ & Hp). apply N. congruence.
  - left. exists s. split; [exact Es|]. split; [exact T|]. intros Hp. apply mem_not_In in M. apply M. apply (dns_on_pops_iff t i W). eauto.
Qed.

Record access_of (t ta : topo) : Prop := {
  A_wf : well_formed ta;
  A_keys : dkeys (t_sites ta) = dkeys (t_sites t);
  A_demands : t_demands ta = t_demands t;
  A_site : forall i s, dget (t_sites t) i = Some s -> exists sa, dget (t_sites ta) i = Some sa /\ s_loc sa = s_loc s /\
    (eligible t i -> s_type sa = POP) /\ (~ eligible t i -> s_type sa = s_type s) /\ (s_type sa = POP -> s_status sa = s_status s) }.
Lemma access_of_ok t ta : reachable t -> access_topology t = Ok ta -> access_of t ta.
Proof.
  intros R H. pose proof (wf_reachable t R) as W. destruct (access_ok t R) as (t0 & (K & Dm & Sx & Si & Li) & W0 & [(ta' & E & (Same & Cut & Keep & _) & _)|(E & _)]); [|congruence].
  rewrite H in E. injection E as <-. pose proof Same as (K1 & K2 & K3 & K4 & K5 & K6 & K7 & F1 & F2 & F3).
  assert (Sh : ApplySpec.same_shape t0 ta).
  { unfold ApplySpec.same_shape. repeat (split; [assumption|]). split; [|split; [exact F2|exact F3]]. intros i s Es. destruct (F1 i s Es) as (s' & Es' & A & B & C & _ & D'). exists s'. auto. }
  constructor.
  - now apply (ApplyProofs.shape_wf t0 ta).
  - congruence.
  - congruence.
  - intros i s Es. destruct (Si i s Es) as (s0 & Es0 & A1 & A2 & A3 & A4 & A5 & Te & Tn). destruct (F1 i s0 Es0) as (sa & Esa & B1 & B2 & B3 & B4 & B5). exists sa. split; [exact Esa|]. split; [congruence|]. split; [intros X; rewrite B2; now apply Te|]. split; [intros X; rewrite B2; now apply Tn|].
    intros Tp. assert (N : ~ cut_off t0 None i).
    { intros (s1 & Es1 & Cs & NR). rewrite Es0 in Es1. injection Es1 as <-. apply NR. exists 0%nat. split; [|exact Logic.I]. apply route_zero. exists s0. split; [exact Es0|]. split; [congruence|]. cbn. rewrite Cs. auto. }
    specialize (Keep i N). unfold site_status_of in Keep. rewrite Esa, Es0 in Keep. cbn in Keep. congruence.
Qed.
Lemma A_back t ta i sa : access_of t ta -> dget (t_sites ta) i = Some sa -> exists s, dget (t_sites t) i = Some s.
Proof. intros A E. assert (X : In i (dkeys (t_sites t))) by (rewrite <- (A_keys _ _ A); apply In_dkeys; eauto). apply dmem_keys, dmem_Some in X. exact X. Qed.
Lemma proposed_shape ids t : well_formed t -> well_formed (proposed_topo ids t).
Proof.
  apply ApplyProofs.shape_wf. unfold ApplySpec.same_shape, proposed_topo. cbn [set_sites t_sites t_links t_sectors t_demands t_secidx t_conn t_rconn]. rewrite mapv_keys. repeat (split; [reflexivity|]).
  split; [|split; intros k x E; eexists; (split; [exact E|repeat split])]. intros i s E. rewrite mapv_get, E. cbn. eexists. split; [reflexivity|]. unfold proposing. destruct (mem i ids); repeat split.
Qed.

(** every piece of a successful preparation *)
Lemma setup_pieces ps at_ extra t I n : reachable t -> names_ok at_ t -> propose_setup ps at_ extra t = Ok (I, n) ->
  exists ta tp, access_of t ta /\ tp = proposed_topo (usable_pops t) ta /\ well_formed tp /\ names_ok at_ tp /\ network (pop_params ps) at_ tp = Ok I /\
    n = num_pops extra t tp /\ (forall i s, dget (t_sites t) i = Some s -> input_pop t i -> s_status s = PROPOSED \/ s_status s = CANDIDATE).
Proof.
  intros R NM H. pose proof (wf_reachable t R) as W. pose proof (usable_pops_lists t W) as (UN & UI). unfold propose_setup in H.
  destruct (access_topology t) as [ta|] eqn:Ea; [|discriminate]. cbn [rbind] in H. destruct (network (pop_params ps) at_ ta) as [I0|] eqn:En; [|discriminate]. cbn [rbind] in H.
  destruct (for_each _ (usable_pops t) ta) as [[[]|e] tp] eqn:Ef; [|discriminate]. cbn [after rbind] in H. injection H as <- <-.
  assert (A := access_of_ok t ta R Ea). pose proof (A_wf _ _ A) as Wa. pose proof Wa as (Wa1 & _).
  assert (PS : forall i, In i (usable_pops t) -> exists s sa, dget (t_sites t) i = Some s /\ dget (t_sites ta) i = Some sa /\ s_type s = POP /\ usable_status s /\ s_status sa = s_status s).
  { intros i Hi. apply UI in Hi. destruct Hi as (s & Es & Ts & U). destruct (A_site _ _ A i s Es) as (sa & Esa & _ & Te & Tn & Ks). exists s, sa. repeat (split; [assumption|]). apply Ks.
    destruct (eligible_dec t i W) as [X|X]; [now apply Te|]. rewrite Tn; assumption. }
  assert (M : forall i, In i (usable_pops t) -> exists s, dget (t_sites ta) i = Some s /\ immutable (s_status s) = false).
  { intros i Hi. destruct (PS i Hi) as (s & sa & _ & Esa & _). exists sa. split; [exact Esa|]. destruct (immutable (s_status sa)) eqn:Im; [|reflexivity]. exfalso.
    assert (X := for_each_fails (usable_pops t) ta Wa1). rewrite Ef in X. cbn [fst] in X. assert (Ok tt = Err TopologyExn); [|discriminate]. apply X; [|exact UN|eauto].
    intros j Hj. destruct (PS j Hj) as (_ & sj & _ & Ej & _). exists sj. exact Ej. }
  rewrite (for_each_ok _ ta Wa1 M) in Ef. unfold ok in Ef. injection Ef as <-.
  assert (PC : forall i s, dget (t_sites t) i = Some s -> input_pop t i -> s_status s = PROPOSED \/ s_status s = CANDIDATE).
  { intros i s Es Hi. apply UI in Hi. destruct (PS i Hi) as (s1 & sa & Es1 & Esa & _ & (U1 & U2) & Hs). rewrite Es in Es1. injection Es1 as <-. destruct (M i Hi) as (sa' & Esa' & Im). rewrite Esa in Esa'. injection Esa' as <-. rewrite Hs in Im.
    destruct (s_status s); try discriminate; try congruence; auto. }
  exists ta, (proposed_topo (usable_pops t) ta). split; [exact A|]. split; [reflexivity|]. split; [now apply proposed_shape|]. split; [|split; [|split; [reflexivity|exact PC]]].
  - assert (SS : forall i, site_stored (proposed_topo (usable_pops t) ta) i <-> site_stored t i).
    { intros i. unfold site_stored. rewrite proposed_get. split.
      - intros [s E]. destruct (dget (t_sites ta) i) as [sa|] eqn:Esa; [|discriminate]. now apply (A_back t ta i sa A).
      - intros [s Es]. destruct (A_site _ _ A i s Es) as (sa & -> & _). cbn. eauto. }
    destruct NM as (N1 & N2 & N3 & N4 & N5). unfold names_ok, consumer in *. change (t_demands (proposed_topo (usable_pops t) ta)) with (t_demands ta). rewrite (A_demands _ _ A).
    rewrite SS. split; [exact N1|]. split; [exact N2|]. split; [intros n Hc; rewrite SS; now apply N3|]. split; [exact N4|]. intros i d s Ed Hs. rewrite SS. eapply N5; eauto.
  - apply network_proposed; [exact Wa1|exact En|]. intros i Hi. destruct (PS i Hi) as (s & sa & Es & Esa & _ & _ & Hs). exists sa. split; [exact Esa|]. rewrite Hs. apply (PC i s Es). now apply UI.
Qed.

Lemma propose_returns ps at_ extra t ta I : reachable t -> access_topology t = Ok ta -> network (pop_params ps) at_ ta = Ok I ->
  (propose_setup ps at_ extra t = Err TopologyExn <-> exists i s, dget (t_sites t) i = Some s /\ s_type s = POP /\ s_status s = EXISTING) /\
  (propose_setup ps at_ extra t <> Err TopologyExn <-> exists r, propose_setup ps at_ extra t = Ok r).
Proof.
  intros R Ea En. pose proof (wf_reachable t R) as W. pose proof (usable_pops_lists t W) as (UN & UI). unfold propose_setup. rewrite Ea. cbn [rbind]. rewrite En. cbn [rbind].
  assert (A := access_of_ok t ta R Ea). pose proof (A_wf _ _ A) as Wa. pose proof Wa as (Wa1 & _).
  assert (PS : forall i, In i (usable_pops t) -> exists s sa, dget (t_sites t) i = Some s /\ dget (t_sites ta) i = Some sa /\ s_type s = POP /\ usable_status s /\ s_status sa = s_status s).
  { intros i Hi. apply UI in Hi. destruct Hi as (s & Es & Ts & U). destruct (A_site _ _ A i s Es) as (sa & Esa & _ & Te & Tn & Ks). exists s, sa. repeat (split; [assumption|]). apply Ks.
    destruct (eligible_dec t i W) as [X|X]; [now apply Te|]. rewrite Tn; assumption. }
  destruct (existsb (fun i => match dget (t_sites t) i with Some s => beq (s_status s) EXISTING | None => false end) (usable_pops t)) eqn:B.
  - apply existsb_exists in B. destruct B as (i & Hi & B). destruct (PS i Hi) as (s & sa & Es & Esa & Ts & _ & Hs). rewrite Es in B. apply beq_true in B.
    assert (X := for_each_fails (usable_pops t) ta Wa1). destruct (for_each _ (usable_pops t) ta) as [r tp]. cbn [fst] in X. rewrite X.
    + cbn [after rbind]. split; [split; [eauto|reflexivity]|]. split; [congruence|intros [r0 H]; discriminate].
    + intros j Hj. destruct (PS j Hj) as (_ & sj & _ & Ej & _). exists sj. exact Ej.
    + exact UN.
    + exists i, sa. split; [exact Hi|]. split; [exact Esa|]. rewrite Hs, B. reflexivity.
  - assert (M : forall i, In i (usable_pops t) -> exists s, dget (t_sites ta) i = Some s /\ immutable (s_status s) = false).
    { intros i Hi. destruct (PS i Hi) as (s & sa & Es & Esa & _ & (U1 & U2) & Hs). exists sa. split; [exact Esa|]. rewrite Hs.
      assert (NE : s_status s <> EXISTING). { intros Ne. assert (X : existsb (fun i => match dget (t_sites t) i with Some s => beq (s_status s) EXISTING | None => false end) (usable_pops t) = true); [|congruence]. apply existsb_exists. exists i. split; [exact Hi|]. rewrite Es, Ne. reflexivity. }
      destruct (s_status s); try reflexivity; congruence. }
    rewrite (for_each_ok _ ta Wa1 M). cbn [ok after rbind]. split; split; [discriminate| |eauto|congruence].
    intros (i & s & Es & Ts & Ss). exfalso. assert (Hi : In i (usable_pops t)). { apply UI. exists s. split; [exact Es|]. split; [exact Ts|]. unfold usable_status. rewrite Ss. split; discriminate. }
    assert (X : existsb (fun i => match dget (t_sites t) i with Some s => beq (s_status s) EXISTING | None => false end) (usable_pops t) = true); [|congruence]. apply existsb_exists. exists i. split; [exact Hi|]. rewrite Es, Ss. reflexivity.
Qed.

(** ** the answers *)
Local Open Scope Q_scope.
Lemma count_ones {A} (f : A -> Q) l : (forall x, In x l -> bin (f x)) -> total f l == inject_Z (Z.of_nat (List.length (filter (fun x => Qeq_bool (f x) 1) l))).
Proof.
  induction l as [|x r IH]; intros H; [reflexivity|]. cbn [total filter]. rewrite IH by (intros y Hy; apply H; now right). destruct (Qeq_bool (f x) 1) eqn:E.
  - apply Qeq_bool_iff in E. rewrite E. cbn [List.length]. rewrite Nat2Z.inj_succ. unfold Z.succ. rewrite inject_Z_plus. change (inject_Z 1) with 1%Q. ring.
  - destruct (H x (or_introl eq_refl)) as [Z0|Z1]; [rewrite Z0; ring|]. apply Qeq_bool_iff in Z1. congruence.
Qed.
Lemma lists_length {A} (l r : list A) P : lists l P -> lists r P -> List.length l = List.length r.
Proof. intros H1 H2. apply Permutation_length. eapply lists_perm; eauto. Qed.

Definition eligibles (t : topo) : list string :=
  filter (fun i => match dget (t_sites t) i with Some s => beq (s_type s) DN && negb (mem i (dns_on_pops t)) | None => false end) (dkeys (t_sites t)).
Lemma eligibles_lists t : well_formed t -> lists (eligibles t) (eligible t).
Proof.
  intros W. split; [apply NoDup_filter, W|]. intros i. unfold eligibles. rewrite filter_In. split.
  - intros (_ & B). destruct (dget (t_sites t) i) as [s|] eqn:Es; [|discriminate]. apply andb_prop in B. destruct B as (B1 & B2). apply beq_true in B1. exists s. split; [exact Es|]. split; [exact B1|]. intros Hp. apply negb_true_iff, mem_not_In in B2. apply B2, (dns_on_pops_iff t i W). eauto.
  - intros (s & Es & Ts & N). split; [apply In_dkeys; eauto|]. rewrite Es, Ts. cbn. apply negb_true_iff, mem_not_In. intros M. apply (dns_on_pops_iff t i W) in M. destruct M as (s' & Es' & _ & Hp). apply N. congruence.
Qed.
Definition usable_dns (t : topo) : list string :=
  filter (fun i => match dget (t_sites t) i with Some s => negb (mem (s_status s) [UNAVAILABLE; UNREACHABLE]) | None => false end) (eligibles t).
Lemma usable_dns_lists t : well_formed t -> lists (usable_dns t) (usable_dn t).
Proof.
  intros W. pose proof (eligibles_lists t W) as Le. split; [apply NoDup_filter, Le|]. intros i. unfold usable_dns. rewrite filter_In, (proj2 Le i). unfold usable_dn, usable_status. split.
  - intros (H1 & H2). split; [exact H1|]. destruct (dget (t_sites t) i) as [s|]; [|discriminate]. exists s. split; [reflexivity|]. destruct (s_status s); try discriminate; split; discriminate.
  - intros (H1 & s & Es & U1 & U2). split; [exact H1|]. rewrite Es. destruct (s_status s); try reflexivity; congruence.
Qed.

Section Answers.
Variables (ps : params) (at_ : attrs) (extra : nat) (t : topo) (I : inst) (P : problem) (v : var -> Q).
Hypothesis R : reachable t.
Hypothesis NM : names_ok at_ t.
Hypothesis HP : propose_problem ps at_ extra t = Ok (I, P).
Hypothesis Hv : feasible P v.

Lemma answer_pieces : exists ta tp, access_of t ta /\ tp = proposed_topo (usable_pops t) ta /\ well_formed tp /\ names_ok at_ tp /\ network (pop_params ps) at_ tp = Ok I /\
  site_problem (CoverageUnderPops (num_pops extra t tp)) [] I = Ok P /\
  (forall i s, dget (t_sites t) i = Some s -> input_pop t i -> s_status s = PROPOSED \/ s_status s = CANDIDATE).
Proof using R NM HP.
  assert (H := HP). unfold propose_problem in H. destruct (propose_setup ps at_ extra t) as [[I0 n]|] eqn:E; [|discriminate]. cbn [rbind fst snd] in H.
  destruct (site_problem (CoverageUnderPops n) [] I0) as [P0|] eqn:Ep; [|discriminate]. cbn [rbind] in H. injection H as -> ->.
  destruct (setup_pieces ps at_ extra t I n R NM E) as (ta & tp & A & Et & Wp & Np & Nw & -> & PC). exists ta, tp. repeat (split; [assumption|]). assumption.
Qed.

(** the sites of the problem *)
Lemma problem_site ta i s : access_of t ta -> dget (t_sites t) i = Some s ->
  exists sp, dget (t_sites (proposed_topo (usable_pops t) ta)) i = Some sp /\ s_loc sp = s_loc s /\
    (s_type sp = POP <-> s_type s = POP \/ eligible t i) /\
    (input_pop t i -> s_status sp = PROPOSED) /\ (s_type sp = POP -> ~ input_pop t i -> s_status sp = s_status s).
Proof using R.
  intros A Es. pose proof (wf_reachable t R) as W. destruct (A_site _ _ A i s Es) as (sa & Esa & L & Te & Tn & Ks). exists (proposing (usable_pops t) i sa). rewrite proposed_get, Esa. split; [reflexivity|].
  pose proof (proj2 (usable_pops_lists t W) i) as UI. assert (Ty : s_type (proposing (usable_pops t) i sa) = s_type sa) by (unfold proposing; now destruct (mem _ _)). rewrite Ty.
  split; [unfold proposing; now destruct (mem _ _)|]. split.
  - destruct (eligible_dec t i W) as [X|X]; [split; [now right|intros _; now apply Te]|]. rewrite Tn by exact X. split; [now left|intros [H|H]; [exact H|contradiction]].
  - unfold proposing. split.
    + intros X. apply UI in X. apply mem_In in X. rewrite X. reflexivity.
    + intros Tp X. rewrite <- (Ks Tp). destruct (mem i (usable_pops t)) eqn:M; [|reflexivity]. apply mem_In, UI in M. contradiction.
Qed.
Lemma problem_pop ta i : access_of t ta -> (input_pop (proposed_topo (usable_pops t) ta) i <-> possible_pop t i).
Proof using R.
  intros A. pose proof (wf_reachable t R) as W. split.
  - intros (sp & Esp & Tp & U). assert (X : exists s, dget (t_sites t) i = Some s). { rewrite proposed_get in Esp. destruct (dget (t_sites ta) i) as [sa|] eqn:E; [|discriminate]. now apply (A_back t ta i sa A). }
    destruct X as [s Es]. destruct (problem_site ta i s A Es) as (sp' & Esp' & _ & T & S1 & S2). rewrite Esp in Esp'. injection Esp' as <-. apply T in Tp as Tp'.
    assert (Dec : input_pop t i \/ ~ input_pop t i). { destruct (mem i (usable_pops t)) eqn:M; [left; apply mem_In in M; now apply (usable_pops_lists t W)|right; intros X; apply mem_not_In in M; apply M; now apply (usable_pops_lists t W)]. }
    destruct Dec as [X|X]; [now left|]. specialize (S2 Tp X). unfold usable_status in U. rewrite S2 in U. destruct Tp' as [Ts|El]; [left; exists s; auto|]. right. split; [exact El|]. exists s. auto.
  - intros [X|(El & s & Es & U)].
    + pose proof X as (s & Es & Ts & U). destruct (problem_site ta i s A Es) as (sp & Esp & _ & T & S1 & _). exists sp. split; [exact Esp|]. split; [apply T; now left|]. unfold usable_status. rewrite (S1 X). split; discriminate.
    + destruct (problem_site ta i s A Es) as (sp & Esp & _ & T & _ & S2). assert (Tp : s_type sp = POP) by (apply T; now right). exists sp. split; [exact Esp|]. split; [exact Tp|].
      assert (N : ~ input_pop t i). { intros (s' & Es' & Ts' & _). destruct El as (s2 & Es2 & Ts2 & _). congruence. } unfold usable_status in *. now rewrite (S2 Tp N).
Qed.

(** the POPs of an answer are possible POPs, and there are as many as asked for *)
Lemma chosen_number : (0 < extra)%nat -> forall ins pos, lists ins (input_pop t) -> lists pos (possible_pop t) ->
  exists sel, lists sel (fun i => selected v i /\ possible_pop t i) /\ List.length sel = Nat.min (extra + List.length ins) (List.length pos).
Proof using R NM HP Hv.
  intros Ex ins pos Li Lp. destruct answer_pieces as (ta & tp & A & Et & Wp & Np & Nw & Sp & _). pose proof (wf_reachable t R) as W.
  assert (Ui : List.length (usable_pops t) = List.length ins) by (eapply lists_length; [now apply usable_pops_lists|exact Li]).
  assert (Up : List.length (usable_pops tp) = List.length pos).
  { destruct (usable_pops_lists tp Wp) as (U1 & U2). eapply lists_length; [|exact Lp]. split; [exact U1|]. intros i. rewrite U2. subst tp. now apply problem_pop. }
  unfold num_pops in Sp. rewrite Ui, Up in Sp. set (n := Nat.min (extra + List.length ins) (List.length pos)) in *.
  exists (filter (fun i => Qeq_bool (v (VSite i)) 1) pos). destruct Lp as (Lp1 & Lp2). split.
  { split; [now apply NoDup_filter|]. intros i. rewrite filter_In, Lp2. unfold selected. rewrite Qeq_bool_iff. tauto. }
  destruct n as [|n'] eqn:En.
  { assert (X : List.length pos = 0%nat) by (unfold n in En; clear - En Ex; lia). apply length_zero_iff_nil in X. subst pos. reflexivity. }
  pose proof (desc _ _ _ _ Wp Np Nw) as D.
  destruct (pieces _ _ _ _ _ Sp Hv) as (V & ds & sk & tk & ok & c1 & c2 & c3 & c4 & c5 & c6 & c7 & c8 & c9 & c10 & c11 & cx & Esk & _ & _ & VS & H).
  assert (X : exists cx, goal_constraint (CoverageUnderPops (S n')) (with_channels 1 I) V = Ok cx /\ forall c, In c cx -> sat v c).
  { repeat match type of H with _ /\ _ => destruct H as (? & H) end. eauto. }
  clear H. destruct X as (cx' & Ecx & Sx). cbn [goal_constraint create_pop_constraint] in Ecx. unfold create_pop_constraint in Ecx.
  set (L := filter (fun loc => mem loc (i_set (with_channels 1 I) (Real POP))) (i_locations (with_channels 1 I))) in *.
  destruct (mapM (get (v_site V)) L) as [xs|] eqn:Exs; [|discriminate]. cbn [rbind] in Ecx. injection Ecx as <-. specialize (Sx _ (or_introl eq_refl)). cbn [sat eval] in Sx.
  rewrite (sites_sum _ _ V sk L xs Esk VS Exs) in Sx.
  assert (BIN : forall i, site_stored tp i -> bin (v (VSite i))) by (apply (decls_all _ _ _ _ _ _ _ _ Wp Np Nw Sp Hv)).
  assert (LL : lists L (is_pop tp)).
  { split; [apply NoDup_filter; apply D|]. intros i. unfold L. rewrite filter_In, mem_In, (D_rset _ _ _ _ _ D). unfold is_pop. split; [tauto|]. intros (s & Es & Ts). split; [apply (D_locs _ _ _ _ _ D); right; left; exists s; exact Es|eauto]. }
  rewrite count_ones in Sx; [|intros i Hi; apply BIN; apply LL in Hi; destruct Hi as (s & Es & _); exists s; exact Es].
  assert (C : List.length (filter (fun i => Qeq_bool (v (VSite i)) 1) pos) = List.length (filter (fun i => Qeq_bool (v (VSite i)) 1) L)).
  { apply (lists_length _ _ (fun i => selected v i /\ possible_pop t i)).
    - split; [now apply NoDup_filter|]. intros i. rewrite filter_In, Lp2. unfold selected. rewrite Qeq_bool_iff. tauto.
    - split; [apply NoDup_filter, LL|]. intros i. rewrite filter_In, Qeq_bool_iff, (proj2 LL i). unfold selected. split; [|intros (H1 & H2); split; [|exact H1]].
      + intros ((sp & Esp & Tp) & H1). split; [exact H1|]. subst tp. apply (problem_pop ta i A). exists sp. split; [exact Esp|]. split; [exact Tp|].
        assert (RO := ruled_out _ _ _ _ _ _ _ _ Wp Np Nw Sp Hv i sp Esp). split; intros Hs; apply RO; auto; cbn; discriminate.
      + apply (problem_pop ta i A) in H2. destruct H2 as (sp & Esp & Tp & _). subst tp. exists sp. auto. }
  rewrite C. unfold Qeq, inject_Z in Sx. cbn [Qnum Qden] in Sx. rewrite !Z.mul_1_r in Sx. apply Nat2Z.inj. exact Sx.
Qed.

(** at the place of each input POP an input POP is chosen *)
Lemma inputs_kept i s : dget (t_sites t) i = Some s -> input_pop t i ->
  exists j sj, dget (t_sites t) j = Some sj /\ same_place sj s /\ input_pop t j /\ selected v j.
Proof using R NM HP Hv.
  intros Es Hi. destruct answer_pieces as (ta & tp & A & Et & Wp & Np & Nw & Sp & _). pose proof (wf_reachable t R) as W.
  destruct (problem_site ta i s A Es) as (sp & Esp & L & T & S1 & _). rewrite <- Et in Esp. assert (Tp : s_type sp = POP) by (apply T; left; destruct Hi as (s' & Es' & Ts & _); congruence).
  specialize (S1 Hi).
  assert (RO := ruled_out _ _ _ _ _ _ _ _ Wp Np Nw Sp Hv).
  assert (Dec : (exists j sj, dget (t_sites tp) j = Some sj /\ s_loc sj = s_loc sp /\ i <> j) \/ (forall j sj, dget (t_sites tp) j = Some sj -> s_loc sj = s_loc sp -> j = i)).
  { destruct (existsb (fun p : string * site => beq (s_loc (snd p)) (s_loc sp) && negb (beq i (fst p))) (t_sites tp)) eqn:B.
    - left. apply existsb_exists in B. destruct B as ([j sj] & Hj & B). cbn in B. apply andb_prop in B. destruct B as (B1 & B2). apply In_dget in Hj; [|apply Wp]. exists j, sj. split; [exact Hj|]. split; [now apply beq_true|]. apply negb_true_iff in B2. now apply beq_false.
    - right. intros j sj Ej Lj. destruct (eqb_dec j i) as [|N]; [assumption|]. exfalso. assert (X : existsb (fun p : string * site => beq (s_loc (snd p)) (s_loc sp) && negb (beq i (fst p))) (t_sites tp) = true); [|congruence].
      apply existsb_exists. exists (j, sj). split; [now apply dget_In|]. cbn. rewrite Lj, beq_refl. cbn. apply negb_true_iff, beq_neq. congruence. }
  destruct Dec as [Many|One].
  - destruct (colocated_kept _ _ _ _ _ _ _ _ Wp Np Nw Sp Hv i sp Esp) as (j & sj & Ej & Lj & Sel & Rk & _); [left; exact S1|exact Many|].
    assert (Tj : s_type sj = POP) by (rewrite Tp in Rk; destruct (s_type sj); cbn in Rk; lia || reflexivity).
    assert (Pj : input_pop tp j). { exists sj. split; [exact Ej|]. split; [exact Tj|]. split; intros Hs; apply (RO j sj Ej); auto; cbn; discriminate. }
    assert (Pp : possible_pop t j) by (apply (problem_pop ta j A); congruence).
    assert (X : exists s', dget (t_sites t) j = Some s'). { rewrite Et in Ej. rewrite proposed_get in Ej. destruct (dget (t_sites ta) j) as [sa|] eqn:E; [|discriminate]. now apply (A_back t ta j sa A). }
    destruct X as [s' Es']. destruct (problem_site ta j s' A Es') as (sp' & Esp' & L' & _). rewrite <- Et in Esp'. rewrite Ej in Esp'. injection Esp' as <-.
    exists j, s'. split; [exact Es'|]. split; [unfold same_place; congruence|]. split; [|exact Sel]. destruct Pp as [?|((s2 & Es2 & _ & Nopop) & _)]; [assumption|]. exfalso. apply Nopop.
    exists i, s. split; [exact Es|]. destruct Hi as (s3 & Es3 & Ts3 & _). split; [congruence|]. unfold same_place. congruence.
  - exists i, s. split; [exact Es|]. split; [reflexivity|]. split; [exact Hi|]. apply (lone_decided _ _ _ _ _ _ _ _ Wp Np Nw Sp Hv i sp Esp One). now left.
Qed.

(** with the input POPs apart, exactly the extra POPs are new *)
Lemma new_number : (0 < extra)%nat -> pops_apart t -> forall new pos, lists new (fun i => selected v i /\ eligible t i) -> lists pos (usable_dn t) ->
  List.length new = Nat.min extra (List.length pos).
Proof using R NM HP Hv.
  intros Ex Ap new pos Ln Lp. pose proof (wf_reachable t R) as W. pose proof (usable_pops_lists t W) as Li. set (ins := usable_pops t) in *.
  assert (SelIn : forall i, input_pop t i -> selected v i).
  { intros i Hi. pose proof Hi as (s & Es & _). destruct (inputs_kept i s Es Hi) as (j & sj & Ej & Pl & Hj & Sel). rewrite (Ap i j s sj Hi Hj Es Ej); [exact Sel|]. unfold same_place in *. congruence. }
  assert (Disj : forall i, input_pop t i -> eligible t i -> False).
  { intros i (s & Es & Ts & _) (s' & Es' & Ts' & _). congruence. }
  assert (Lpos : lists (ins ++ pos)%list (possible_pop t)).
  { split; [|intros i; rewrite in_app_iff, (proj2 Li i), (proj2 Lp i); reflexivity]. apply TopologyProofs.NoDup_app_iff. split; [apply Li|]. split; [apply Lp|]. intros i H1 H2. apply Li in H1. apply Lp in H2. exact (Disj i H1 (proj1 H2)). }
  destruct (chosen_number Ex ins (ins ++ pos)%list Li Lpos) as (sel & Ls & Len). rewrite app_length in Len.
  assert (Lsel : lists (ins ++ new)%list (fun i => selected v i /\ possible_pop t i)).
  { split.
    - apply TopologyProofs.NoDup_app_iff. split; [apply Li|]. split; [apply Ln|]. intros i H1 H2. apply Li in H1. apply Ln in H2. exact (Disj i H1 (proj2 H2)).
    - intros i. rewrite in_app_iff, (proj2 Li i), (proj2 Ln i). split.
      + intros [H|(H1 & H2)]; [split; [now apply SelIn|now left]|]. split; [exact H1|]. right. split; [exact H2|]. pose proof H2 as (s & Es & _). exists s. split; [exact Es|].
        destruct answer_pieces as (ta & tp & A & Et & Wp & Np & Nw & Sp & _). destruct (problem_site ta i s A Es) as (sp & Esp & _ & T & _ & S2). rewrite <- Et in Esp. assert (Tp : s_type sp = POP) by (apply T; now right).
        assert (Ni : ~ input_pop t i) by (intros X; exact (Disj i X H2)). specialize (S2 Tp Ni). unfold usable_status. rewrite <- S2.
        assert (RO := ruled_out _ _ _ _ _ _ _ _ Wp Np Nw Sp Hv i sp Esp). split; intros Hs; apply RO; auto; cbn; discriminate.
      + intros (H1 & [H2|(H2 & _)]); [now left|right; now split]. }
  rewrite (lists_length _ _ _ Ls Lsel), app_length in Len. lia.
Qed.

(** a DN in use that stands alone is chosen *)
Lemma in_use_chosen i : usable_dn t i -> proposed_or_existing t i -> lone t i -> selected v i.
Proof using R NM HP Hv.
  intros (El & _) (s & Es & St) Lo. destruct answer_pieces as (ta & tp & A & Et & Wp & Np & Nw & Sp & _). destruct (problem_site ta i s A Es) as (sp & Esp & L & T & _ & S2). rewrite <- Et in Esp.
  assert (Ni : ~ input_pop t i). { intros (s1 & Es1 & Ts1 & _). destruct El as (s2 & Es2 & Ts2 & _). congruence. }
  assert (Tp : s_type sp = POP) by (apply T; now right). specialize (S2 Tp Ni). apply (lone_decided _ _ _ _ _ _ _ _ Wp Np Nw Sp Hv i sp Esp); [|rewrite S2; tauto].
  intros j sj Ej Lj. assert (X : exists s', dget (t_sites t) j = Some s'). { rewrite Et in Ej. rewrite proposed_get in Ej. destruct (dget (t_sites ta) j) as [sa|] eqn:E; [|discriminate]. now apply (A_back t ta j sa A). }
  destruct X as [s' Es']. destruct (problem_site ta j s' A Es') as (sp' & Esp' & L' & _). rewrite <- Et, Ej in Esp'. injection Esp' as <-. apply (Lo s j s' Es Es'). unfold same_place. congruence.
Qed.
Lemma in_use_number : (0 < extra)%nat -> pops_apart t -> forall l, NoDup l -> (forall i, In i l -> usable_dn t i /\ proposed_or_existing t i /\ lone t i) -> (List.length l <= extra)%nat.
Proof using R NM HP Hv.
  intros Ex Ap l ND H. pose proof (wf_reachable t R) as W.
  pose proof (eligibles_lists t W) as Le. set (els := eligibles t) in *.
  set (new := filter (fun i => Qeq_bool (v (VSite i)) 1) els).
  assert (Ln : lists new (fun i => selected v i /\ eligible t i)).
  { split; [apply NoDup_filter, Le|]. intros i. unfold new. rewrite filter_In, Qeq_bool_iff, (proj2 Le i). unfold selected. tauto. }
  pose proof (usable_dns_lists t W) as Lp. set (pos := usable_dns t) in *.
  assert (E := new_number Ex Ap new pos Ln Lp). assert (B : (List.length l <= List.length new)%nat); [|lia].
  apply NoDup_incl_length; [exact ND|]. intros i Hi. destruct (H i Hi) as (U & PE & Lo). apply Ln. split; [now apply in_use_chosen|apply U].
Qed.
(** one site per place *)
Lemma one_per_place i j si sj : selected v i -> selected v j -> dget (t_sites t) i = Some si -> dget (t_sites t) j = Some sj -> same_place si sj -> i = j.
Proof using R NM HP Hv.
  intros Si Sj Ei Ej L. destruct answer_pieces as (ta & tp & A & Et & Wp & Np & Nw & Sp & _).
  destruct (problem_site ta i si A Ei) as (pi & Epi & Li & _). destruct (problem_site ta j sj A Ej) as (pj & Epj & Lj & _). rewrite <- Et in Epi, Epj.
  destruct (eqb_dec i j) as [|N]; [assumption|]. exfalso. apply (colocated_exclusive _ _ _ _ _ _ _ _ Wp Np Nw Sp Hv i j pi pj Epi Epj N); [unfold same_place in L; congruence|]. now split.
Qed.
End Answers.
