(** What each constraint builder imposes, for an instance that describes a topology. *)
From Coq Require Import QArith Lqa Lia Permutation.
From Verif Require Import Base Dict TopologyModel TopologySpec GraphSpec RfModel RfProofs SetupModel IlpModel IlpSpec QLib MonadLib SetupProofs.
Local Open Scope Q_scope.

(** ** instances that describe a topology *)
Record describes (ps : params) (at_ : attrs) (t : topo) (cap : edge -> Q) (I : inst) : Prop := {
  D_locs : forall n, In n (i_locations I) <-> n = SUPERSOURCE \/ site_stored t n \/ consumer at_ t n;
  D_locs_nd : NoDup (i_locations I);
  D_site : forall i s, dget (t_sites t) i = Some s -> dget (i_type I) i = Some (Real (s_type s));
  D_cons : forall n, consumer at_ t n -> dget (i_type I) n = Some Demand;
  D_super : dget (i_type I) SUPERSOURCE = Some Supersource;
  D_type : forall n ty, dget (i_type I) n = Some ty ->
    (n = SUPERSOURCE /\ ty = Supersource) \/ (exists s, dget (t_sites t) n = Some s /\ ty = Real (s_type s)) \/ (consumer at_ t n /\ ty = Demand);
  D_dset : forall n, In n (i_set I Demand) <-> consumer at_ t n;
  D_rset : forall ty i, In i (i_set I (Real ty)) <-> exists s, dget (t_sites t) i = Some s /\ s_type s = ty;
  D_links : forall e, In e (i_links I) <-> flow_edge at_ t e;
  D_links_nd : NoDup (i_links I);
  D_ends : forall e, In e (i_links I) -> In (fst e) (i_locations I) /\ In (snd e) (i_locations I);
  D_cap : forall k l, link_stored t k l -> dget (i_cap I) (l_tx l, l_rx l) = Some (cap (l_tx l, l_rx l));
  D_l2s : forall k l, link_stored t k l -> dget (i_l2s I) (l_tx l, l_rx l) =
    Some (match l_sectors l with Some (x, y) => (Some (key_id x), Some (key_id y)) | None => (None, None) end);
  D_l2s_inv : forall e a b, dget (i_l2s I) e = Some (a, b) ->
    (exists k l, link_stored t k l /\ e = (l_tx l, l_rx l)) \/ ((forall s, a <> Some (key_id s)) /\ (forall s, b <> Some (key_id s)));
  D_l2s_tot : forall e, In e (i_links I) -> exists p, dget (i_l2s I) e = Some p;
  D_wired : forall k l, link_stored t k l -> mem (l_tx l, l_rx l) (i_wired I) = negb (l_wireless l);
  D_secs_tot : forall loc, In loc (i_locations I) -> exists l, dget (i_secs I) loc = Some l;
  D_secs_loc : forall loc l, dget (i_secs I) loc = Some l -> In loc (i_locations I);
  D_secs : forall k x, sector_stored t k x -> exists l, dget (i_secs I) (x_site x) = Some l /\ In k l;
  D_sectype : forall k x, sector_stored t k x -> dget (i_sectype I) k = Some (if k_cn (x_key x) then SecCN else SecDN);
  D_sectype_tot : forall loc l a, dget (i_secs I) loc = Some l -> In a l -> exists ty, dget (i_sectype I) a = Some ty;
  D_sec_inv : forall loc l a ty, dget (i_secs I) loc = Some l -> In a l -> dget (i_sectype I) a = Some ty -> imaginary_sec ty = false ->
    exists x, sector_stored t a x /\ x_site x = loc;
  D_alinks : forall e, In e (i_proposed_links I ++ i_existing_links I)%list <-> active_link_of t e;
  D_es : forall i, In i (i_existing_sites I) <-> exists s, dget (t_sites t) i = Some s /\ s_status s = EXISTING;
  D_ps : forall i, In i (i_proposed_sites I) <-> exists s, dget (t_sites t) i = Some s /\ s_status s = PROPOSED;
  D_is : forall i, In i (i_inactive_sites I) <-> exists s, dget (t_sites t) i = Some s /\ (s_status s = UNAVAILABLE \/ s_status s = UNREACHABLE);
  D_il : forall k l, link_stored t k l -> l_status l = UNAVAILABLE \/ l_status l = UNREACHABLE \/ (l_wireless l = true /\ l_sectors l = None) ->
    In (l_tx l, l_rx l) (i_inactive_links I);
  D_demand : forall n, consumer at_ t n -> exists i d, dget (t_demands t) i = Some d /\ consumer_of at_ d n /\ dget (i_demand I) n = Some (demand_value ps at_ d);
  D_col : forall c locs, dget (i_colocated I) c = Some locs -> lists locs (fun i => exists s, dget (t_sites t) i = Some s /\ s_loc s = c);
  D_col_dom : forall i s, dget (t_sites t) i = Some s -> exists locs, dget (i_colocated I) (s_loc s) = Some locs;
  D_col_wf : dwf (i_colocated I);
  D_geo : forall i s, dget (t_sites t) i = Some s -> dget (i_geo I) i = Some (s_loc s) }.

Lemma inactive_links t : well_formed t -> forall k l, link_stored t k l ->
  l_status l = UNAVAILABLE \/ l_status l = UNREACHABLE \/ (l_wireless l = true /\ l_sectors l = None) ->
  In (l_tx l, l_rx l) (get_link_site_id_pairs t (Some [UNAVAILABLE; UNREACHABLE]) None ++ get_sectorless_links t)%list.
Proof.
  intros Hw k l El H. apply in_app_iff. destruct H as [H|[H|(H1 & H2)]].
  1,2: left; apply links_by_status; auto; exists k, l; rewrite H; cbn; auto.
  right. unfold get_sectorless_links. apply in_map_iff. exists (k, l). split; [auto|]. apply filter_In. split; [now apply dget_In|].
  cbn. unfold l_type, is_out_of_sector. rewrite H1, H2. cbn. now destruct (l_rx_cn l).
Qed.

Lemma setup_describes ps at_ t I : well_formed t -> names_ok at_ t -> setup ps at_ t = Ok I -> describes ps at_ t (a_cap at_) I.
Proof.
  intros Hw Hn Hs. destruct (setup_fields ps at_ t I Hs) as (thr & Ethr & Eep & Edem & Eself & Fps & Floc & Ftype & Fset & Fsecs & Fst & Fl2s & Fcap & Fdem & Fgeo & Fcol & Fwired & Fes & Fpsi & Fis & Fel & Fpl & Fil & Fpsec & Fcost & Fmax).
  split.
  all: try (first [eapply locations_iff|eapply locations_NoDup|eapply type_site|eapply type_consumer|eapply type_super|eapply type_inv
    |eapply demand_set|eapply real_set|eapply links_iff|eapply links_NoDup|eapply link_ends|eapply topology_cap|eapply topology_l2s|eapply l2s_inv|eapply l2s_total
    |eapply wired_topology|eapply secs_total|eapply secs_location|eapply secs_sector|eapply sectype_sector|eapply sectype_total|eapply real_sector_inv
    |eapply active_links_iff|eapply consumer_demand|eapply colocated_get|eapply colocated_dom|eapply colocated_wf|eapply geo_site]; eassumption).
  - intros i. rewrite Fes, sites_by_status by auto. cbn. split; [intros (s & ? & [?|[]]); eauto|intros (s & ? & ?); exists s; auto].
  - intros i. rewrite Fpsi, sites_by_status by auto. cbn. split; [intros (s & ? & [?|[]]); eauto|intros (s & ? & ?); exists s; auto].
  - intros i. rewrite Fis, sites_by_status by auto. cbn. split; [intros (s & ? & [?|[?|[]]]); eauto|intros (s & ? & [?|?]); exists s; auto].
  - rewrite Fil. now apply inactive_links.
Qed.
Lemma with_channels_describes (n : nat) ps at_ t cap I : describes ps at_ t cap I -> describes ps at_ t cap (with_channels n I).
Proof. intros []. constructor; assumption. Qed.
Lemma maxflow_describes (cs : list edge) (r : edge -> bool) ps at_ t cap I : describes ps at_ t cap I ->
  describes ps at_ t (fun e => if r e then 0 else cap e) (maxflow_inst cs r I).
Proof.
  assert (L : i_links (maxflow_inst cs r I) = i_links I).
  { unfold i_links, maxflow_inst, dkeys. cbn [i_cap]. rewrite map_map. reflexivity. }
  intros []. constructor; rewrite ?L; try assumption.
  - intros k l El. unfold maxflow_inst. cbn [i_cap]. generalize (D_cap0 k l El). clear. generalize (i_cap I). intros c. induction c as [|[e q] c IH]; cbn; [discriminate|].
    destruct (beq_spec (l_tx l, l_rx l) e) as [<-|?]; [intros E; injection E as ->; reflexivity|exact IH].
  - intros k l El H. cbn [maxflow_inst i_inactive_links]. apply in_app_iff. left. eauto.
Qed.

Section Describes.
Variables (ps : params) (at_ : attrs) (t : topo) (cap : edge -> Q) (I : inst).
Hypothesis D : describes ps at_ t cap I.
Hypothesis Hw : well_formed t.
Hypothesis Hn : names_ok at_ t.

Lemma edge_kinds e : In e (i_links I) ->
  (exists k l, link_stored t k l /\ e = (l_tx l, l_rx l)) \/ fst e = SUPERSOURCE /\ is_pop t (snd e) \/ (site_stored t (fst e) /\ consumer at_ t (snd e)).
Proof.
  intros He. apply (D_links _ _ _ _ _ D) in He. destruct He as [?|[(i & d & Ed & Hin & Hc)|(k & l & El & ->)]]; [auto| |left; eauto].
  right; right. destruct Hn as (_ & _ & _ & _ & N). split; [eapply N; eauto|exists i, d; auto].
Qed.
(** a link between sites is a link of the topology *)
Lemma real_edge e : In e (i_links I) -> site_stored t (fst e) -> site_stored t (snd e) -> exists k l, link_stored t k l /\ e = (l_tx l, l_rx l).
Proof.
  intros He H1 H2. destruct Hn as (N1 & N2 & N3 & _). destruct (edge_kinds e He) as [?|[(E & _)|(_ & Hc)]]; [auto| |].
  - exfalso. apply N1. now rewrite <- E.
  - exfalso. exact (N3 _ Hc H2).
Qed.
Lemma link_in k l : link_stored t k l -> In (l_tx l, l_rx l) (i_links I).
Proof. intros El. apply (D_links _ _ _ _ _ D). right; right. eauto. Qed.
Lemma link_sites k l : link_stored t k l -> site_stored t (l_tx l) /\ site_stored t (l_rx l).
Proof. intros El. destruct Hw as (_ & _ & _ & _ & _ & _ & C & _). now destruct (C _ _ El). Qed.
Lemma site_not_super i : site_stored t i -> i <> SUPERSOURCE.
Proof. intros H ->. now apply (proj1 Hn). Qed.
Lemma link_fun k l k' l' : link_stored t k l -> link_stored t k' l' -> (l_tx l, l_rx l) = (l_tx l', l_rx l') -> l = l'.
Proof. intros E E' H. injection H as H1 H2. eapply link_of_ends; eauto. Qed.

(** ** flows *)
Lemma incoming_ok loc es : incoming I loc = Ok es -> into at_ t loc es.
Proof.
  unfold incoming. destruct (mem loc (i_locations I)); [|discriminate]. intros E. injection E as <-. split; [apply NoDup_filter', (D_links_nd _ _ _ _ _ D)|].
  intros e. rewrite filter_In, (D_links _ _ _ _ _ D). split; intros [? H]; split; auto; [now apply beq_true in H|subst; apply beq_refl].
Qed.
Lemma outgoing_ok loc es : outgoing I loc = Ok es -> out_of at_ t loc es.
Proof.
  unfold outgoing. destruct (mem loc (i_locations I)); [|discriminate]. intros E. injection E as <-. split; [apply NoDup_filter', (D_links_nd _ _ _ _ _ D)|].
  intros e. rewrite filter_In, (D_links _ _ _ _ _ D). split; intros [? H]; split; auto; [now apply beq_true in H|subst; apply beq_refl].
Qed.
Lemma lists_out loc : In loc (i_locations I) -> exists es, outgoing I loc = Ok es /\ out_of at_ t loc es.
Proof. intros H. unfold outgoing. assert (M := H). apply mem_In in M. rewrite M. eexists. split; [reflexivity|]. apply outgoing_ok. unfold outgoing. now rewrite M. Qed.
Lemma lists_in loc : In loc (i_locations I) -> exists es, incoming I loc = Ok es /\ into at_ t loc es.
Proof. intros H. unfold incoming. assert (M := H). apply mem_In in M. rewrite M. eexists. split; [reflexivity|]. apply incoming_ok. unfold incoming. now rewrite M. Qed.

Variable V : tables.
Hypothesis VF : v_flow V = dict_of (fresh flow_var (flow_keys I)).
Hypothesis VT : exists tk, tdm_keys I = Ok tk /\ v_tdm V = dict_of (fresh tdm_var tk).
Variable v : var -> Q.

Lemma flow_get e : In e (i_links I) -> dget (v_flow V) e = Some (Var (flow_var e)).
Proof. intros H. rewrite VF, fresh_get. unfold flow_keys. apply mem_In in H. now rewrite H. Qed.
Lemma flow_get_inv e x : dget (v_flow V) e = Some x -> x = Var (flow_var e).
Proof. rewrite VF, fresh_get. destruct (mem _ _); congruence. Qed.
Lemma flow_sum_val es o : flow_sum V es = Ok o -> eval v (or_zero o) == total (flow v) es /\ (o = None -> es = []).
Proof.
  unfold flow_sum. intros E. inv_do. rename x into l. assert (l = map (fun e => Var (flow_var e)) es).
  { apply (mapM_eq (get (v_flow V))); auto. intros x y _ H. apply get_ok in H. now apply flow_get_inv. }
  subst l o. destruct es as [|e es]; cbn [or_zero].
  - cbn. split; [lra|auto].
  - split; [|discriminate]. rewrite eval_xsum, total_map. apply total_ext. intros. reflexivity.
Qed.
Lemma incoming_flow_val loc o es : incoming_flow I V loc = Ok o -> into at_ t loc es -> eval v (or_zero o) == total (flow v) es /\ (o = None -> es = []).
Proof.
  unfold incoming_flow. intros E Hes. inv_do. apply incoming_ok in E0. destruct (flow_sum_val _ _ E) as (H1 & H2). split.
  - rewrite H1. eapply lists_total; eauto.
  - intros ->. specialize (H2 eq_refl). subst x. apply Permutation_nil. symmetry. eapply lists_perm; eauto.
Qed.
Lemma outgoing_flow_val loc o es : outgoing_flow I V loc = Ok o -> out_of at_ t loc es -> eval v (or_zero o) == total (flow v) es /\ (o = None -> es = []).
Proof.
  unfold outgoing_flow. intros E Hes. inv_do. apply outgoing_ok in E0. destruct (flow_sum_val _ _ E) as (H1 & H2). split.
  - rewrite H1. eapply lists_total; eauto.
  - intros ->. specialize (H2 eq_refl). subst x. apply Permutation_nil. symmetry. eapply lists_perm; eauto.
Qed.
Lemma net_flow_val loc o ei eo : net_flow I V loc = Ok o -> into at_ t loc ei -> out_of at_ t loc eo ->
  eval v (or_zero o) == total (flow v) ei - total (flow v) eo /\ (o = None -> ei = [] /\ eo = []).
Proof.
  unfold net_flow. intros E Hi Ho. inv_do. destruct (incoming_flow_val _ _ _ E0 Hi) as (A1 & A2). destruct (outgoing_flow_val _ _ _ E1 Ho) as (B1 & B2).
  subst o. destruct x as [a|], x0 as [b|]; cbn [or_zero eval] in *; split; try discriminate; try lra. auto.
Qed.

(** ** time shares *)
Lemma tdm_get_inv e c x : dget (v_tdm V) (e, c) = Some x -> x = Var (tdm_var (e, c)) /\
  (exists k l, link_stored t k l /\ e = (l_tx l, l_rx l) /\ l_wireless l = true) /\ In c (channels I).
Proof.
  destruct VT as (tk & Etk & ->). rewrite fresh_get. destruct (mem (e, c) tk) eqn:M; [|discriminate]. intros E. split; [congruence|].
  apply mem_In in M. destruct (concatM_inv _ _ _ _ Etk M) as (e' & r & He & Hf & Hin). inv_do.
  destruct (negb (imaginary x0) && negb (imaginary x1) && negb (mem e' (i_wired I))) eqn:B; [|subst r; contradiction].
  subst r. apply in_map_iff in Hin. destruct Hin as (c' & Ec & Hc). injection Ec as -> ->. split; [|exact Hc].
  apply andb_true_iff in B. destruct B as [B B3]. apply andb_true_iff in B. destruct B as [B1 B2].
  assert (R : forall i ty, dget (i_type I) i = Some ty -> negb (imaginary ty) = true -> site_stored t i).
  { intros i ty Ei Hi. apply (D_type _ _ _ _ _ D) in Ei. destruct Ei as [(_ & ->)|[(s & Es & _)|(_ & ->)]]; [discriminate|now exists s|discriminate]. }
  destruct (real_edge e He) as (k & l & El & ->); [now apply (R _ _ E0)|now apply (R _ _ E1)|].
  exists k, l. rewrite (D_wired _ _ _ _ _ D _ _ El) in B3. now rewrite negb_involutive in B3.
Qed.
Lemma tdm_get k l c : link_stored t k l -> l_wireless l = true -> In c (channels I) ->
  dget (v_tdm V) ((l_tx l, l_rx l), c) = Some (Var (VTdm (l_tx l) (l_rx l) c)).
Proof.
  intros El W Hc. destruct VT as (tk & Etk & ->). rewrite fresh_get. assert (M : mem ((l_tx l, l_rx l), c) tk = true); [|now rewrite M].
  apply mem_In. destruct (concatM_In _ _ _ (l_tx l, l_rx l) Etk (link_in _ _ El)) as (r & Er & Hr). apply Hr.
  destruct (link_sites _ _ El) as ((s1 & S1) & (s2 & S2)). cbn [fst snd] in Er. unfold get in Er.
  rewrite (D_site _ _ _ _ _ D _ _ S1), (D_site _ _ _ _ _ D _ _ S2) in Er. cbn in Er. rewrite (D_wired _ _ _ _ _ D _ _ El), W in Er. cbn in Er.
  injection Er as <-. apply in_map_iff. eauto.
Qed.
(** the share of a link over all channels *)
Lemma tdm_sum_val k l x : link_stored t k l -> tdm_sum I V (l_tx l, l_rx l) = Ok x ->
  eval v x == total (fun c => v (VTdm (l_tx l) (l_rx l) c)) (channels I).
Proof.
  intros El E. unfold tdm_sum in E. inv_do. subst x. rewrite eval_xsum.
  rewrite (mapM_eq _ (fun c => Var (tdm_var ((l_tx l, l_rx l), c))) _ _ E0).
  - rewrite total_map. apply total_ext. reflexivity.
  - intros c y _ H. apply get_ok in H. now apply tdm_get_inv in H.
Qed.

(** the links of a sector *)
Definition sec_edges (side : option string * option string -> option string) (a : string) (es : list edge) : list edge :=
  filter (fun e => match dget (i_l2s I) e with Some s => beq (side s) (Some a) | None => false end && dmem (v_tdm V) (e, 0%nat)) es.
Lemma sector_tdm_val a c side es l : In 0%nat (channels I) -> In c (channels I) -> sector_tdm I V a c side es = Ok l ->
  total (eval v) l == total (share v c) (sec_edges side a es).
Proof.
  intros H0 Hc. unfold sector_tdm, concatM. intros E. apply rbind_ok in E. destruct E as (ls & E & El). injection El as <-. revert ls E. unfold sec_edges.
  induction es as [|e es IH]; cbn [mapM filter]; intros ls E; [injection E as <-; cbn; lra|].
  apply rbind_ok in E. destruct E as (y & Ey & E). apply rbind_ok in E. destruct E as (ys & Eys & E). injection E as <-. cbn [List.concat].
  rewrite total_app, (IH _ Eys). unfold get in Ey. destruct (dget (i_l2s I) e) as [s|]; [|discriminate]. cbn in Ey. injection Ey as <-.
  destruct (beq (side s) (Some a)); cbn [andb]; [|cbn; lra].
  destruct (dget (v_tdm V) (e, c)) as [x|] eqn:F.
  - destruct (tdm_get_inv _ _ _ F) as (-> & (k & lk & El & -> & W) & _). assert (G := tdm_get _ _ 0%nat El W H0).
    assert (M : dmem (v_tdm V) ((l_tx lk, l_rx lk), 0%nat) = true) by (apply dmem_Some; eauto). rewrite M. cbn. unfold share, tdm_var. cbn. lra.
  - destruct (dmem (v_tdm V) (e, 0%nat)) eqn:M; [|cbn; lra]. apply dmem_Some in M. destruct M as (y & M).
    destruct (tdm_get_inv _ _ _ M) as (_ & (k & lk & El & -> & W) & _). rewrite (tdm_get _ _ c El W Hc) in F. discriminate.
Qed.
Lemma sec_edges_send x es : In 0%nat (channels I) -> x_id x = key_id (x_key x) -> out_of at_ t (x_site x) es -> lists (sec_edges fst (x_id x) es) (sends t x).
Proof.
  intros H0 _ (Hnd & Hes). split; [now apply NoDup_filter'|]. intros e. unfold sec_edges. rewrite filter_In, Hes, andb_true_iff. split.
  - intros ((He & Hf) & Hb & Hm). apply dmem_Some in Hm. destruct Hm as (y & Hm). destruct (tdm_get_inv _ _ _ Hm) as (_ & (k & l & El & -> & W) & _).
    rewrite (D_l2s _ _ _ _ _ D _ _ El) in Hb. destruct (l_sectors l) as [[a b]|] eqn:Es; cbn in Hb; apply beq_true in Hb; [|discriminate].
    injection Hb as Hb. cbn in Hf. exists k, l, a, b. auto 6.
  - intros (k & l & a & b & El & W & Es & Ea & Etx & ->). split; [split; [right; right; eauto|auto]|]. rewrite (D_l2s _ _ _ _ _ D _ _ El), Es. cbn [fst].
    rewrite Ea, beq_refl. split; [auto|]. apply dmem_Some. eexists. eapply tdm_get; eauto.
Qed.
Lemma sec_edges_receive x es : In 0%nat (channels I) -> x_id x = key_id (x_key x) -> into at_ t (x_site x) es -> lists (sec_edges snd (x_id x) es) (receives t x).
Proof.
  intros H0 _ (Hnd & Hes). split; [now apply NoDup_filter'|]. intros e. unfold sec_edges. rewrite filter_In, Hes, andb_true_iff. split.
  - intros ((He & Hf) & Hb & Hm). apply dmem_Some in Hm. destruct Hm as (y & Hm). destruct (tdm_get_inv _ _ _ Hm) as (_ & (k & l & El & -> & W) & _).
    rewrite (D_l2s _ _ _ _ _ D _ _ El) in Hb. destruct (l_sectors l) as [[a b]|] eqn:Es; cbn in Hb; apply beq_true in Hb; [|discriminate].
    injection Hb as Hb. cbn in Hf. exists k, l, a, b. auto 6.
  - intros (k & l & a & b & El & W & Es & Ea & Etx & ->). split; [split; [right; right; eauto|auto]|]. rewrite (D_l2s _ _ _ _ _ D _ _ El), Es. cbn [snd].
    rewrite Ea, beq_refl. split; [auto|]. apply dmem_Some. eexists. eapply tdm_get; eauto.
Qed.
Lemma at_most_sat l x cs : incl (at_most l x) cs -> (forall c, In c cs -> sat v c) -> 0 <= eval v x -> total (eval v) l <= eval v x.
Proof.
  intros Hi Hs H0. destruct l as [|a l]; [cbn; lra|]. assert (S := Hs _ (Hi _ (or_introl eq_refl))). cbn [sat] in S. now rewrite eval_xsum in S.
Qed.
(** time sharing of one sector on one channel *)
Lemma tdm_sector_sat cs k x c ex es : create_tdm_sector_relationship I V = Ok cs -> (forall c, In c cs -> sat v c) ->
  In 0%nat (channels I) -> In c (channels I) ->
  sector_stored t k x -> dget (v_sector V) (x_site x, k, c) = Some ex -> 0 <= eval v ex ->
  (lists es (sends t x) \/ lists es (receives t x)) -> total (share v c) es <= eval v ex.
Proof.
  intros Ecs Hsat H0 Hc Hx Hex Hpos Hes.
  destruct Hw as (_ & _ & _ & _ & _ & _ & _ & C). destruct (C _ _ Hx) as (Ek & (s & Ss)).
  assert (Hloc : In (x_site x) (i_locations I)) by (apply (D_locs _ _ _ _ _ D); right; left; now exists s).
  destruct (concatM_In _ _ _ _ Ecs Hloc) as (r & Er & Hr). unfold get at 1 in Er. rewrite (D_site _ _ _ _ _ D _ _ Ss) in Er. cbn [rbind imaginary] in Er.
  destruct (D_secs _ _ _ _ _ D _ _ Hx) as (sl & Esl & Hin). unfold get in Er at 1. rewrite Esl in Er. cbn [rbind] in Er.
  destruct (concatM_In _ _ _ _ Er Hin) as (r1 & Er1 & Hr1). destruct (concatM_In _ _ _ _ Er1 Hc) as (r2 & Er2 & Hr2). rewrite Hex in Er2. inv_do.
  rename x0 into eo. rename x1 into ei. rename x2 into lo. rename x3 into li. subst r2.
  apply outgoing_ok in E. apply incoming_ok in E0. rewrite Ek in *.
  assert (A := at_most_sat lo ex cs). assert (B := at_most_sat li ex cs).
  assert (Hall : incl (at_most lo ex ++ at_most li ex) cs) by (intros y Hy; apply Hr, Hr1, Hr2, Hy).
  assert (A1 := A (fun y Hy => Hall y (in_or_app _ _ _ (or_introl Hy))) Hsat Hpos). assert (B1 := B (fun y Hy => Hall y (in_or_app _ _ _ (or_intror Hy))) Hsat Hpos).
  rewrite (sector_tdm_val _ _ _ _ _ H0 Hc E1) in A1. rewrite (sector_tdm_val _ _ _ _ _ H0 Hc E2) in B1.
  destruct Hes as [Hes|Hes].
  - rewrite (lists_total (share v c) es _ _ Hes (sec_edges_send x eo H0 eq_refl E)). exact A1.
  - rewrite (lists_total (share v c) es _ _ Hes (sec_edges_receive x ei H0 eq_refl E0)). exact B1.
Qed.
(** flow within capacity times share *)
Lemma tdm_flow_sat cs k l : create_tdm_flow_relationship I V = Ok cs -> (forall c, In c cs -> sat v c) -> In 0%nat (channels I) ->
  link_stored t k l -> l_wireless l = true ->
  flow v (l_tx l, l_rx l) <= cap (l_tx l, l_rx l) * total (fun c => v (VTdm (l_tx l) (l_rx l) c)) (channels I).
Proof.
  intros Ecs Hsat H0 El W. destruct (concatM_In _ _ _ _ Ecs (link_in _ _ El)) as (r & Er & Hr). inv_do.
  rewrite (D_cap _ _ _ _ _ D _ _ El) in E. injection E as <-. apply flow_get_inv in E0. subst x0.
  assert (G := tdm_get _ _ 0%nat El W H0). assert (M : dmem (v_tdm V) ((l_tx l, l_rx l), 0%nat) = true) by (apply dmem_Some; eauto). rewrite M in Er. inv_do. subst r.
  assert (S := Hsat _ (Hr _ (or_introl eq_refl))). cbn [sat eval] in S. rewrite (tdm_sum_val _ _ _ El E) in S. exact S.
Qed.
(** POP load *)
Lemma pop_load_sat cs i es : create_pop_load_constraints I V = Ok cs -> (forall c, In c cs -> sat v c) -> 0 <= p_pop_capacity (i_params I) ->
  is_pop t i -> out_of at_ t i es -> total (flow v) es <= p_pop_capacity (i_params I).
Proof.
  intros Ecs Hsat Hpos Hp Hes. assert (Hs : site_stored t i) by (destruct Hp as (s & Es & _); now exists s).
  assert (Hin : In i (filter (fun loc => mem loc (i_set I (Real POP))) (i_locations I))).
  { apply filter_In. split; [apply (D_locs _ _ _ _ _ D); auto|]. apply mem_In. apply (D_rset _ _ _ _ _ D). exact Hp. }
  destruct (concatM_In _ _ _ _ Ecs Hin) as (r & Er & Hr). inv_do. destruct (outgoing_flow_val _ _ _ E Hes) as (A & B). subst r.
  destruct x as [x|]; cbn [or_zero] in A.
  - assert (S := Hsat _ (Hr _ (or_introl eq_refl))). cbn [sat eval] in S. lra.
  - rewrite (B eq_refl). cbn. exact Hpos.
Qed.
End Describes.
