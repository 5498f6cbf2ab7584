(** The constraints of the redundancy problem, in terms of the topology. *)
From Coq Require Import QArith Lqa Lia Permutation.
From Verif Require Import Base Dict TopologyModel TopologySpec TopologyLemmas GraphSpec GraphProofs RfModel SetupModel
  IlpModel IlpSpec QLib MonadLib SetupProofs IlpLemmas IlpProofs ExtractModel ExtractSpec ExtractProofs RedunModel RedunSpec FlowCut.
Local Open Scope Q_scope.

Lemma rfresh_get {K} `{EqB K} (mk : K -> rvar) (l : list K) k : dget (rfresh mk l) k = if mem k l then Some (RVar (mk k)) else None.
Proof.
  unfold rfresh. destruct (mem k l) eqn:E.
  - apply mem_In in E. apply dict_of_value.
    + apply in_map_iff. exists k. auto.
    + intros v' Hv. apply in_map_iff in Hv. destruct Hv as (k' & Ek & _). injection Ek as -> <-. reflexivity.
  - apply mem_not_In in E. apply dict_of_None. rewrite map_map. cbn. now rewrite map_id.
Qed.
Lemma rfresh_In {K} `{EqB K} (mk : K -> rvar) (l : list K) k : In k l -> In (k, RVar (mk k)) (rfresh mk l).
Proof. intros Hk. apply dget_In. rewrite rfresh_get. apply mem_In in Hk. now rewrite Hk. Qed.
Lemma reval_rsum v l : reval v (rsum l) == total (reval v) l.
Proof. induction l as [|x l IH]; cbn; [lra|]. fold (rsum l). rewrite IH. lra. Qed.
Lemma mapM_map {A B C} (f : A -> result B) (g : B -> C) (h : A -> C) l r : mapM f l = Ok r -> (forall x y, f x = Ok y -> g y = h x) -> map g r = map h l.
Proof. intros E Hfg. apply mapM_ok in E. induction E as [|a b l r Hab E IH]; cbn; [reflexivity|]. now rewrite IH, (Hfg _ _ Hab). Qed.

Section Net.
Variables (ps : params) (at_ : attrs) (t : topo) (cs : caps) (only : option (list edge)) (R : rnet).
Hypothesis Hw : well_formed t.
Hypothesis Hn : names_ok at_ t.
Hypothesis HR : redundant_network ps at_ t cs only = Ok R.
Let I := r_inst R.

Lemma net_fields : network ps at_ t = Ok I /\ r_odd_in R = get_site_polarities t ODD /\ r_caps R = cs /\
  (forall d, In d (r_dns R) <-> In d (i_locations I) /\ active_site I d = true /\ dget (i_type I) d = Some (Real DN)) /\ NoDup (r_dns R) /\
  (forall e, In e (r_links R) <-> In e (i_links I) /\ restricted I only e = Ok true) /\
  (forall i, In i (r_sites R) <-> exists e, In e (r_links R) /\ (fst e = i \/ snd e = i)) /\
  (forall d, In d (r_dns R) -> In d (r_sites R)).
Proof.
  assert (H := HR). unfold redundant_network in H. unfold I. inv_do. rewrite <- H. cbn [r_inst r_odd_in r_caps r_dns r_links r_sites].
  assert (HI := E). assert (Es : setup ps at_ t = Ok x) by (unfold network in E; inv_do; congruence).
  destruct (filterM_ok _ _ _ E0) as (_ & A2 & A3). destruct (filterM_ok _ _ _ E1) as (_ & B2 & _). apply guard_ok in E2.
  split; [exact HI|]. split; [reflexivity|]. split; [reflexivity|]. split.
  { intros d. rewrite A2. split; intros (H1 & H2); (split; [exact H1|]).
    - inv_do. apply andb_true_iff in H2. destruct H2 as (H2 & H3). apply beq_true in H3. subst. auto.
    - destruct H2 as (H2 & H3). unfold get. rewrite H3. cbn [rbind]. rewrite H2. reflexivity. }
  split.
  { apply A3. eapply D_locs_nd. eapply setup_describes; eauto. }
  split; [exact B2|]. split.
  { intros i. rewrite in_flat_map. split; intros (e & He & Hi); exists e; (split; [exact He|]); cbn in *; tauto. }
  intros d Hd. rewrite forallb_forall in E2. apply mem_In. now apply E2.
Qed.
Definition N_net := proj1 net_fields.
Lemma desc_R : describes ps at_ t (a_cap at_) I.
Proof. assert (H := N_net). unfold network in H. inv_do. subst. eapply setup_describes; eauto. Qed.
Lemma params_R : i_params I = ps.
Proof. assert (H := N_net). unfold network in H. inv_do. rewrite <- H. eapply i_params_eq. exact E. Qed.
Let D := desc_R.

Lemma dns_iff d : In d (r_dns R) <-> protected t d.
Proof.
  destruct net_fields as (_ & _ & _ & F & _). rewrite F. unfold protected, is_dn, active_now, in_service, active_site. rewrite orb_true_iff, !mem_In, (D_ps _ _ _ _ _ D), (D_es _ _ _ _ _ D). split.
  - intros (_ & Ha & Ht). destruct (D_type _ _ _ _ _ D _ _ Ht) as [(_ & ?)|[(s & Es & ET)|(_ & ?)]]; try discriminate. injection ET as ET.
    split; [exists s; auto|]. destruct Ha as [(s' & Es' & St)|(s' & Es' & St)]; exists s'; auto.
  - intros ((s & Es & ET) & (s' & Es' & St)). rewrite (D_site _ _ _ _ _ D _ _ Es), ET. split; [apply (D_locs _ _ _ _ _ D); right; left; now exists s|].
    split; [|reflexivity]. destruct St as [St|St]; [left|right]; exists s'; auto.
Qed.
(** a restricted link goes from the super-source to a POP, or is a link of the topology between backhaul sites *)
Lemma rlink_kind e : In e (r_links R) -> In e (i_links I) /\
  ((fst e = SUPERSOURCE /\ is_pop t (snd e)) \/
   (exists k l, link_stored t k l /\ e = (l_tx l, l_rx l) /\ backhaul_site t (l_tx l) /\ backhaul_site t (l_rx l) /\ 0 < a_cap at_ e)).
Proof.
  destruct net_fields as (_ & _ & _ & _ & _ & F & _). rewrite F. intros (He & Hr). split; [exact He|].
  apply (D_links _ _ _ _ _ D) in He. unfold restricted in Hr. inv_do. destruct (Qle_bool x 0) eqn:Ec; [discriminate|]. inv_do.
  apply andb_true_iff in Hr. destruct Hr as (Hr & _). apply andb_true_iff in Hr. destruct Hr as (T1 & T2).
  destruct He as [(Esup & Hp)|[(i & d & Ed & Hi & Hc)|(k & l & El & ->)]]; [auto| |].
  - rewrite (D_cons _ _ _ _ _ D (snd e)) in E1 by (exists i, d; auto). injection E1 as <-. discriminate.
  - right. exists k, l. split; [auto|]. split; [auto|]. cbn [fst snd] in *. rewrite (D_cap _ _ _ _ _ D _ _ El) in E. injection E as <-. apply qle_false in Ec.
    assert (B : forall i ty, site_stored t i -> dget (i_type I) i = Some ty -> super_dist ty = true -> backhaul_site t i).
    { intros i ty (s & Es) Ht Hs. rewrite (D_site _ _ _ _ _ D _ _ Es) in Ht. injection Ht as <-. exists s. split; [auto|]. cbn in Hs. destruct (s_type s); [discriminate| |]; auto. }
    destruct (link_sites t Hw _ _ El) as (S1 & S2). split; [eapply B; eauto|]. split; [eapply B; eauto|exact Ec].
Qed.
Lemma super_new i : site_stored t i -> i <> SUPERSOURCE.
Proof. intros Hs ->. now apply (proj1 Hn). Qed.
Lemma pop_stored i : is_pop t i -> site_stored t i. Proof. intros (s & Es & _). now exists s. Qed.
Lemma backhaul_stored i : backhaul_site t i -> site_stored t i. Proof. intros (s & Es & _). now exists s. Qed.
Lemma rlink_ends e : In e (r_links R) -> (fst e = SUPERSOURCE \/ backhaul_site t (fst e)) /\ backhaul_site t (snd e).
Proof.
  intros He. destruct (rlink_kind e He) as (_ & [(E & (s & Es & ET))|(k & l & _ & -> & B1 & B2 & _)]); cbn; [|auto].
  split; [auto|]. exists s. auto.
Qed.
Lemma rsite_kind i : In i (r_sites R) -> i = SUPERSOURCE \/ backhaul_site t i.
Proof.
  destruct net_fields as (_ & _ & _ & _ & _ & _ & F & _). rewrite F. intros (e & He & [<-|<-]); destruct (rlink_ends e He); auto.
Qed.
Lemma rlink_sites e : In e (r_links R) -> In (fst e) (r_sites R) /\ In (snd e) (r_sites R).
Proof. destruct net_fields as (_ & _ & _ & _ & _ & _ & F & _). intros He. split; apply F; exists e; auto. Qed.
Lemma rsite_loc i : In i (r_sites R) -> In i (i_locations I).
Proof. intros Hi. apply (D_locs _ _ _ _ _ D). destruct (rsite_kind i Hi) as [->|B]; [auto|]. right. left. now apply backhaul_stored. Qed.
Lemma backhaul_type i : backhaul_site t i -> exists s, dget (t_sites t) i = Some s /\ dget (i_type I) i = Some (Real (s_type s)) /\ (s_type s = POP \/ s_type s = DN).
Proof. intros (s & Es & Ht). exists s. split; [auto|]. split; [now apply (D_site _ _ _ _ _ D)|auto]. Qed.
Lemma backhaul_dist i : backhaul_site t i <-> exists ty, dget (i_type I) i = Some ty /\ dist ty = true.
Proof.
  split.
  - intros B. destruct (backhaul_type i B) as (s & _ & Ht & Hd). exists (Real (s_type s)). split; [auto|]. destruct Hd as [->| ->]; reflexivity.
  - intros (ty & Ht & Hd). destruct (D_type _ _ _ _ _ D _ _ Ht) as [(_ & ->)|[(s & Es & ->)|(_ & ->)]]; try discriminate.
    exists s. split; [auto|]. cbn in Hd. destruct (s_type s); [discriminate| |]; auto.
Qed.

(** ** the variables *)
Lemma site_keys_ok : exists sk, r_site_keys R = Ok sk /\ forall i, In i sk <-> In i (r_sites R) /\ backhaul_site t i.
Proof.
  unfold r_site_keys. fold I.
  assert (Tot : exists sk, filterM (fun loc => if mem loc (r_sites R) then do ty <- get (i_type I) loc ; Ok (negb (imaginary ty)) else Ok false) (i_locations I) = Ok sk).
  { assert (G : forall l, (forall x, In x l -> In x (i_locations I)) -> exists r, filterM (fun loc => if mem loc (r_sites R) then do ty <- get (i_type I) loc ; Ok (negb (imaginary ty)) else Ok false) l = Ok r).
    { induction l as [|x l IH]; intros Hl; [cbn; eauto|]. destruct IH as (r & Er); [intros; apply Hl; now right|]. cbn [filterM]. rewrite Er.
      destruct (mem x (r_sites R)) eqn:Em; [|cbn; eauto]. apply mem_In in Em. destruct (rsite_kind x Em) as [->|B].
      - unfold get. rewrite (D_super _ _ _ _ _ D). cbn. eauto.
      - destruct (backhaul_type x B) as (s & _ & Ht & _). unfold get. rewrite Ht. cbn. eauto. }
    apply G. auto. }
  destruct Tot as (sk & Esk). exists sk. split; [exact Esk|]. destruct (filterM_ok _ _ _ Esk) as (_ & F & _). intros i. rewrite F. split.
  - intros (Hl & Hi). destruct (mem i (r_sites R)) eqn:Em; [|discriminate]. apply mem_In in Em. split; [auto|]. inv_do.
    destruct (rsite_kind i Em) as [->|B]; [|exact B]. rewrite (D_super _ _ _ _ _ D) in E. injection E as <-. discriminate.
  - intros (Hs & B). split; [now apply rsite_loc|]. destruct (backhaul_type i B) as (s & _ & Ht & _). apply mem_In in Hs. rewrite Hs. unfold get. rewrite Ht. reflexivity.
Qed.
Lemma odd_keys_ok : exists ok, r_odd_keys R = Ok ok /\
  (forall i, In i ok <-> p_ignore_polarities ps = false /\ In i (r_sites R) /\ backhaul_site t i).
Proof.
  assert (Eps := params_R).
  unfold r_odd_keys. fold I. rewrite Eps. destruct (p_ignore_polarities ps); cbn [negb].
  { exists []. split; [auto|]. intros i. cbn. split; [tauto|intros (? & _); discriminate]. }
  assert (Tot : exists ok, filterM (fun loc => if mem loc (r_sites R) then do ty <- get (i_type I) loc ; Ok (dist ty) else Ok false) (i_locations I) = Ok ok).
  { assert (G : forall l, (forall x, In x l -> In x (i_locations I)) -> exists r, filterM (fun loc => if mem loc (r_sites R) then do ty <- get (i_type I) loc ; Ok (dist ty) else Ok false) l = Ok r).
    { induction l as [|x l IH]; intros Hl; [cbn; eauto|]. destruct IH as (r & Er); [intros; apply Hl; now right|]. cbn [filterM]. rewrite Er.
      destruct (mem x (r_sites R)) eqn:Em; [|cbn; eauto]. apply mem_In in Em. destruct (rsite_kind x Em) as [->|B].
      - unfold get. rewrite (D_super _ _ _ _ _ D). cbn. eauto.
      - destruct (backhaul_type x B) as (s & _ & Ht & _). unfold get. rewrite Ht. cbn. eauto. }
    apply G. auto. }
  destruct Tot as (ok & Eok). exists ok. split; [exact Eok|]. destruct (filterM_ok _ _ _ Eok) as (_ & F & _). intros i. rewrite F. split.
  - intros (Hl & Hi). destruct (mem i (r_sites R)) eqn:Em; [|discriminate]. apply mem_In in Em. split; [auto|]. split; [auto|]. inv_do. apply backhaul_dist. eauto.
  - intros (_ & Hs & B). split; [now apply rsite_loc|]. apply backhaul_dist in B. destruct B as (ty & Ht & Hd). apply mem_In in Hs. rewrite Hs. unfold get. rewrite Ht. cbn. now rewrite Hd.
Qed.
Lemma flow_keys_iff e d : In (e, d) (r_flow_keys R) <-> In d (r_dns R) /\ In e (r_links R).
Proof.
  unfold r_flow_keys. fold I. rewrite in_flat_map. split.
  - intros (d' & Hd & Hin). apply in_map_iff in Hin. destruct Hin as (e' & Ee & Hin). injection Ee as -> ->. apply filter_In in Hin. destruct Hin as (_ & Hm). apply mem_In in Hm. auto.
  - intros (Hd & He). exists d. split; [auto|]. apply in_map_iff. exists e. split; [auto|]. apply filter_In. split; [now apply rlink_kind|now apply mem_In].
Qed.
Lemma tables_fields fixed : exists V sk ok, r_tables R fixed = Ok V /\
  w_site V = rfresh RSite sk /\ w_odd V = rfresh ROdd ok /\ w_flow V = rfresh rflow (r_flow_keys R) /\
  w_short V = match fixed with None => rfresh RShort (r_dns R) | Some sh => map (fun p => (fst p, RCst (snd p))) sh end /\
  (forall i, In i sk <-> In i (r_sites R) /\ backhaul_site t i) /\
  (forall i, In i ok <-> p_ignore_polarities ps = false /\ In i (r_sites R) /\ backhaul_site t i).
Proof.
  destruct site_keys_ok as (sk & Esk & Hsk). destruct odd_keys_ok as (ok & Eok & Hok). unfold r_tables. rewrite Esk, Eok. cbn [rbind].
  eexists. exists sk, ok. split; [reflexivity|]. cbn. auto 10.
Qed.

(** ** the constraints *)
(** the flow for [d] *)
Definition fl (v : rvar -> Q) (d : string) (e : edge) : Q := v (RFlow (fst e) (snd e) d).
Definition used : list edge := filter (fun e => mem e (r_links R)) (i_links I).
Lemma used_iff e : In e used <-> In e (r_links R).
Proof. unfold used. rewrite filter_In, mem_In. split; [tauto|]. intros He. split; [now apply rlink_kind|auto]. Qed.
Lemma used_nd : NoDup used.
Proof. apply NoDup_filter'. apply (D_links_nd _ _ _ _ _ D). Qed.
Lemma filter_swap {A} (p q : A -> bool) l : filter p (filter q l) = filter q (filter p l).
Proof. induction l as [|x l IH]; [reflexivity|]. cbn [filter]. destruct (p x) eqn:Ep, (q x) eqn:Eq; cbn [filter]; rewrite ?Ep, ?Eq, IH; reflexivity. Qed.

Section Sat.
Variables (fixed : option (dict string Q)) (P : rproblem) (v : rvar -> Q).
Hypothesis HP : skeleton R fixed = Ok P.
Hypothesis Hv : rfeasible P v.

Lemma pieces_R : exists V a b c d e f, r_tables R fixed = Ok V /\ r_decided_sites R V = Ok a /\ r_inactive_links R V = Ok b /\ r_colocated R V = Ok c /\
  r_flow_site R V = Ok d /\ r_balance R V = Ok e /\ r_polarity R V = Ok f /\
  (forall x, In x a \/ In x b \/ In x c \/ In x d \/ In x e \/ In x f -> rsat v x) /\
  (forall p, In p (w_site V) -> in_kind (v (RSite (fst p))) Binary) /\
  (forall p, In p (w_odd V) -> in_kind (v (ROdd (fst p))) Binary) /\
  (forall p, In p (w_flow V) -> in_kind (v (rflow (fst p))) (Continuous 0 (Some (flow_ub R (fst (fst p)))))).
Proof.
  assert (H := HP). unfold skeleton in H. inv_do. destruct Hv as (H1 & H2). rewrite <- H in H1, H2. cbn [r_decls r_constraints] in H1, H2.
  exists x, x0, x1, x2, x3, x4, x5. do 7 (split; [assumption|]). split; [|split; [|split]].
  - intros y Hy. apply H2. rewrite !in_app_iff. tauto.
  - intros p Hp. apply (H1 (RSite (fst p), Binary)). apply in_app_iff. left. apply in_map_iff. exists p. auto.
  - intros p Hp. apply (H1 (ROdd (fst p), Binary)). rewrite !in_app_iff. right. left. apply in_map_iff. exists p. auto.
  - intros p Hp. apply (H1 (rflow (fst p), Continuous 0 (Some (flow_ub R (fst (fst p)))))). rewrite !in_app_iff. right. right. left. apply in_map_iff. exists p. auto.
Qed.
Ltac pieces := 
  destruct pieces_R as (V & ca & cb & cc & cd & ce & cf & EV & Ea & Eb & Ec & Ed & Ee & Ef & Hsat & Ks & Ko & Kf);
  destruct (tables_fields fixed) as (V' & sk & ok & EV' & VS & VO & VF & VH & Hsk & Hok);
  rewrite EV in EV'; injection EV' as <-.
Lemma site_binary i : In i (r_sites R) -> backhaul_site t i -> v (RSite i) == 0 \/ v (RSite i) == 1.
Proof.
  intros H1 H2. pieces. specialize (Ks (i, RVar (RSite i))). cbn in Ks. apply Ks. rewrite VS. apply rfresh_In. now apply Hsk.
Qed.
Lemma odd_binary i : p_ignore_polarities ps = false -> In i (r_sites R) -> backhaul_site t i -> v (ROdd i) == 0 \/ v (ROdd i) == 1.
Proof.
  intros H0 H1 H2. pieces. specialize (Ko (i, RVar (ROdd i))). cbn in Ko. apply Ko. rewrite VO. apply rfresh_In. now apply Hok.
Qed.
Lemma flow_bounds e d : In e (r_links R) -> In d (r_dns R) -> 0 <= fl v d e /\ fl v d e <= flow_ub R e.
Proof.
  intros He Hd. pieces. specialize (Kf ((e, d), RVar (rflow (e, d)))). cbn in Kf. apply Kf. rewrite VF. apply (rfresh_In rflow _ (e, d)). now apply flow_keys_iff.
Qed.
Lemma flow_unit e d : In e (r_links R) -> In d (r_dns R) -> fst e <> SUPERSOURCE -> fl v d e <= 1.
Proof.
  intros He Hd Hs. destruct (flow_bounds e d He Hd) as (_ & H). unfold flow_ub in H. destruct (rlink_ends e He) as (_ & B).
  apply beq_neq in Hs. rewrite Hs in H. assert (snd e <> SUPERSOURCE) as Hs2 by now apply super_new, backhaul_stored. apply beq_neq in Hs2. rewrite Hs2 in H. exact H.
Qed.
Lemma inactive_flow e d : In e (r_links R) -> In e (i_inactive_links I) -> In d (r_dns R) -> fl v d e == 0.
Proof.
  intros He Hi Hd. pieces. unfold r_inactive_links in Eb. destruct (concatM_In _ _ _ _ Eb (proj1 (rlink_kind e He))) as (r & Er & Hr).
  apply mem_In in He. fold I in Er. rewrite He in Er. apply mem_In in Hi. rewrite Hi in Er. cbn [negb] in Er.
  destruct (mapM_In _ _ _ d Er Hd) as (y & Ey & Hy). rewrite VF in Ey. unfold get in Ey. rewrite rfresh_get in Ey.
  destruct (mem (e, d) (r_flow_keys R)) eqn:Em; [|discriminate]. cbn in Ey. injection Ey as <-. apply mem_In in He, Hi.
  specialize (Hsat _ (or_intror (or_introl (Hr _ Hy)))). cbn in Hsat. exact Hsat.
Qed.
Lemma flow_sum_R V0 d es x : w_flow V0 = rfresh rflow (r_flow_keys R) -> r_flow_sum R V0 d es = Ok x ->
  match x with None => filter (fun e => mem e (r_links R)) es = [] | Some y => reval v y == total (fl v d) (filter (fun e => mem e (r_links R)) es) end.
Proof.
  intros VF E. unfold r_flow_sum in E. inv_do. assert (G : map (reval v) x0 = map (fl v d) (filter (fun e => mem e (r_links R)) es)).
  { eapply mapM_map; [exact E0|]. intros e y Ey. rewrite VF in Ey. unfold get in Ey. rewrite rfresh_get in Ey. destruct (mem (e, d) (r_flow_keys R)); [|discriminate]. injection Ey as <-. reflexivity. }
  subst x. destruct x0 as [|y r].
  - destruct (filter _ es); [reflexivity|discriminate].
  - rewrite reval_rsum. rewrite <- (total_map (reval v) (fun q => q)), G, total_map. reflexivity.
Qed.
Lemma in_sum loc d x V0 : w_flow V0 = rfresh rflow (r_flow_keys R) -> r_incoming R V0 loc d = Ok x -> reval v (or_none x) == inflow (fl v d) used loc.
Proof.
  intros VF E. unfold r_incoming, incoming in E. fold I in E. destruct (mem loc (i_locations I)); [|discriminate]. cbn [rbind] in E.
  apply flow_sum_R in E; [|exact VF]. unfold inflow, used. rewrite filter_swap in E. destruct x as [y|]; cbn [or_none reval]; [exact E|]. rewrite E. reflexivity.
Qed.
Lemma out_sum loc d x V0 : w_flow V0 = rfresh rflow (r_flow_keys R) -> r_outgoing R V0 loc d = Ok x -> reval v (or_none x) == outflow (fl v d) used loc.
Proof.
  intros VF E. unfold r_outgoing, outgoing in E. fold I in E. destruct (mem loc (i_locations I)); [|discriminate]. cbn [rbind] in E.
  apply flow_sum_R in E; [|exact VF]. unfold outflow, used. rewrite filter_swap in E. destruct x as [y|]; cbn [or_none reval]; [exact E|]. rewrite E. reflexivity.
Qed.
Lemma flow_site i d s : In i (r_sites R) -> dget (t_sites t) i = Some s -> In d (r_dns R) ->
  inflow (fl v d) used i <= (match s_type s with POP => c_pop cs | _ => if beq i d then c_sink cs else c_dn cs end) * v (RSite i) \/ inflow (fl v d) used i == 0.
Proof.
  intros Hi Es Hd. pieces. unfold r_flow_site in Ed. destruct (concatM_In _ _ _ _ Ed (rsite_loc i Hi)) as (r & Er & Hr). apply mem_In in Hi. rewrite Hi in Er. cbn [negb] in Er. apply mem_In in Hi.
  destruct (concatM_In _ _ _ d Er Hd) as (r1 & Er1 & Hr1). fold I in Er1. inv_do. rewrite (D_site _ _ _ _ _ D _ _ Es) in E. injection E as <-.
  assert (S := in_sum i d x0 V VF E0). destruct x0 as [y|]; cbn [or_none] in S; [left|right; rewrite <- S; reflexivity].
  inv_do. subst r1. rewrite VS in E. rewrite rfresh_get in E. destruct (mem i sk); [|discriminate]. injection E as <-.
  assert (Q := Hsat (RLe y (RScale (node_cap R (Real (s_type s)) i d) (RVar (RSite i))))). cbn [rsat reval] in Q.
  rewrite <- S. destruct net_fields as (_ & _ & Ecs & _). unfold node_cap in Q. rewrite Ecs in Q.
  assert (Hin : In (RLe y (RScale (node_cap R (Real (s_type s)) i d) (RVar (RSite i)))) cd) by (apply Hr, Hr1; now left).
  unfold node_cap in Hin. rewrite Ecs in Hin. destruct (s_type s); cbn in Q, Hin |- *; apply Q; tauto.
Qed.
Lemma balance_R i d : In i (r_sites R) -> In d (r_dns R) -> i <> SUPERSOURCE -> i <> d -> inflow (fl v d) used i == outflow (fl v d) used i.
Proof.
  intros Hi Hd Hs Hid. pieces. unfold r_balance in Ee. destruct (concatM_In _ _ _ _ Ee (rsite_loc i Hi)) as (r & Er & Hr). apply mem_In in Hi. rewrite Hi in Er. cbn [negb] in Er. apply mem_In in Hi.
  destruct (concatM_In _ _ _ d Er Hd) as (r1 & Er1 & Hr1). inv_do. assert (A := in_sum i d x V VF E). assert (B := out_sum i d x0 V VF E0).
  apply beq_neq in Hs, Hid. rewrite Hs, Hid in Er1.
  assert (G : (x = None /\ x0 = None) \/ r1 = [REq (RSub (or_none x) (or_none x0)) (RCst 0)]).
  { destruct x, x0; inv_do; auto. }
  destruct G as [(-> & ->)| ->].
  - cbn in A, B. rewrite <- A, <- B. reflexivity.
  - assert (Q := Hsat (REq (RSub (or_none x) (or_none x0)) (RCst 0))). cbn [rsat reval] in Q. rewrite <- A, <- B.
    assert (reval v (or_none x) - reval v (or_none x0) == 0) as Q' by (apply Q; do 4 right; left; apply Hr, Hr1; now left). lra.
Qed.
Lemma balance_sink d q : In d (r_dns R) -> match fixed with Some sh => dget sh d = Some q | None => q = v (RShort d) end ->
  c_sink cs - q <= inflow (fl v d) used d - outflow (fl v d) used d.
Proof.
  intros Hd Hq. assert (Hi : In d (r_sites R)) by (apply net_fields; exact Hd).
  assert (Hsite : site_stored t d) by (apply dns_iff in Hd; destruct Hd as ((s & Es & _) & _); now exists s).
  pieces. unfold r_balance in Ee. destruct (concatM_In _ _ _ _ Ee (rsite_loc d Hi)) as (r & Er & Hr). assert (Hi' := Hi). apply mem_In in Hi'. rewrite Hi' in Er. cbn [negb] in Er.
  destruct (concatM_In _ _ _ d Er Hd) as (r1 & Er1 & Hr1). inv_do. assert (A := in_sum d d x V VF E). assert (B := out_sum d d x0 V VF E0).
  assert (Hs := super_new d Hsite). apply beq_neq in Hs. rewrite Hs, beq_refl in Er1.
  assert (G : exists z, get (w_short V) d = Ok z /\ r1 = [RLe (RSub (RCst (c_sink (r_caps R))) z) (RSub (or_none x) (or_none x0))]).
  { assert (Gn : ~ (x = None /\ x0 = None)).
    { intros (-> & ->). unfold r_incoming, r_outgoing, incoming, outgoing in E, E0. fold I in E, E0. assert (Hl := rsite_loc d Hi). apply mem_In in Hl. rewrite Hl in E, E0. cbn [rbind] in E, E0.
      apply flow_sum_R in E; [|exact VF]. apply flow_sum_R in E0; [|exact VF]. rewrite filter_swap in E, E0. fold used in E, E0.
      apply net_fields in Hi. destruct Hi as (e & He & Hk). apply used_iff in He.
      assert (G1 : forall (p : edge -> bool) l, filter p l = [] -> forall y, In y l -> p y = false).
      { intros p l Hl0 y Hy. destruct (p y) eqn:Ep; [|reflexivity]. assert (In y (filter p l)) by (now apply filter_In). rewrite Hl0 in H. contradiction. }
      destruct Hk as [Hk|Hk].
      - assert (Z := G1 _ _ E0 e He). cbn in Z. rewrite Hk, beq_refl in Z. discriminate.
      - assert (Z := G1 _ _ E e He). cbn in Z. rewrite Hk, beq_refl in Z. discriminate. }
    destruct x, x0; try (exfalso; apply Gn; auto; fail); apply rbind_ok in Er1; destruct Er1 as (z & Ez & Er1); exists z; split; auto; injection Er1 as <-; reflexivity. }
  destruct G as (z & Ez & ->). assert (Q := Hsat (RLe (RSub (RCst (c_sink (r_caps R))) z) (RSub (or_none x) (or_none x0)))).
  destruct net_fields as (_ & _ & Ecs & _). rewrite Ecs in Q. rewrite Ecs in Hr1. cbn [rsat reval] in Q. rewrite <- A, <- B.
  assert (Ev : reval v z == q).
  { rewrite VH in Ez. apply get_ok in Ez. destruct fixed as [sh|].
    - rewrite (dget_map_val RCst) in Ez. rewrite Hq in Ez. cbn in Ez. injection Ez as <-. reflexivity.
    - rewrite rfresh_get in Ez. destruct (mem d (r_dns R)); [|discriminate]. injection Ez as <-. cbn. now rewrite Hq. }
  rewrite <- Ev. apply Q. do 4 right. left. apply Hr, Hr1. now left.
Qed.
Lemma decided_active i : In i (r_sites R) -> active_now t i -> v (RSite i) == 1.
Proof.
  intros Hi Ha. pieces. unfold r_decided_sites in Ea. destruct (concatM_In _ _ _ _ Ea (rsite_loc i Hi)) as (r & Er & Hr). apply mem_In in Hi. rewrite Hi in Er. cbn [negb] in Er. fold I in Er.
  assert (Ac : active_site I i = true).
  { unfold active_site. rewrite orb_true_iff, !mem_In, (D_ps _ _ _ _ _ D), (D_es _ _ _ _ _ D). destruct Ha as (s & Es & [St|St]); [left|right]; exists s; auto. }
  rewrite Ac in Er. inv_do. subst r. rewrite VS, rfresh_get in E. destruct (mem i sk); [|discriminate]. injection E as <-.
  apply (Hsat (REq (RVar (RSite i)) (RCst 1))). left. apply Hr. now left.
Qed.
Lemma decided_off i s : In i (r_sites R) -> dget (t_sites t) i = Some s -> ~ in_service (s_status s) -> s_status s = UNAVAILABLE \/ s_status s = UNREACHABLE \/ s_type s = POP -> v (RSite i) == 0.
Proof.
  intros Hi Es Hna Hoff. pieces. unfold r_decided_sites in Ea. destruct (concatM_In _ _ _ _ Ea (rsite_loc i Hi)) as (r & Er & Hr). apply mem_In in Hi. rewrite Hi in Er. cbn [negb] in Er. fold I in Er.
  assert (Ac : active_site I i = false).
  { unfold active_site. apply orb_false_iff. rewrite !mem_not_In, (D_ps _ _ _ _ _ D), (D_es _ _ _ _ _ D). split; intros (s' & Es' & St); rewrite Es in Es'; injection Es' as <-; apply Hna; [left|right]; exact St. }
  rewrite Ac in Er.
  assert (G : exists x, get (w_site V) i = Ok x /\ r = [REq x (RCst 0)]).
  { destruct (mem i (i_inactive_sites I)) eqn:Mi; [inv_do; exists x; split; [now apply get_ok|auto]|].
    apply mem_not_In in Mi. rewrite (D_is _ _ _ _ _ D) in Mi. assert (HP' : s_type s = POP) by (destruct Hoff as [H|[H|H]]; auto; exfalso; apply Mi; exists s; auto).
    assert (Mp : mem i (i_set I (Real POP)) = true) by (apply mem_In, (D_rset _ _ _ _ _ D); exists s; auto). rewrite Mp in Er. inv_do. exists x. split; [now apply get_ok|auto]. }
  destruct G as (x & Ex & ->). apply get_ok in Ex. rewrite VS, rfresh_get in Ex. destruct (mem i sk); [|discriminate]. injection Ex as <-.
  apply (Hsat (REq (RVar (RSite i)) (RCst 0))). left. apply Hr. now left.
Qed.
(** polarity of the ends of a link that carries flow, or that the input already uses *)
Lemma polarity_R k l : p_ignore_polarities ps = false -> link_stored t k l -> In (l_tx l, l_rx l) (r_links R) -> l_wireless l = true ->
  active_link l \/ (exists d, In d (r_dns R) /\ 0 < fl v d (l_tx l, l_rx l)) ->
  (v (ROdd (l_tx l)) == 1 /\ v (ROdd (l_rx l)) == 0) \/ (v (ROdd (l_tx l)) == 0 /\ v (ROdd (l_rx l)) == 1).
Proof.
  intros Hpol El He Hwl Hact. assert (Eps := params_R).
  assert (S1 := proj1 (rlink_sites _ He)). assert (S2 := proj2 (rlink_sites _ He)). cbn [fst snd] in S1, S2.
  destruct (rlink_kind _ He) as (Hl & [(Es & _)|(k' & l' & El' & Ee' & B1 & B2 & _)]).
  { exfalso. cbn in Es. destruct (link_sites t Hw _ _ El) as (Ss & _). now apply (super_new _ Ss). }
  injection Ee' as E1 E2. rewrite <- E1 in B1. rewrite <- E2 in B2.
  assert (O1 := odd_binary _ Hpol S1 B1). assert (O2 := odd_binary _ Hpol S2 B2).
  pieces. unfold r_polarity in Ef. fold I in Ef. rewrite Eps, Hpol in Ef. cbn [negb] in Ef. destruct (concatM_In _ _ _ _ Ef Hl) as (r & Er & Hr).
  apply mem_In in He. rewrite He, (D_wired _ _ _ _ _ D _ _ El), Hwl in Er. cbn [negb fst snd] in Er. apply mem_In in He. inv_do.
  rewrite VO, rfresh_get in E. rewrite VO, rfresh_get in E0. destruct (mem (l_tx l) ok); [|discriminate]. destruct (mem (l_rx l) ok); [|discriminate]. injection E as <-. injection E0 as <-.
  destruct (mem (l_tx l, l_rx l) (i_proposed_links I) || mem (l_tx l, l_rx l) (i_existing_links I)) eqn:Ma.
  - inv_do. subst r. assert (Q := Hsat (REq (RVar (ROdd (l_tx l))) (RSub (RCst 1) (RVar (ROdd (l_rx l)))))). cbn in Q.
    assert (v (ROdd (l_tx l)) == 1 - v (ROdd (l_rx l))) as Q' by (apply Q; do 5 right; apply Hr; now left). destruct O2 as [O2|O2]; [left|right]; split; lra.
  - destruct Hact as [Ha|(d & Hd & Hf)].
    { exfalso. assert (In (l_tx l, l_rx l) (i_proposed_links I ++ i_existing_links I)%list) as Hin by (apply (D_alinks _ _ _ _ _ D); exists k, l; auto).
      apply in_app_iff in Hin. rewrite <- !mem_In in Hin. apply orb_false_iff in Ma. destruct Ma as (M1 & M2). rewrite M1, M2 in Hin. destruct Hin; discriminate. }
    destruct (concatM_In _ _ _ d Er Hd) as (r1 & Er1 & Hr1). inv_do. subst r1. rewrite VF, rfresh_get in E. destruct (mem _ (r_flow_keys R)); [|discriminate]. injection E as <-.
    assert (Q1 := Hsat (RLe (RVar (rflow ((l_tx l, l_rx l), d))) (RAdd (RVar (ROdd (l_tx l))) (RVar (ROdd (l_rx l)))))).
    assert (Q2 := Hsat (RLe (RVar (rflow ((l_tx l, l_rx l), d))) (RSub (RSub (RCst 2) (RVar (ROdd (l_tx l)))) (RVar (ROdd (l_rx l)))))).
    cbn [rsat reval] in Q1, Q2. change (v (rflow (l_tx l, l_rx l, d))) with (fl v d (l_tx l, l_rx l)) in Q1, Q2.
    assert (G1 : fl v d (l_tx l, l_rx l) <= v (ROdd (l_tx l)) + v (ROdd (l_rx l))) by (apply Q1; do 5 right; apply Hr, Hr1; now left).
    assert (G2 : fl v d (l_tx l, l_rx l) <= 2 - v (ROdd (l_tx l)) - v (ROdd (l_rx l))) by (apply Q2; do 5 right; apply Hr, Hr1; right; now left).
    destruct O1 as [O1|O1], O2 as [O2|O2]; rewrite O1, O2 in *; [lra|right|left|lra]; split; reflexivity.
Qed.

(** a link that carries flow joins selected sites *)
Lemma inflow_pos d e : In e (r_links R) -> In d (r_dns R) -> 0 < fl v d e -> 0 < inflow (fl v d) used (snd e).
Proof.
  intros He Hd Hf. unfold inflow. apply Qlt_le_trans with (fl v d e); [exact Hf|]. apply (total_member (fl v d)).
  - intros y Hy. apply filter_In in Hy. destruct Hy as (Hy & _). apply used_iff in Hy. now apply flow_bounds.
  - apply filter_In. split; [now apply used_iff|apply beq_refl].
Qed.
Lemma outflow_pos d e : In e (r_links R) -> In d (r_dns R) -> 0 < fl v d e -> 0 < outflow (fl v d) used (fst e).
Proof.
  intros He Hd Hf. unfold outflow. apply Qlt_le_trans with (fl v d e); [exact Hf|]. apply (total_member (fl v d)).
  - intros y Hy. apply filter_In in Hy. destruct Hy as (Hy & _). apply used_iff in Hy. now apply flow_bounds.
  - apply filter_In. split; [now apply used_iff|apply beq_refl].
Qed.
Lemma inflow_selected d i : In i (r_sites R) -> backhaul_site t i -> In d (r_dns R) -> 0 < inflow (fl v d) used i -> v (RSite i) == 1.
Proof.
  intros Hi B Hd Hp. destruct (site_binary i Hi B) as [E|E]; [|exact E]. exfalso. destruct B as (s & Es & _).
  destruct (flow_site i d s Hi Es Hd) as [H|H]; [rewrite E in H|rewrite H in Hp]; lra.
Qed.
Lemma carrier_selected d e : In e (r_links R) -> In d (r_dns R) -> 0 < fl v d e -> v (RSite (snd e)) == 1 /\ (fst e <> SUPERSOURCE -> v (RSite (fst e)) == 1).
Proof.
  intros He Hd Hf. destruct (rlink_sites e He) as (S1 & S2). destruct (rlink_ends e He) as (B1 & B2). split.
  - apply (inflow_selected d); auto. now apply inflow_pos.
  - intros Hs. destruct B1 as [?|B1]; [contradiction|]. destruct (eqb_dec (fst e) d) as [E|Ne].
    + rewrite E in *. apply decided_active; [auto|]. apply dns_iff in Hd. apply Hd.
    + apply (inflow_selected d); auto. rewrite balance_R by auto. now apply outflow_pos.
Qed.
End Sat.
End Net.
