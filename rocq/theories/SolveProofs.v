(** Every site-selection problem can be posed, and what a plan without traffic has to satisfy. *)
From Coq Require Import QArith Lqa Lia.
From Verif Require Import Base Dict TopologyModel TopologySpec TopologyLemmas GraphSpec GraphProofs RfModel RfProofs SetupModel
  IlpModel IlpSpec QLib MonadLib SetupProofs IlpLemmas IlpProofs ExtractModel ExtractSpec ExtractProofs SolveSpec.
From Verif Require RedunSolveProofs RedunReadProofs.
Local Open Scope Q_scope.

Lemma dwf_append {K V} `{EqB K} (d : dict K (list V)) k v : dwf d -> dwf (dappend d k v).
Proof. intros W. unfold dappend. apply dwf_set, W. Qed.
Lemma setup_secs_wf at_ t : dwf (setup_secs at_ t).
Proof.
  unfold setup_secs. assert (A : forall (l : list (string * string)) (d : dict string (list string)), dwf d -> dwf (fold_left (fun d p => dappend d (fst p) (snd p)) l d)) by (induction l as [|x l IH]; intros d Wd; [exact Wd|]; cbn; apply IH, dwf_append, Wd).
  assert (B : forall (l : list string) (d : dict string (list string)), dwf d -> dwf (fold_left (fun d loc => if dmem d loc then d else dset d loc []) l d)) by (induction l as [|x l IH]; intros d Wd; [exact Wd|]; cbn; apply IH; destruct (dmem d x); [exact Wd|apply dwf_set, Wd]).
  apply B, A. constructor.
Qed.

Section Pose.
Variables (ps : params) (at_ : attrs) (t : topo) (I0 : inst).
Hypothesis Hw : well_formed t.
Hypothesis Hn : names_ok at_ t.
Hypothesis HI : network ps at_ t = Ok I0.
Let I := with_channels 1 I0.
Lemma D : describes ps at_ t (a_cap at_) I.
Proof using Hw Hn HI. exact (desc ps at_ t I0 Hw Hn HI). Qed.
Lemma PV : p_pop_capacity (i_params I) = p_pop_capacity ps /\ p_ignore_polarities (i_params I) = p_ignore_polarities ps /\
  p_always_active_pops (i_params I) = p_always_active_pops ps /\ p_budget (i_params I) = p_budget ps /\ p_coverage (i_params I) = p_coverage ps /\ p_capex (i_params I) = p_capex ps.
Proof using HI. exact (params_val ps at_ t I0 HI). Qed.

Lemma loc_typed i : In i (i_locations I) -> exists ty, get (i_type I) i = Ok ty.
Proof using Hw Hn HI.
  intros H. apply (D_locs _ _ _ _ _ D) in H. unfold get. destruct H as [->|[(s & Es)|Hc]]; [rewrite (D_super _ _ _ _ _ D)|rewrite (D_site _ _ _ _ _ D _ _ Es)|rewrite (D_cons _ _ _ _ _ D _ Hc)]; eauto.
Qed.
Lemma stored_typed i s : dget (t_sites t) i = Some s -> get (i_type I) i = Ok (Real (s_type s)).
Proof using Hw Hn HI. intros Es. unfold get. now rewrite (D_site _ _ _ _ _ D _ _ Es). Qed.

(** ** the tables *)
Lemma site_keys_ok : exists sk, site_decisions I = Ok sk /\ forall i, In i sk <-> site_stored t i.
Proof using Hw Hn HI.
  unfold site_decisions, real_locations. destruct (RedunReadProofs.filterM_total' (fun loc => do ty <- get (i_type I) loc ; Ok (negb (imaginary ty))) (i_locations I)) as (sk & E).
  { intros i Hi. destruct (loc_typed i Hi) as (ty & ->). cbn. eauto. }
  exists sk. split; [exact E|]. intros i. destruct (filterM_ok _ _ _ E) as (_ & H & _). rewrite H. split.
  - intros (Hi & Ei). destruct (loc_typed i Hi) as (ty & Et). rewrite Et in Ei. cbn in Ei. apply get_ok, (D_type _ _ _ _ _ D) in Et. destruct Et as [(_ & ->)|[(s & Es & _)|(_ & ->)]]; [discriminate|now exists s|discriminate].
  - intros (s & Es). split; [apply (site_location ps at_ t I0 Hw Hn HI); now exists s|]. rewrite (stored_typed i s Es). reflexivity.
Qed.
Lemma tdm_keys_ok : exists tk, tdm_keys I = Ok tk.
Proof using Hw Hn HI.
  apply concatM_total. intros e He. destruct (D_ends _ _ _ _ _ D e He) as (H1 & H2). destruct (loc_typed _ H1) as (t1 & ->), (loc_typed _ H2) as (t2 & ->). cbn. eauto.
Qed.
Lemma odd_keys_ok : exists ok, odd_keys I = Ok ok /\ forall i, In i ok <-> p_ignore_polarities ps = false /\ backhaul_site t i.
Proof using Hw Hn HI.
  unfold odd_keys. rewrite (proj1 (proj2 PV)). destruct (p_ignore_polarities ps). { exists []. split; [reflexivity|]. cbn. intros i. split; [contradiction|intros (? & _); discriminate]. }
  destruct (RedunReadProofs.filterM_total' (fun loc => do ty <- get (i_type I) loc ; Ok (dist ty)) (i_locations I)) as (ok & E).
  { intros i Hi. destruct (loc_typed i Hi) as (ty & ->). cbn. eauto. }
  exists ok. split; [exact E|]. intros i. destruct (filterM_ok _ _ _ E) as (_ & H & _). rewrite H. split.
  - intros (Hi & Ei). split; [reflexivity|]. destruct (loc_typed i Hi) as (ty & Et). rewrite Et in Ei. cbn in Ei. apply get_ok, (D_type _ _ _ _ _ D) in Et. destruct Et as [(_ & ->)|[(s & Es & ->)|(_ & ->)]]; [discriminate| |discriminate].
    exists s. split; [exact Es|]. destruct (s_type s); cbn in Ei; auto; discriminate.
  - intros (_ & s & Es & Ty). split; [apply (site_location ps at_ t I0 Hw Hn HI); now exists s|]. rewrite (stored_typed i s Es). cbn. destruct Ty as [-> | ->]; reflexivity.
Qed.
Lemma demand_get n : consumer at_ t n -> exists q, dget (i_demand I) n = Some q.
Proof using Hw Hn HI. intros Hc. destruct (D_demand _ _ _ _ _ D n Hc) as (i & d & _ & _ & E). eauto. Qed.
Lemma short_keys n : In n (shortage_keys I) <-> consumer at_ t n.
Proof using Hw Hn HI. apply (proj2 (shortage_keys_lists ps at_ t I0 Hw Hn HI)). Qed.
Lemma tables_ok : exists V sk tk ok, site_tables I = Ok V /\ tdm_keys I = Ok tk /\ odd_keys I = Ok ok /\ site_decisions I = Ok sk /\
  (forall i, dget (v_site V) i = if dmem (t_sites t) i then Some (Var (VSite i)) else None) /\
  v_flow V = dict_of (fresh flow_var (flow_keys I)) /\ v_tdm V = dict_of (fresh tdm_var tk) /\ v_odd V = dict_of (fresh VOdd ok) /\ v_short V = dict_of (fresh VShort (shortage_keys I)) /\
  (forall k x, dget (v_sector V) k = Some x -> exists i, site_stored t i /\ x = Var (VSite i)) /\
  (forall k x, sector_stored t k x -> dget (v_sector V) (x_site x, k, 0%nat) = Some (Var (VSite (x_site x)))).
Proof using Hw Hn HI.
  destruct site_keys_ok as (sk & Esk & Hsk), tdm_keys_ok as (tk & Etk), odd_keys_ok as (ok & Eok & _).
  assert (G : forall i, dget (dict_of (fresh VSite sk)) i = if dmem (t_sites t) i then Some (Var (VSite i)) else None).
  { intros i. rewrite fresh_get. replace (mem i sk) with (dmem (t_sites t) i); [reflexivity|]. apply eq_true_iff_eq. rewrite mem_In, Hsk. symmetry. apply stored_dmem. }
  assert (S : exists sec, site_sector_vars I (dict_of (fresh VSite sk)) = Ok sec).
  { apply concatM_total. intros (loc & l) Hp. cbn [fst snd]. apply concatM_total. intros a Ha.
    assert (Ws : dget (i_secs I) loc = Some l).
    { apply In_dget; [|exact Hp]. change (i_secs I) with (i_secs I0). destruct (setup_fields ps at_ t I0 (proj1 (network_setup ps at_ t I0 HI))) as (thr & _ & _ & _ & _ & _ & _ & _ & _ & -> & _). apply setup_secs_wf. }
    destruct (D_sectype_tot _ _ _ _ _ D loc l a Ws Ha) as (ty & Ety). unfold get at 1. rewrite Ety. cbn [rbind]. destruct (imaginary_sec ty) eqn:B; [eauto|].
    destruct (D_sec_inv _ _ _ _ _ D loc l a ty Ws Ha Ety B) as (x & Hx & <-). unfold get. rewrite G. assert (M := sector_site_stored _ _ _ Hw Hx). apply stored_dmem in M. rewrite M. cbn. eauto. }
  destruct S as (sec & Esec). unfold site_tables. rewrite Esk. cbn [rbind]. rewrite Esec. cbn [rbind]. rewrite Etk, Eok. cbn [rbind].
  eexists. exists sk, tk, ok. split; [reflexivity|]. cbn [v_site v_flow v_tdm v_odd v_short v_sector]. split; [reflexivity|]. split; [reflexivity|]. split; [reflexivity|]. split; [exact G|]. split; [reflexivity|]. split; [reflexivity|]. split; [reflexivity|]. split; [reflexivity|]. split.
  - intros k x E. apply dict_of_In in E. destruct (concatM_inv _ _ _ _ Esec E) as ((loc & l) & r & _ & Er & Hr). cbn [fst snd] in Er. destruct (concatM_inv _ _ _ _ Er Hr) as (a & r1 & _ & Er1 & Hr1). inv_do. destruct (imaginary_sec x0); inv_do; subst r1; [contradiction|].
    destruct Hr1 as [X|[]]. injection X as X1 X2. rewrite G in E1. destruct (dmem (t_sites t) loc) eqn:M; [|discriminate]. injection E1 as <-. subst x. exists loc. split; [now apply stored_dmem|reflexivity].
  - intros k x Hx. apply (sector_get ps at_ t I0 Hw Hn HI k x Hx (mkTables (dict_of (fresh VSite sk)) [] [] [] [] [] []) sec); cbn [v_site]; [|exact Esec]. unfold I in Esk. now rewrite Esk.
Qed.
Lemma decls_ok : exists ds, site_decls I = Ok ds /\ forall d, In d ds ->
  (exists i, site_stored t i /\ d = (VSite i, Binary)) \/ (exists e, d = (flow_var e, Continuous 0 None)) \/ (exists k, d = (tdm_var k, Continuous 0 (Some 1))) \/
  (exists i, d = (VOdd i, Binary)) \/ exists n q, consumer at_ t n /\ dget (i_demand I) n = Some q /\ d = (VShort n, Continuous 0 (Some q)).
Proof using Hw Hn HI.
  destruct site_keys_ok as (sk & Esk & Hsk), tdm_keys_ok as (tk & Etk), odd_keys_ok as (ok & Eok & _). unfold site_decls. rewrite Esk, Etk, Eok. cbn [rbind].
  destruct (mapM_total (fun loc => do q <- get (i_demand I) loc ; Ok (VShort loc, Continuous 0 (Some q))) (shortage_keys I)) as (sh & Esh).
  { intros n H. apply short_keys in H. destruct (demand_get n H) as (q & E). unfold get. rewrite E. cbn. eauto. }
  unfold shortage_decls. rewrite Esh. cbn [rbind]. eexists. split; [reflexivity|]. intros d. rewrite !in_app_iff, !in_map_iff. intros [(i & <- & H)|[(e & <- & _)|[(k & <- & _)|[(i & <- & _)|H]]]].
  - left. exists i. split; [now apply Hsk|reflexivity].
  - right; left. eauto.
  - right; right; left. eauto.
  - right; right; right; left. eauto.
  - right; right; right; right. destruct (mapM_inv _ _ _ _ Esh H) as (n & Hin & E). inv_do. subst d. exists n, x. split; [now apply short_keys|]. split; [assumption|reflexivity].
Qed.

(** ** a plan without traffic *)
Record idle (v : var -> Q) : Prop := {
  id_flow : forall e, v (flow_var e) == 0;
  id_tdm : forall k, v (tdm_var k) == 0;
  id_site : forall i, bin (v (VSite i));
  id_odd : forall i, bin (v (VOdd i));
  id_short : forall n q, consumer at_ t n -> dget (i_demand I) n = Some q -> v (VShort n) == q;
  id_dem : forall n q, consumer at_ t n -> dget (i_demand I) n = Some q -> 0 <= q;
  id_max : 0 <= i_max_throughput I;
  id_pop : 0 <= p_pop_capacity ps;
  id_cap : forall e q, dget (i_cap I) e = Some q -> 0 <= q;
  id_pol : p_ignore_polarities ps = false -> forall k l, link_stored t k l -> active_link l -> backhaul_site t (l_tx l) -> backhaul_site t (l_rx l) -> v (VOdd (l_tx l)) == 1 - v (VOdd (l_rx l));
  id_choice : site_choice ps t (fun i => selected v i) }.
Definition holds (K : (var -> Q) -> Prop) (r : result (list constr)) : Prop := exists cs, r = Ok cs /\ forall v, K v -> forall c, In c cs -> sat v c.
Definition posed : result (list constr) -> Prop := holds idle.
Lemma holds_nil (K : (var -> Q) -> Prop) : holds K (Ok []).
Proof using. exists []. split; [reflexivity|]. intros v _ c []. Qed.
Lemma holds_ok (K : (var -> Q) -> Prop) cs : (forall v, K v -> forall c, In c cs -> sat v c) -> holds K (Ok cs).
Proof using. intros H. exists cs. auto. Qed.
Lemma holds_concat (K : (var -> Q) -> Prop) {A} (f : A -> result (list constr)) l : (forall x, In x l -> holds K (f x)) -> holds K (concatM f l).
Proof using.
  intros H. destruct (concatM_total f l) as (r & E). { intros x Hx. destruct (H x Hx) as (cs & E & _). eauto. }
  exists r. split; [exact E|]. intros v Hv c Hc. destruct (concatM_inv _ _ _ _ E Hc) as (x & cs & Hx & Ex & Hin). destruct (H x Hx) as (cs' & E' & S'). rewrite Ex in E'. injection E' as <-. eauto.
Qed.
Lemma posed_nil : posed (Ok []).
Proof using. apply holds_nil. Qed.
Lemma posed_ok cs : (forall v, idle v -> forall c, In c cs -> sat v c) -> posed (Ok cs).
Proof using. apply holds_ok. Qed.
Lemma posed_concat {A} (f : A -> result (list constr)) l : (forall x, In x l -> posed (f x)) -> posed (concatM f l).
Proof using. apply holds_concat. Qed.
(** a choice of sites *)
Record picks (v : var -> Q) : Prop := {
  pk_site : forall i, site_stored t i -> bin (v (VSite i));
  pk_choice : site_choice ps t (fun i => selected v i) }.
Lemma idle_picks v : idle v -> picks v.
Proof using. intros H. split; [intros i _; apply (id_site v H)|apply (id_choice v H)]. Qed.

Variables (V : tables) (sk : list string) (tk : list key3) (ok : list string).
Hypothesis Etk : tdm_keys I = Ok tk.
Hypothesis Eok : odd_keys I = Ok ok.
Hypothesis Esk : site_decisions I = Ok sk.
Hypothesis VS : forall i, dget (v_site V) i = if dmem (t_sites t) i then Some (Var (VSite i)) else None.
Hypothesis VF : v_flow V = dict_of (fresh flow_var (flow_keys I)).
Hypothesis VT : v_tdm V = dict_of (fresh tdm_var tk).
Hypothesis VO : v_odd V = dict_of (fresh VOdd ok).
Hypothesis VSh : v_short V = dict_of (fresh VShort (shortage_keys I)).
Hypothesis VSec : forall k x, dget (v_sector V) k = Some x -> exists i, site_stored t i /\ x = Var (VSite i).
Hypothesis VSec' : forall k x, sector_stored t k x -> dget (v_sector V) (x_site x, k, 0%nat) = Some (Var (VSite (x_site x))).

Lemma site_var i : site_stored t i -> get (v_site V) i = Ok (Var (VSite i)).
Proof using VS. intros H. apply stored_dmem in H. unfold get. now rewrite VS, H. Qed.
Lemma site_vars l : (forall i, In i l -> site_stored t i) -> mapM (get (v_site V)) l = Ok (map (fun i => Var (VSite i)) l).
Proof using VS. intros H. apply mapM_pure. intros i Hi. apply site_var; auto. Qed.
Lemma sum_sites v l : eval v (xsum (map (fun i => Var (VSite i)) l)) == total (fun i => v (VSite i)) l.
Proof using. rewrite eval_xsum, total_map. reflexivity. Qed.
Lemma flow_var_get e : In e (i_links I) -> get (v_flow V) e = Ok (Var (flow_var e)).
Proof using VF. intros H. unfold get. rewrite VF, fresh_get. unfold flow_keys. apply mem_In in H. now rewrite H. Qed.
Lemma tdm_val e c x : dget (v_tdm V) (e, c) = Some x -> x = Var (tdm_var (e, c)).
Proof using VT. rewrite VT, fresh_get. destruct (mem _ _); congruence. Qed.
Lemma odd_get_iff i : dget (v_odd V) i = if mem i ok then Some (Var (VOdd i)) else None.
Proof using VO. now rewrite VO, fresh_get. Qed.
Lemma odd_key i : In i ok <-> p_ignore_polarities ps = false /\ backhaul_site t i.
Proof using Eok Hw Hn HI. destruct odd_keys_ok as (ok' & E & H). unfold I in *. rewrite Eok in E. injection E as <-. apply H. Qed.
Lemma incoming_get loc : In loc (i_locations I) -> exists es, incoming I loc = Ok es /\ forall e, In e es -> In e (i_links I).
Proof using. intros H. unfold incoming. apply mem_In in H. rewrite H. eexists. split; [reflexivity|]. intros e He. apply filter_In in He. tauto. Qed.
Lemma outgoing_get loc : In loc (i_locations I) -> exists es, outgoing I loc = Ok es /\ forall e, In e es -> In e (i_links I).
Proof using. intros H. unfold outgoing. apply mem_In in H. rewrite H. eexists. split; [reflexivity|]. intros e He. apply filter_In in He. tauto. Qed.
Lemma flow_sum_get es : (forall e, In e es -> In e (i_links I)) -> exists o, flow_sum V es = Ok o /\ forall v x, idle v -> o = Some x -> eval v x == 0.
Proof using VF.
  intros H. unfold flow_sum. rewrite (mapM_pure _ (fun e => Var (flow_var e))) by (intros; apply flow_var_get; auto). cbn [rbind]. eexists. split; [reflexivity|]. intros v x Hv Ex.
  assert (Z : eval v (xsum (map (fun e => Var (flow_var e)) es)) == 0). { rewrite eval_xsum, total_map, (total_ext _ (fun _ => 0)), total_const0; [reflexivity|]. intros e _. apply (id_flow v Hv). }
  destruct es; [discriminate|]. injection Ex as <-. exact Z.
Qed.
Lemma incoming_flow_get loc : In loc (i_locations I) -> exists o, incoming_flow I V loc = Ok o /\ forall v x, idle v -> o = Some x -> eval v x == 0.
Proof using VF. intros H. unfold incoming_flow. destruct (incoming_get loc H) as (es & -> & He). cbn [rbind]. now apply flow_sum_get. Qed.
Lemma outgoing_flow_get loc : In loc (i_locations I) -> exists o, outgoing_flow I V loc = Ok o /\ forall v x, idle v -> o = Some x -> eval v x == 0.
Proof using VF. intros H. unfold outgoing_flow. destruct (outgoing_get loc H) as (es & -> & He). cbn [rbind]. now apply flow_sum_get. Qed.
Lemma net_flow_get loc : In loc (i_locations I) -> exists o, net_flow I V loc = Ok o /\ forall v x, idle v -> o = Some x -> eval v x == 0.
Proof using VF.
  intros H. unfold net_flow. destruct (incoming_flow_get loc H) as (a & -> & A), (outgoing_flow_get loc H) as (b & -> & B). cbn [rbind]. eexists. split; [reflexivity|]. intros v x Hv E.
  destruct a as [a|], b as [b|]; cbn [or_zero] in E; try discriminate; injection E as <-; cbn [eval].
  - rewrite (A v a Hv eq_refl), (B v b Hv eq_refl). lra.
  - rewrite (A v a Hv eq_refl). lra.
  - rewrite (B v b Hv eq_refl). lra.
Qed.
Lemma pose_balance : posed (create_flow_balance_with_shortage I V).
Proof using VF VSh Hw Hn HI.
  apply posed_concat. intros loc Hl. destruct (net_flow_get loc Hl) as (o & -> & Z). cbn [rbind].
  assert (R : exists r, balance_rhs I V loc = Ok r /\ forall v, idle v -> eval v r == 0).
  { assert (SG : forall n, consumer at_ t n -> get (v_short V) n = Ok (Var (VShort n))) by (intros n Hc; unfold get; rewrite VSh, fresh_get; apply short_keys in Hc; apply mem_In in Hc; now rewrite Hc).
    unfold balance_rhs. destruct (loc_typed loc Hl) as (ty & E). rewrite E. cbn [rbind]. apply get_ok, (D_type _ _ _ _ _ D) in E. destruct E as [(-> & ->)|[(s & _ & ->)|(Hc & ->)]].
    - rewrite (mapM_pure _ (fun n => Var (VShort n))) by (intros n Hin; apply SG; now apply short_keys). cbn [rbind]. eexists. split; [reflexivity|]. intros v Hv. cbn [eval]. rewrite eval_xsum, total_map.
      destruct (max_val ps at_ t I0 HI) as (thr & Et & Em). fold I in Et, Em. rewrite Em, fold_plus.
      rewrite (mapM_eq _ (fun n => match dget (i_demand I) n with Some q => q | None => 0 end) _ _ Et) by (intros n y _ Hy; apply get_ok in Hy; now rewrite Hy). rewrite total_map.
      rewrite (total_ext (fun x => eval v (Var (VShort x))) (fun n => match dget (i_demand I) n with Some q => q | None => 0 end)); [lra|].
      intros n Hin. apply short_keys in Hin. destruct (demand_get n Hin) as (q & Eq). rewrite Eq. cbn [eval]. exact (id_short v Hv n q Hin Eq).
    - eexists. split; [reflexivity|]. intros v _. reflexivity.
    - destruct (demand_get loc Hc) as (q & Eq). unfold get at 1. rewrite Eq. cbn [rbind]. rewrite (SG loc Hc). cbn [rbind]. eexists. split; [reflexivity|]. intros v Hv. cbn [eval]. rewrite (id_short v Hv loc q Hc Eq). lra. }
  destruct R as (r & -> & Zr). cbn [rbind]. apply posed_ok. intros v Hv c Hc. destruct o as [x|]; [|contradiction]. destruct Hc as [<-|[]]. cbn [sat]. rewrite (Z v x Hv eq_refl), (Zr v Hv). reflexivity.
Qed.
Lemma pose_flow_site : posed (create_flow_site_relationship I V).
Proof using VF VS Hw Hn HI.
  apply posed_concat. intros loc Hl. destruct (incoming_flow_get loc Hl) as (a & -> & A), (outgoing_flow_get loc Hl) as (b & -> & B). cbn [rbind]. destruct (loc_typed loc Hl) as (ty & E). rewrite E. cbn [rbind].
  assert (X : exists s, (if imaginary ty then Ok (Cst 1) else get (v_site V) loc) = Ok s /\ forall v, idle v -> 0 <= eval v s).
  { destruct (imaginary ty) eqn:Im. { eexists. split; [reflexivity|]. intros v _. cbn. lra. }
    apply get_ok, (D_type _ _ _ _ _ D) in E. destruct E as [(_ & ->)|[(s & Es & _)|(_ & ->)]]; [discriminate| |discriminate]. rewrite site_var by (now exists s). eexists. split; [reflexivity|].
    intros v Hv. cbn [eval]. destruct (id_site v Hv loc) as [Z|Z]; rewrite Z; lra. }
  destruct X as (s & -> & Ps). cbn [rbind]. apply posed_ok. intros v Hv c Hc. assert (P1 := id_max v Hv). assert (P2 := Ps v Hv). assert (P3 : 0 <= i_max_throughput I * eval v s) by nra.
  apply in_app_iff in Hc. destruct Hc as [Hc|Hc]; [destruct a as [x|]|destruct b as [x|]]; try contradiction; destruct Hc as [<-|[]]; cbn [sat eval]; [rewrite (A v x Hv eq_refl)|rewrite (B v x Hv eq_refl)]; exact P3.
Qed.
Lemma pose_sector : posed (create_tdm_sector_relationship I V).
Proof using VT VSec Hw Hn HI.
  apply posed_concat. intros i Hi. destruct (loc_typed i Hi) as (ty & E). rewrite E. cbn [rbind]. destruct (imaginary ty); [apply posed_nil|]. destruct (D_secs_tot _ _ _ _ _ D i Hi) as (secs & Es). unfold get at 1. rewrite Es. cbn [rbind].
  apply posed_concat. intros a _. apply posed_concat. intros c _. destruct (dget (v_sector V) (i, a, c)) as [x|] eqn:Ex; [|apply posed_nil]. destruct (VSec _ _ Ex) as (j & _ & ->).
  destruct (outgoing_get i Hi) as (eo & -> & Ho), (incoming_get i Hi) as (ei & -> & Hin). cbn [rbind].
  assert (T : forall side es, (forall e, In e es -> In e (i_links I)) -> exists l, sector_tdm I V a c side es = Ok l /\ forall v, idle v -> forall y, In y l -> eval v y == 0).
  { intros side es Hes. destruct (concatM_total (fun e => do s <- get (i_l2s I) e ; Ok (if beq (side s) (Some a) then match dget (v_tdm V) (e, c) with Some x => [x] | None => [] end else [])) es) as (l & El).
    { intros e He. destruct (D_l2s_tot _ _ _ _ _ D e (Hes e He)) as (p & Ep). unfold get. rewrite Ep. cbn. eauto. }
    exists l. split; [exact El|]. intros v Hv y Hy. destruct (concatM_inv _ _ _ _ El Hy) as (e & r & _ & Er & Hr). inv_do. subst r. destruct (beq _ _); [|contradiction]. destruct (dget (v_tdm V) (e, c)) eqn:Et; [|contradiction]. destruct Hr as [<-|[]].
    rewrite (tdm_val _ _ _ Et). apply (id_tdm v Hv). }
  destruct (T fst eo Ho) as (l1 & -> & Z1), (T snd ei Hin) as (l2 & -> & Z2). cbn [rbind]. apply posed_ok. intros v Hv k Hk.
  assert (P0 : 0 <= v (VSite j)) by (destruct (id_site v Hv j) as [Z|Z]; rewrite Z; lra).
  assert (Q0 : forall l, (forall y, In y l -> eval v y == 0) -> In k (at_most l (Var (VSite j))) -> sat v k).
  { intros l Z Hl. unfold at_most in Hl. assert (S0 : eval v (xsum l) == 0). { rewrite eval_xsum, (total_ext _ (fun _ => 0)), total_const0; [reflexivity|exact Z]. } destruct l; [contradiction|]. destruct Hl as [<-|[]]. cbn [sat]. rewrite S0. exact P0. }
  apply in_app_iff in Hk. destruct Hk as [Hk|Hk]; [apply (Q0 l1)|apply (Q0 l2)]; auto.
Qed.
Lemma pose_pop_load : posed (create_pop_load_constraints I V).
Proof using VF Hw Hn HI.
  apply posed_concat. intros loc Hl. apply filter_In in Hl. destruct Hl as (Hl & _). destruct (outgoing_flow_get loc Hl) as (o & -> & Z). cbn [rbind]. apply posed_ok. intros v Hv c Hc. destruct o as [x|]; [|contradiction]. destruct Hc as [<-|[]].
  cbn [sat eval]. rewrite (Z v x Hv eq_refl), (proj1 PV). apply (id_pop v Hv).
Qed.
Lemma tdm_sum_get e : In e (i_links I) -> dmem (v_tdm V) (e, 0%nat) = true -> exists x, tdm_sum I V e = Ok x /\ forall v, idle v -> eval v x == 0.
Proof using VT.
  intros He M. unfold tdm_sum. change (channels I) with [0%nat]. apply dmem_Some in M. destruct M as (x & Ex). unfold mapM, get. rewrite Ex. cbn [rbind]. eexists. split; [reflexivity|]. intros v Hv. rewrite eval_xsum. cbn [total]. rewrite (tdm_val _ _ _ Ex). cbn [eval]. rewrite (id_tdm v Hv). lra.
Qed.
Lemma pose_tdm_flow : posed (create_tdm_flow_relationship I V).
Proof using VF VT Hw Hn HI.
  apply posed_concat. intros e He. assert (K := He). unfold i_links in K. apply In_dkeys in K. destruct K as (q & Eq). unfold get at 1. rewrite Eq. cbn [rbind]. rewrite (flow_var_get e He). cbn [rbind].
  destruct (dmem (v_tdm V) (e, 0%nat)) eqn:M.
  - destruct (tdm_sum_get e He M) as (x & -> & Z). cbn [rbind]. apply posed_ok. intros v Hv c [<-|[]]. cbn [sat eval]. rewrite (id_flow v Hv), (Z v Hv). lra.
  - apply posed_ok. intros v Hv c [<-|[]]. cbn [sat eval]. rewrite (id_flow v Hv). assert (A := id_cap v Hv e q Eq). assert (B := id_max v Hv). destruct (qmin2_spec q (i_max_throughput I)) as ([-> | ->] & _); assumption.
Qed.
Lemma pose_polarity : posed (create_tdm_polarity_relationship I V).
Proof using VT VO Etk Eok Hw Hn HI.
  unfold create_tdm_polarity_relationship. rewrite (proj1 (proj2 PV)). destruct (p_ignore_polarities ps) eqn:Ig; [apply posed_nil|]. apply posed_concat. intros e He.
  destruct (mem e (i_proposed_links I ++ i_existing_links I)%list); [apply posed_nil|]. destruct (mem e (i_wired I)) eqn:W; [apply posed_nil|]. destruct (D_ends _ _ _ _ _ D e He) as (H1 & H2). destruct (loc_typed _ H1) as (t1 & E1), (loc_typed _ H2) as (t2 & E2). rewrite E1, E2. cbn [rbind].
  destruct (dist t1 && dist t2) eqn:B; [|apply posed_nil]. apply andb_true_iff in B. destruct B as (B1 & B2).
  assert (BK : forall i ty, get (i_type I) i = Ok ty -> dist ty = true -> backhaul_site t i).
  { intros i ty E Hd. apply get_ok, (D_type _ _ _ _ _ D) in E. destruct E as [(_ & ->)|[(s & Es & ->)|(_ & ->)]]; [discriminate| |discriminate]. exists s. split; [exact Es|]. destruct (s_type s); cbn in Hd; auto; discriminate. }
  assert (M : dmem (v_tdm V) (e, 0%nat) = true).
  { apply dmem_Some. rewrite VT, fresh_get. assert (K := Etk). unfold tdm_keys in K. destruct (concatM_In _ _ _ e K He) as (r & Er & Hr). rewrite E1, E2 in Er. cbn [rbind] in Er. rewrite W in Er.
    assert (N : forall ty, dist ty = true -> imaginary ty = false) by (intros [[]| |]; cbn; congruence). rewrite (N t1 B1), (N t2 B2) in Er. cbn in Er. injection Er as <-. specialize (Hr (e, 0%nat) (or_introl eq_refl)). apply mem_In in Hr. rewrite Hr. eauto. }
  destruct (tdm_sum_get e He M) as (x & -> & Z). cbn [rbind]. unfold get. rewrite !odd_get_iff.
  assert (O1 : mem (fst e) ok = true) by (apply mem_In, odd_key; eauto). assert (O2 : mem (snd e) ok = true) by (apply mem_In, odd_key; eauto). rewrite O1, O2. cbn [rbind].
  apply posed_ok. intros v Hv c Hc. destruct (id_odd v Hv (fst e)) as [X|X], (id_odd v Hv (snd e)) as [Y|Y]; destruct Hc as [<-|[<-|[]]]; cbn [sat eval]; rewrite (Z v Hv), X, Y; lra.
Qed.
Lemma pose_active_polarity : posed (create_active_link_polarity_constraints I V).
Proof using VO Eok Hw Hn HI.
  unfold create_active_link_polarity_constraints. rewrite (proj1 (proj2 PV)). destruct (p_ignore_polarities ps) eqn:Ig; [apply posed_nil|]. apply posed_ok. intros v Hv c Hc. apply in_flat_map in Hc. destruct Hc as (e & He & Hc).
  destruct (mem e (i_proposed_links I) || mem e (i_existing_links I)) eqn:B; [|contradiction].
  assert (A : active_link_of t e). { apply (D_alinks _ _ _ _ _ D). apply in_app_iff. apply orb_true_iff in B. rewrite !mem_In in B. tauto. }
  rewrite !odd_get_iff in Hc. destruct (mem (fst e) ok) eqn:O1; [|contradiction]. destruct (mem (snd e) ok) eqn:O2; [|contradiction]. apply mem_In, odd_key in O1. apply mem_In, odd_key in O2.
  destruct Hc as [<-|[]]. cbn [sat eval]. destruct A as (k & l & El & -> & Hs). apply (id_pol v Hv Ig k l El Hs); [apply O1|apply O2].
Qed.
Lemma pose_no_flow es : posed (no_flow_on I V es).
Proof using VF. apply posed_concat. intros e He. destruct (mem e es); [|apply posed_nil]. rewrite (flow_var_get e He). cbn [rbind]. apply posed_ok. intros v Hv c [<-|[]]. cbn [sat eval]. apply (id_flow v Hv). Qed.

(** ** the sites *)
Lemma unselected v i : picks v -> site_stored t i -> ~ selected v i -> v (VSite i) == 0.
Proof using. intros Hv Hs H. destruct (pk_site v Hv i Hs) as [Z|Z]; [exact Z|contradiction]. Qed.
Lemma pick_decided : holds picks (create_decided_site_constraints I V).
Proof using VS Hw Hn HI.
  apply holds_concat. intros i Hi. unfold decided_site. rewrite (proj1 (proj2 (proj2 PV))).
  assert (One : forall s, dget (t_sites t) i = Some s -> (s_status s = PROPOSED \/ s_status s = EXISTING \/ (p_always_active_pops ps = true /\ s_type s = POP /\ s_status s <> UNAVAILABLE /\ s_status s <> UNREACHABLE)) ->
    holds picks (do b <- alone I i ; if b then do x <- get (v_site V) i ; Ok [Eq x (Cst 1)] else Ok [])).
  { intros s Es U. unfold alone, get at 1. rewrite (D_geo _ _ _ _ _ D _ _ Es). cbn [rbind]. destruct (D_col_dom _ _ _ _ _ D i s Es) as (locs & El). rewrite El. assert (L := D_col _ _ _ _ _ D _ _ El).
    destruct locs as [|a [|b r]]; [exfalso; apply (proj2 L i); eauto| |apply holds_nil]. rewrite site_var by (now exists s). cbn [rbind]. apply holds_ok. intros v Hv c [<-|[]]. cbn [sat eval].
    destruct (pk_choice v Hv) as (_ & _ & C). assert (U' : in_use ps t i s) by (unfold in_use; tauto). destruct (C i s Es U') as (j & sj & Ej & Lj & Sj & _).
    assert (J : forall k sk0, dget (t_sites t) k = Some sk0 -> s_loc sk0 = s_loc s -> k = a). { intros k sk0 Ek Lk. assert (X : In k [a]) by (apply (proj2 L); eauto). destruct X as [X|[]]. auto. }
    rewrite (J i s Es eq_refl). rewrite <- (J j sj Ej Lj). exact Sj. }
  destruct (p_always_active_pops ps && mem i (i_set I (Real POP))) eqn:B.
  - apply andb_true_iff in B. destruct B as (B1 & B2). apply mem_In, (D_rset _ _ _ _ _ D) in B2. destruct B2 as (s & Es & Ty). destruct (mem i (i_inactive_sites I)) eqn:N; [apply holds_nil|]. apply (One s Es). right; right. apply mem_not_In in N.
    split; [exact B1|]. split; [exact Ty|]. split; intros X; apply N, (D_is _ _ _ _ _ D); exists s; auto.
  - destruct (mem i (i_proposed_sites I) || mem i (i_existing_sites I)) eqn:B2.
    + apply orb_true_iff in B2. rewrite !mem_In, (D_ps _ _ _ _ _ D), (D_es _ _ _ _ _ D) in B2. destruct B2 as [(s & Es & H)|(s & Es & H)]; apply (One s Es); auto.
    + destruct (mem i (i_inactive_sites I)) eqn:N; [|apply holds_nil]. apply mem_In, (D_is _ _ _ _ _ D) in N. destruct N as (s & Es & H). rewrite site_var by (now exists s). cbn [rbind]. apply holds_ok. intros v Hv c [<-|[]]. cbn [sat eval].
      apply unselected; [exact Hv|now exists s|]. intros Sel. destruct (pk_choice v Hv) as (C & _). apply (C i s Sel Es). split; [exact H|]. intros (X & Y). rewrite X in B. cbn in B. apply mem_not_In in B. apply B, (D_rset _ _ _ _ _ D). eauto.
Qed.
Lemma pick_colocated : holds picks (create_colocated_site_relationship I V).
Proof using VS Hw Hn HI.
  apply holds_concat. intros locs Hin. apply In_dvals in Hin; [|apply (D_col_wf _ _ _ _ _ D)]. destruct Hin as (c0 & El). assert (L := D_col _ _ _ _ _ D _ _ El). destruct L as (Lnd & L).
  assert (St : forall i, In i locs -> site_stored t i) by (intros i Hi; apply L in Hi; destruct Hi as (s & Es & _); now exists s).
  unfold colocated_group. destruct locs as [|a [|b r]]; [apply holds_nil|apply holds_nil|]. remember (a :: b :: r)%list as ls eqn:Els. clear Els a b r. rewrite (site_vars ls St). cbn [rbind].
  assert (Le1 : forall v, picks v -> total (fun i => v (VSite i)) ls <= 1).
  { intros v Hv. apply RedunSolveProofs.at_most_one; [exact Lnd| |]. { intros i Hi. apply (pk_site v Hv), St, Hi. } intros i j Hi Hj Si Sj. apply L in Hi. apply L in Hj. destruct Hi as (si & Ei & Li), Hj as (sj & Ej & Lj). apply (proj1 (proj2 (pk_choice v Hv)) i j si sj Si Sj Ei Ej). congruence. }
  assert (Here : forall i, In i (filter (fun l => mem l ls) (input_active_sites I)) <-> In i ls /\ In i (input_active_sites I)) by (intros i; rewrite filter_In, mem_In; tauto).
  destruct (filter (fun l => mem l ls) (input_active_sites I)) as [|h here] eqn:F. { apply holds_ok. intros v Hv c [<-|[]]. cbn [sat]. rewrite sum_sites. apply (Le1 v Hv). }
  assert (Hh : In h (h :: here)) by (now left). remember (h :: here)%list as hs eqn:Ehs. clear Ehs F here.
  destruct (mapM_total (get (i_type I)) hs) as (tys & Et). { intros i Hi. apply Here in Hi. destruct Hi as (Hi & _). destruct (St i Hi) as (s & Es). rewrite (stored_typed i s Es). eauto. }
  rewrite Et. cbn [rbind]. set (m := max_site_type tys).
  assert (Inv : forall i s, dget (t_sites t) i = Some s -> invalid_site I (input_active_sites I) m i = Ok (negb (mem (Real (s_type s)) (map Real (valid_site_types m))) || (beq (Real (s_type s)) (Real m) && negb (mem i (input_active_sites I))))).
  { intros i s Es. unfold invalid_site. rewrite (stored_typed i s Es). reflexivity. }
  destruct (RedunReadProofs.filterM_total' (invalid_site I (input_active_sites I) m) ls) as (bad & Eb). { intros i Hi. destruct (St i Hi) as (s & Es). rewrite (Inv i s Es). eauto. }
  rewrite Eb. cbn [rbind]. destruct (filterM_ok _ _ _ Eb) as (_ & Hb & _). rewrite (site_vars bad) by (intros i Hi; apply Hb in Hi; apply St, Hi). cbn [rbind].
  apply holds_ok. intros v Hv.
  assert (Top : exists i s, In i ls /\ dget (t_sites t) i = Some s /\ s_type s = m /\ in_use ps t i s).
  { assert (Ty : forall i, In i hs -> exists s, In i ls /\ dget (t_sites t) i = Some s /\ in_use ps t i s /\ In (Real (s_type s)) tys).
    { intros i Hi. assert (Hi' := Hi). apply Here in Hi'. destruct Hi' as (Hl & Ha). destruct (St i Hl) as (s & Es). exists s. split; [exact Hl|]. split; [exact Es|]. split; [now apply (in_use_iff ps at_ t I0 Hw Hn HI i s Es)|].
      destruct (mapM_In _ _ _ _ Et Hi) as (y & Ey & Hy). rewrite (stored_typed i s Es) in Ey. injection Ey as <-. exact Hy. }
    destruct (max_site_type_in tys) as [E|E]; fold m in E.
    - destruct (Ty h Hh) as (s & Hl & Es & U & Ht). exists h, s. split; [exact Hl|]. split; [exact Es|]. split; [|exact U]. apply max_site_type_ge in Ht. fold m in Ht. rewrite E in *. destruct (s_type s); cbn in Ht; [reflexivity|lia|lia].
    - destruct (mapM_inv _ _ _ _ Et E) as (i & Hi & Ei). destruct (Ty i Hi) as (s & Hl & Es & U & _). exists i, s. rewrite (stored_typed i s Es) in Ei. injection Ei as Ei. auto. }
  destruct Top as (i & s & Hi & Es & Ty & U). destruct (pk_choice v Hv) as (_ & Un & Ch). destruct (Ch i s Es U) as (j & sj & Ej & Lj & Sj & Rk & U1 & U2). rewrite Ty in *.
  assert (Li := proj1 (L i) Hi). destruct Li as (s' & Es' & Lc). rewrite Es in Es'. injection Es' as <-. assert (Hj : In j ls) by (apply L; exists sj; split; [exact Ej|congruence]).
  intros c Hc. destruct Hc as [<-|Hc].
  - cbn [sat]. rewrite sum_sites. cbn [eval]. assert (A := Le1 v Hv). assert (B : v (VSite j) <= total (fun i => v (VSite i)) ls). { apply (total_member (fun i => v (VSite i))); [|exact Hj]. intros y Hy. destruct (pk_site v Hv y (St y Hy)) as [Z|Z]; rewrite Z; lra. } unfold selected in Sj. lra.
  - assert (Z : total (fun i => v (VSite i)) bad == 0).
    { rewrite (total_ext _ (fun _ => 0)), total_const0; [reflexivity|]. intros b Hbad. apply Hb in Hbad. destruct Hbad as (Hbl & Eb'). apply unselected; [exact Hv|exact (St b Hbl)|]. intros Sb. assert (Lb := proj1 (L b) Hbl). destruct Lb as (sb & Esb & Lb).
      assert (b = j) by (apply (Un b j sb sj Sb Sj Esb Ej); congruence). subst b. rewrite (Inv j sj Ej) in Eb'. injection Eb' as Eb'.
      assert (Act : forall X : in_use ps t j sj, mem j (input_active_sites I) = true) by (intros X; apply mem_In; now apply (in_use_iff ps at_ t I0 Hw Hn HI j sj Ej)).
      assert (Same : m <> CN -> s_type sj = m). { intros Hm. specialize (U2 Hm). assert (Q : In j hs) by (apply Here; split; [exact Hj|now apply (in_use_iff ps at_ t I0 Hw Hn HI j sj Ej)]). destruct (mapM_In _ _ _ _ Et Q) as (y & Ey & Hy). rewrite (stored_typed j sj Ej) in Ey. injection Ey as <-. apply max_site_type_ge in Hy. fold m in Hy. destruct (s_type sj), m; cbn in Hy, Rk; try reflexivity; lia. }
      destruct m eqn:Em; cbn [valid_site_types map] in Eb'.
      - assert (M : mem (Real (s_type sj)) [Real CN; Real DN; Real POP] = true) by (destruct (s_type sj); reflexivity). rewrite M in Eb'. cbn [negb orb] in Eb'. apply andb_true_iff in Eb'. destruct Eb' as (X & Y). apply beq_true in X. injection X as X. rewrite (Act (U1 X)) in Y. discriminate.
      - rewrite (Act (U1 (Same ltac:(discriminate)))), (Same ltac:(discriminate)), beq_refl in Eb'. assert (M : mem (Real DN) [Real DN] = true) by reflexivity. rewrite M in Eb'. discriminate.
      - rewrite (Act (U1 (Same ltac:(discriminate)))), (Same ltac:(discriminate)), beq_refl in Eb'. assert (M : mem (Real POP) [Real POP] = true) by reflexivity. rewrite M in Eb'. discriminate. }
    destruct (map (fun i0 => Var (VSite i0)) bad) as [|y l] eqn:Y; [contradiction|]. destruct Hc as [<-|[]]. cbn [sat]. rewrite <- Y, sum_sites, Z. reflexivity.
Qed.
Lemma pick_pose r : holds picks r -> posed r.
Proof using. intros (cs & E & H). exists cs. split; [exact E|]. intros v Hv. apply H, idle_picks, Hv. Qed.
Lemma pose_constraints adv : posed (site_constraints I V adv).
Proof using VS VF VT VO VSh VSec Etk Eok Hw Hn HI.
  unfold site_constraints. destruct (pick_pose _ pick_colocated) as (c1 & E1 & S1). destruct pose_tdm_flow as (c2 & E2 & S2). destruct pose_sector as (c3 & E3 & S3). destruct pose_pop_load as (c4 & E4 & S4). destruct pose_balance as (c5 & E5 & S5). destruct pose_flow_site as (c6 & E6 & S6).
  destruct (pose_no_flow adv) as (c7 & E7 & S7). destruct pose_polarity as (c8 & E8 & S8). destruct (pick_pose _ pick_decided) as (c9 & E9 & S9). destruct pose_active_polarity as (c10 & E10 & S10). destruct (pose_no_flow (i_inactive_links I)) as (c11 & E11 & S11).
  rewrite E1, E2, E3, E4, E5, E6, E7, E8, E9, E10. unfold create_inactive_link_flow_constraints. rewrite E11. cbn [rbind]. apply posed_ok. intros v Hv c Hc. rewrite !in_app_iff in Hc.
  decompose [or] Hc; eauto.
Qed.
Lemma goal_ok g : exists cs, goal_constraint g I V = Ok cs.
Proof using VS VSh VSec' Hw Hn HI.
  assert (SG : forall n, In n (shortage_keys I) -> get (v_short V) n = Ok (Var (VShort n))) by (intros n Hc; unfold get; rewrite VSh, fresh_get; apply mem_In in Hc; now rewrite Hc).
  destruct g as [| |number]; cbn [goal_constraint].
  - unfold create_coverage_constraint. destruct (i_set I Demand); [eauto|]. destruct (mapM_total (get (i_demand I)) (shortage_keys I)) as (qs & ->). { intros n H. apply short_keys in H. destruct (demand_get n H) as (q & E). unfold get. rewrite E. eauto. }
    cbn [rbind]. rewrite (mapM_pure _ (fun n => Var (VShort n)) _ SG). cbn. eauto.
  - unfold create_cost_constraint, extract_cost. destruct (mapM_total (site_cost I V) (i_locations I)) as (l & ->); [|cbn; eauto]. intros i Hi. unfold site_cost. destruct (loc_typed i Hi) as (ty & E). rewrite E. cbn [rbind]. destruct ty as [k| |]; [|eauto|eauto].
    destruct (mem i (i_existing_sites I)); [eauto|]. apply get_ok, (D_type _ _ _ _ _ D) in E. destruct E as [(_ & E)|[(s & Es & _)|(_ & E)]]; [discriminate| |discriminate]. rewrite site_var by (now exists s). cbn [rbind]. destruct (D_secs_tot _ _ _ _ _ D i Hi) as (secs & Esecs). unfold get at 1. rewrite Esecs. cbn [rbind].
    destruct (concatM_total (fun a => do st <- get (i_sectype I) a ; if imaginary_sec st then Ok [] else do q <- get (i_seccost I) (i, a) ; Ok [Scale q (sector_sum I V i a)]) secs) as (l & ->); [|cbn; eauto].
    intros a Ha. destruct (D_sectype_tot _ _ _ _ _ D i secs a Esecs Ha) as (st & Est). unfold get at 1. rewrite Est. cbn [rbind]. destruct (imaginary_sec st) eqn:B; [eauto|]. destruct (D_sec_inv _ _ _ _ _ D i secs a st Esecs Ha Est B) as (x & Hx & <-).
    assert (C := seccost_get ps at_ t I0 HI a x Hx). unfold get. fold I in C. rewrite C. cbn. eauto.
  - destruct number as [|n]; [cbn; eauto|]. unfold create_pop_constraint. rewrite site_vars; [cbn; eauto|]. intros i Hi. apply filter_In in Hi. destruct Hi as (_ & Hi). apply mem_In, (D_rset _ _ _ _ _ D) in Hi. destruct Hi as (s & Es & _). now exists s.
Qed.
End Pose.
