(** The site-selection problem admits exactly the good plans. *)
From Coq Require Import QArith Lqa Lia.
From Verif Require Import Base Dict TopologyModel TopologySpec TopologyLemmas GraphSpec GraphProofs RfModel RfProofs SetupModel
  IlpModel IlpSpec QLib MonadLib SetupProofs IlpLemmas IlpProofs ExtractModel ExtractSpec ExtractProofs SolveSpec SolveProofs SolveMainProofs FitSpec FitProofs.
Local Open Scope Q_scope.

Section Fit.
Variables (ps : params) (at_ : attrs) (t : topo) (I0 : inst).
Hypothesis Hw : well_formed t.
Hypothesis Hn : names_ok at_ t.
Hypothesis HI : network ps at_ t = Ok I0.
Let I := with_channels 1 I0.
Variables (adv : list edge) (dem : string -> Q) (all : Q).
Hypothesis Hd : demands ps at_ t dem all.
Lemma D' : describes ps at_ t (a_cap at_) I.
Proof using Hw Hn HI. exact (D ps at_ t I0 Hw Hn HI). Qed.

(** ** good plans are admitted *)
Section Admit.
Variable v : var -> Q.
Hypothesis Hg : good_plan ps at_ t adv dem all v.
Variables (V : tables) (tk : list key3) (ok : list string).
Hypothesis EV : site_tables I = Ok V.
Hypothesis Etk : tdm_keys I = Ok tk.
Hypothesis Eok : odd_keys I = Ok ok.
Hypothesis VS : forall i, dget (v_site V) i = if dmem (t_sites t) i then Some (Var (VSite i)) else None.
Hypothesis VF : v_flow V = dict_of (fresh flow_var (flow_keys I)).
Hypothesis VT : v_tdm V = dict_of (fresh tdm_var tk).
Hypothesis VO : v_odd V = dict_of (fresh VOdd ok).
Hypothesis VSh : v_short V = dict_of (fresh VShort (shortage_keys I)).
Definition ok_ (cs : list constr) : Prop := forall c, In c cs -> sat v c.
Lemma ok_concat {A} (f : A -> result (list constr)) l cs : concatM f l = Ok cs -> (forall x r, In x l -> f x = Ok r -> ok_ r) -> ok_ cs.
Proof using. intros E H c Hc. destruct (concatM_inv _ _ _ _ E Hc) as (x & r & Hx & Er & Hin). exact (H x r Hx Er c Hin). Qed.
Lemma ok_nil : ok_ []. Proof using. intros c []. Qed.
Lemma ok_one c : sat v c -> ok_ [c]. Proof using. intros H c' [<-|[]]. exact H. Qed.
Lemma ok_app l r : ok_ l -> ok_ r -> ok_ (l ++ r)%list. Proof using. intros H1 H2 c Hc. apply in_app_iff in Hc. destruct Hc; auto. Qed.
Lemma VT' : exists tk, tdm_keys I = Ok tk /\ v_tdm V = dict_of (fresh tdm_var tk).
Proof using Etk VT. eauto. Qed.
Lemma sector_key i a c x : dget (v_sector V) (i, a, c) = Some x -> x = Var (VSite i) /\ exists w, sector_stored t a w /\ x_site w = i.
Proof using EV VS Hw Hn HI.
  clear Etk Eok. unfold site_tables in EV. apply rbind_ok in EV. destruct EV as (sk & _ & E1). apply rbind_ok in E1. destruct E1 as (sec & Es & E1). apply rbind_ok in E1. destruct E1 as (tk' & _ & E1). apply rbind_ok in E1. destruct E1 as (ok' & _ & E1). injection E1 as E1.
  assert (Gs : v_sector V = dict_of sec) by (rewrite <- E1; reflexivity). assert (Gv : v_site V = dict_of (fresh VSite sk)) by (rewrite <- E1; reflexivity). rewrite Gs. intros Ex. apply dict_of_In in Ex.
  destruct (concatM_inv _ _ _ _ Es Ex) as ((loc & l) & r & Hp & Er & Hr). cbn [fst snd] in Er. destruct (concatM_inv _ _ _ _ Er Hr) as (b & r1 & Hb & Er1 & Hr1). apply rbind_ok in Er1. destruct Er1 as (ty & Ety & Er1). apply get_ok in Ety. destruct (imaginary_sec ty) eqn:B; [injection Er1 as <-; contradiction|].
  apply rbind_ok in Er1. destruct Er1 as (y & Ey & Er1). apply get_ok in Ey. injection Er1 as <-. destruct Hr1 as [X|[]]. injection X as -> -> <- <-. rewrite <- Gv, VS in Ey. split.
  - destruct (dmem _ _); congruence.
  - assert (Ws : dget (i_secs I) i = Some l).
    { apply In_dget; [|exact Hp]. change (i_secs I) with (i_secs I0). destruct (setup_fields ps at_ t I0 (proj1 (network_setup ps at_ t I0 HI))) as (thr & _ & _ & _ & _ & _ & _ & _ & _ & -> & _). apply setup_secs_wf. }
    destruct (D_sec_inv _ _ _ _ _ D' i l a ty Ws Hb Ety B) as (w & Hx & Hs); eauto.
Qed.
Lemma site_value loc x : dget (v_site V) loc = Some x -> x = Var (VSite loc) /\ site_stored t loc.
Proof using VS. rewrite VS. destruct (dmem (t_sites t) loc) eqn:M; [|discriminate]. intros E. injection E as <-. split; [reflexivity|now apply stored_dmem]. Qed.
Lemma fit_balance cs : create_flow_balance_with_shortage I V = Ok cs -> ok_ cs.
Proof using Hw Hn HI Hd Hg VF VSh.
  intros E. apply (ok_concat _ _ _ E). clear cs E. intros loc r Hl Er. inv_do. subst r. destruct x as [x|]; [|apply ok_nil]. apply ok_one. cbn [sat].
  destruct (lists_in _ _ _ _ _ D' loc Hl) as (ei & _ & Hi). destruct (lists_out _ _ _ _ _ D' loc Hl) as (eo & _ & Ho).
  destruct (net_flow_val _ _ _ _ _ D' V VF v loc (Some x) ei eo E Hi Ho) as (Nv & _). cbn [or_zero] in Nv. rewrite Nv. clear Nv E.
  assert (SG : forall n y, dget (v_short V) n = Some y -> y = Var (VShort n)) by (intros n y; rewrite VSh, fresh_get; destruct (mem _ _); congruence).
  unfold balance_rhs in E0. apply rbind_ok in E0. destruct E0 as (ty & Et & E0). apply get_ok, (D_type _ _ _ _ _ D') in Et. destruct Et as [(-> & ->)|[(s & Es & ->)|(Hc & ->)]].
  - inv_do. subst x0. cbn [eval]. rewrite (into_super at_ t Hw Hn _ Hi). cbn [total]. rewrite (supply ps at_ t I0 Hw Hn HI adv dem all v Hg eo Ho). rewrite eval_xsum.
    assert (X : total (eval v) x1 == total (fun n => v (VShort n)) (shortage_keys I)).
    { rewrite (mapM_eq _ (fun n => Var (VShort n)) _ _ E). - rewrite total_map. reflexivity. - intros n y _ Hy. apply get_ok in Hy. now apply SG. }
    rewrite X. unfold I. rewrite (total_demand ps at_ t I0 Hw Hn HI dem (proj1 Hd)). fold I. rewrite total_sub. change (fun x => dem x) with dem. lra.
  - injection E0 as <-. cbn [eval]. destruct (gp_through _ _ _ _ _ _ _ Hg loc ei eo (ex_intro _ s Es) Hi Ho) as (T & _). rewrite T. lra.
  - apply rbind_ok in E0. destruct E0 as (q & Eq & E0). apply get_ok in Eq. apply rbind_ok in E0. destruct E0 as (y & Ey & E0). apply get_ok, SG in Ey. subst y. injection E0 as <-. cbn [eval]. rewrite (gp_consumer _ _ _ _ _ _ _ Hg loc ei Hc Hi), (out_consumer at_ t Hw Hn _ _ Hc Ho). cbn [total].
    rewrite (dem_value ps at_ t I0 Hw Hn HI dem all Hd loc q Hc Eq). lra.
Qed.
Lemma fit_flow_site cs : create_flow_site_relationship I V = Ok cs -> ok_ cs.
Proof using Hw Hn HI Hd Hg VF VS.
  intros E. apply (ok_concat _ _ _ E). clear cs E. intros loc r Hl Er. inv_do.
  cbv zeta in Er. injection Er as <-.
  destruct (lists_in _ _ _ _ _ D' loc Hl) as (ei & _ & Hi). destruct (lists_out _ _ _ _ _ D' loc Hl) as (eo & _ & Ho).
  destruct (incoming_flow_val _ _ _ _ _ D' V VF v loc x ei E Hi) as (Ai & _). destruct (outgoing_flow_val _ _ _ _ _ D' V VF v loc x0 eo E0 Ho) as (Ao & _).
  destruct (through ps at_ t I0 Hw Hn HI adv dem all Hd v Hg loc ei eo Hl Hi Ho) as (Li & Lo).
  assert (X : eval v x2 == if dmem (t_sites t) loc then v (VSite loc) else 1).
  { apply (D_type _ _ _ _ _ D') in E1. destruct E1 as [(-> & ->)|[(s & Es & ->)|(Hc & ->)]]; cbn [imaginary] in E2.
    - injection E2 as <-. destruct (dmem (t_sites t) SUPERSOURCE) eqn:M; [|reflexivity]. exfalso. apply (proj1 Hn). now apply stored_dmem.
    - apply get_ok, site_value in E2. destruct E2 as (-> & Hs). apply stored_dmem in Hs. rewrite Hs. reflexivity.
    - injection E2 as <-. destruct (dmem (t_sites t) loc) eqn:M; [|reflexivity]. exfalso. apply (proj1 (proj2 (proj2 Hn)) loc Hc). now apply stored_dmem. }
  assert (Mx := all_max ps at_ t I0 Hw Hn HI dem all Hd). change (i_max_throughput I0 == all) in Mx.
  apply ok_app.
  - destruct x as [x|]; [|apply ok_nil]. apply ok_one. cbn [sat eval or_zero] in Ai |- *. rewrite Ai, X, Mx. exact Li.
  - destruct x0 as [x0|]; [|apply ok_nil]. apply ok_one. cbn [sat eval or_zero] in Ao |- *. rewrite Ao, X, Mx. exact Lo.
Qed.
Lemma fit_sector cs : create_tdm_sector_relationship I V = Ok cs -> ok_ cs.
Proof using Hw Hn HI Hd Hg VT VS EV Etk.
  intros E. apply (ok_concat _ _ _ E). clear cs E. intros i r Hi Er. apply rbind_ok in Er. destruct Er as (ty & Et & Er). destruct (imaginary ty); [injection Er as <-; apply ok_nil|]. apply rbind_ok in Er. destruct Er as (secs & Es & Er).
  apply (ok_concat _ _ _ Er). clear r Er. intros a r _ Er. apply (ok_concat _ _ _ Er). clear r Er. intros c r Hc Er. destruct (dget (v_sector V) (i, a, c)) as [x|] eqn:Ex; [|injection Er as <-; apply ok_nil].
  assert (c = 0%nat) by (change (channels I) with [0%nat] in Hc; destruct Hc as [<-|[]]; reflexivity). subst c. destruct (sector_key _ _ _ _ Ex) as (-> & w & Hx & <-). inv_do. subst r.
  assert (Z : In 0%nat (channels I)) by (left; reflexivity).
  assert (Xid : x_id w = a). { assert (W_ := Hw). destruct W_ as (_ & _ & _ & _ & _ & T). now destruct (proj2 (proj2 T) _ _ Hx). }
  match goal with A : outgoing I _ = Ok _ |- _ => apply (outgoing_ok _ _ _ _ _ D') in A; assert (L1 := sec_edges_send _ _ _ _ _ D' Hw Hn V VT' w _ Z eq_refl A) end.
  match goal with A : incoming I _ = Ok _ |- _ => apply (incoming_ok _ _ _ _ _ D') in A; assert (L2 := sec_edges_receive _ _ _ _ _ D' Hw Hn V VT' w _ Z eq_refl A) end.
  rewrite Xid in L1, L2.
  assert (G : forall l es, total (eval v) l == total (share v 0) es -> lists es (sends t w) \/ lists es (receives t w) -> ok_ (at_most l (Var (VSite (x_site w))))).
  { intros l es El Hl. assert (S0 := gp_sector _ _ _ _ _ _ _ Hg a w es Hx Hl). rewrite <- El in S0. destruct l as [|b l]; [apply ok_nil|]. apply ok_one. cbn [sat]. rewrite eval_xsum. exact S0. }
  apply ok_app.
  - eapply G; [|left; exact L1]. eapply (sector_tdm_val _ _ _ _ _ D' Hw Hn V VT' v a 0%nat fst); [exact Z|exact Z|assumption].
  - eapply G; [|right; exact L2]. eapply (sector_tdm_val _ _ _ _ _ D' Hw Hn V VT' v a 0%nat snd); [exact Z|exact Z|assumption].
Qed.
Lemma fit_pop_load cs : create_pop_load_constraints I V = Ok cs -> ok_ cs.
Proof using Hw Hn HI Hg VF.
  intros E. apply (ok_concat _ _ _ E). clear cs E. intros loc r Hl Er. apply filter_In in Hl. destruct Hl as (Hl & M). apply mem_In, (D_rset _ _ _ _ _ D') in M. inv_do. subst r. destruct x as [x|]; [|apply ok_nil]. apply ok_one.
  destruct (lists_out _ _ _ _ _ D' loc Hl) as (eo & _ & Ho). destruct (outgoing_flow_val _ _ _ _ _ D' V VF v loc (Some x) eo E Ho) as (Ao & _). cbn [or_zero] in Ao. change (eval v x <= p_pop_capacity (i_params (with_channels 1 I0))). rewrite Ao, (proj1 (PV ps at_ t I0 HI)).
  exact (gp_pop _ _ _ _ _ _ _ Hg loc eo M Ho).
Qed.
Lemma fit_tdm_flow cs : create_tdm_flow_relationship I V = Ok cs -> ok_ cs.
Proof using Hw Hn HI Hd Hg VF VT Etk.
  intros E. apply (ok_concat _ _ _ E). clear cs E. intros e r He Er. apply rbind_ok in Er. destruct Er as (q & Eq & Er). apply get_ok in Eq. apply rbind_ok in Er. destruct Er as (f & Ef & Er). apply get_ok, (flow_get_inv _ _ VF) in Ef. subst f.
  destruct (dmem (v_tdm V) (e, 0%nat)) eqn:M.
  - apply dmem_Some in M. destruct M as (y & My). destruct (tdm_get_inv _ _ _ _ _ D' Hn V VT' _ _ _ My) as (_ & (k & l & El & -> & W) & _). inv_do. subst r. apply ok_one. cbn [sat eval].
    assert (Ts := tdm_sum_val _ _ _ _ _ D' Hn V VT' v k l x El E). change (channels I) with [0%nat] in Ts. cbn [total] in Ts. rewrite (D_cap _ _ _ _ _ D' _ _ El) in Eq. injection Eq as <-.
    assert (G := gp_wireless _ _ _ _ _ _ _ Hg k l El W). rewrite Ts. unfold flow, share in G. cbn [fst snd] in G. unfold flow_var. cbn [fst snd]. lra.
  - injection Er as <-. apply ok_one. cbn [sat eval]. change (v (flow_var e)) with (flow v e).
    assert (A := edge_le_all ps at_ t I0 Hw Hn HI adv dem all Hd v Hg e He). rewrite <- (all_max ps at_ t I0 Hw Hn HI dem all Hd) in A. fold I in A.
    assert (B : flow v e <= q).
    { destruct (cap_kinds ps at_ t I0 Hw Hn HI e q Eq) as [(i & -> & Hp & ->)|[(H1 & H2 & Fe & ->)|(k & l & El & -> & ->)]].
      - exact (gp_source _ _ _ _ _ _ _ Hg i Hp).
      - destruct e as (i, n). exact (gp_last _ _ _ _ _ _ _ Hg i n _ H1 H2 Fe (best_is ps at_ t Hw)).
      - apply (gp_wired _ _ _ _ _ _ _ Hg k l El). destruct (l_wireless l) eqn:W; [|reflexivity]. exfalso. assert (T := tdm_get _ _ _ _ _ D' Hw V VT' k l 0%nat El W (or_introl eq_refl)). apply dmem_None in M. congruence. }
    destruct (qmin2_spec q (i_max_throughput I0)) as ([-> | ->] & _);
      [exact B|exact A].
Qed.
Lemma odd_value i : p_ignore_polarities ps = false -> backhaul_site t i -> dget (v_odd V) i = Some (Var (VOdd i)).
Proof using Hw Hn HI Eok VO.
  intros Ig Hb. rewrite VO, fresh_get. destruct (odd_keys_ok ps at_ t I0 Hw Hn HI) as (ok' & E' & Hok). fold I in E'. rewrite Eok in E'. injection E' as <-. assert (M : mem i ok = true) by (apply mem_In, Hok; auto). now rewrite M.
Qed.
Lemma odd_value_inv i x : dget (v_odd V) i = Some x -> x = Var (VOdd i) /\ p_ignore_polarities ps = false /\ backhaul_site t i.
Proof using Hw Hn HI Eok VO.
  rewrite VO, fresh_get. destruct (odd_keys_ok ps at_ t I0 Hw Hn HI) as (ok' & E' & Hok). fold I in E'. rewrite Eok in E'. injection E' as <-. destruct (mem i ok) eqn:M; [|discriminate]. intros E. injection E as <-. split; [reflexivity|]. apply Hok. now apply mem_In.
Qed.
Lemma fit_polarity cs : create_tdm_polarity_relationship I V = Ok cs -> ok_ cs.
Proof using Hw Hn HI Hg VT VO Etk Eok.
  unfold create_tdm_polarity_relationship. unfold I at 1. rewrite (proj1 (proj2 (PV ps at_ t I0 HI))). destruct (p_ignore_polarities ps) eqn:Ig; [intros E; injection E as <-; apply ok_nil|].
  intros E. apply (ok_concat _ _ _ E). clear cs E. intros e r He Er. match type of Er with (if ?b then _ else _) = _ => destruct b; [injection Er as <-; apply ok_nil|] end. match type of Er with (if ?b then _ else _) = _ => destruct b eqn:Wd; [injection Er as <-; apply ok_nil|] end.
  apply rbind_ok in Er. destruct Er as (t1 & E1 & Er). apply rbind_ok in Er. destruct Er as (t2 & E2 & Er). destruct (dist t1 && dist t2) eqn:B; [|injection Er as <-; apply ok_nil]. inv_do. subst r.
  match goal with A : dget (v_odd V) (fst e) = Some _ |- _ => destruct (odd_value_inv _ _ A) as (-> & _ & B1) end. match goal with A : dget (v_odd V) (snd e) = Some _ |- _ => destruct (odd_value_inv _ _ A) as (-> & _ & B2) end.
  assert (K : exists k l, link_stored t k l /\ e = (l_tx l, l_rx l)) by (apply (real_edge _ _ _ _ _ D' Hn e He); [destruct B1 as (s & Es & _)|destruct B2 as (s & Es & _)]; now exists s).
  destruct K as (k & l & El & ->). rewrite (D_wired _ _ _ _ _ D' k l El) in Wd. apply negb_false_iff in Wd. cbn [fst snd] in *.
  match goal with A : tdm_sum I V _ = Ok _ |- _ => assert (Ts := tdm_sum_val _ _ _ _ _ D' Hn V VT' v k l _ El A) end. change (channels I) with [0%nat] in Ts. cbn [total] in Ts.
  assert (Sh := gp_share _ _ _ _ _ _ _ Hg k l El Wd). unfold share in Sh. cbn [fst snd] in Sh.
  assert (O1 := gp_odd _ _ _ _ _ _ _ Hg Ig _ B1). assert (O2 := gp_odd _ _ _ _ _ _ _ Hg Ig _ B2).
  assert (Pl := gp_polarity _ _ _ _ _ _ _ Hg Ig k l El Wd B1 B2). unfold share, opposite in Pl. cbn [fst snd] in Pl.
  assert (Cs : v (VTdm (l_tx l) (l_rx l) 0) == 0 \/ 0 < v (VTdm (l_tx l) (l_rx l) 0)) by (destruct (Qlt_le_dec 0 (v (VTdm (l_tx l) (l_rx l) 0))); [now right|left; lra]).
  destruct Cs as [Cs|Cs].
  - intros c [<-|[<-|[]]]; cbn [sat eval]; rewrite Ts, Cs; destruct O1 as [O1|O1], O2 as [O2|O2]; rewrite O1, O2; lra.
  - destruct (Pl Cs) as [(P1 & P2)|(P1 & P2)]; intros c [<-|[<-|[]]]; cbn [sat eval]; rewrite Ts, P1, P2; lra.
Qed.
Lemma fit_active cs : create_active_link_polarity_constraints I V = Ok cs -> ok_ cs.
Proof using Hw Hn HI Hg VO Eok.
  unfold create_active_link_polarity_constraints. unfold I at 1. rewrite (proj1 (proj2 (PV ps at_ t I0 HI))). destruct (p_ignore_polarities ps) eqn:Ig; [intros E; injection E as <-; apply ok_nil|].
  intros E. injection E as <-. intros c Hc. apply in_flat_map in Hc. destruct Hc as (e & He & Hc). match type of Hc with In _ (if ?b then _ else _) => destruct b eqn:B; [|contradiction] end.
  assert (A : active_link_of t e). { apply (D_alinks _ _ _ _ _ D'). apply in_app_iff. apply orb_true_iff in B. rewrite !mem_In in B. tauto. }
  destruct (dget (v_odd V) (fst e)) as [x|] eqn:X; [|contradiction]. destruct (dget (v_odd V) (snd e)) as [y|] eqn:Y; [|contradiction]. destruct (odd_value_inv _ _ X) as (-> & _ & B1), (odd_value_inv _ _ Y) as (-> & _ & B2).
  destruct Hc as [<-|[]]. destruct A as (k & l & El & -> & Hs). cbn [fst snd sat eval] in *. destruct (gp_active _ _ _ _ _ _ _ Hg Ig k l El Hs B1 B2) as [(P1 & P2)|(P1 & P2)]; rewrite P1, P2; lra.
Qed.
Lemma fit_no_flow es cs : (forall e, In e (i_links I) -> In e es -> flow v e == 0) -> no_flow_on I V es = Ok cs -> ok_ cs.
Proof using VF.
  intros H E. apply (ok_concat _ _ _ E). clear cs E. intros e r He Er. destruct (mem e es) eqn:M; [|injection Er as <-; apply ok_nil]. inv_do. subst r. apply (flow_get_inv _ _ VF) in E. subst x. apply ok_one. cbn [sat eval]. apply H; [exact He|now apply mem_In].
Qed.
Lemma good_picks : picks ps t v.
Proof using Hg.
  split; [exact (gp_site _ _ _ _ _ _ _ Hg)|]. destruct (gp_choice _ _ _ _ _ _ _ Hg) as (C1 & C2 & C3). split; [|split].
  - intros i s H Es. apply (C1 i s); [split; [now exists s|exact H]|exact Es].
  - intros i j si sj H1 H2 E1 E2. apply C2 with (si := si) (sj := sj); auto; (split; [eexists; eassumption|assumption]).
  - intros i s Es U. destruct (C3 i s Es U) as (j & sj & Ej & L & (_ & H) & R). exists j, sj. auto.
Qed.
Lemma fit_all cs : site_constraints I V adv = Ok cs -> ok_ cs.
Proof using Hw Hn HI Hd Hg EV Etk Eok VS VF VT VO VSh.
  unfold site_constraints. intros E. inv_do. subst cs.
  destruct (pick_colocated ps at_ t I0 Hw Hn HI V VS) as (c1 & F1 & S1). destruct (pick_decided ps at_ t I0 Hw Hn HI V VS) as (c9 & F9 & S9). fold I in F1, F9.
  repeat apply ok_app.
  - match goal with A : create_colocated_site_relationship I V = Ok _ |- _ => rewrite F1 in A; injection A as <- end. exact (S1 v good_picks).
  - now apply fit_tdm_flow.
  - now apply fit_sector.
  - now apply fit_pop_load.
  - now apply fit_balance.
  - now apply fit_flow_site.
  - apply (fit_no_flow adv); [|assumption]. intros e He. apply (gp_adversarial _ _ _ _ _ _ _ Hg). now apply (D_links _ _ _ _ _ D').
  - now apply fit_polarity.
  - match goal with A : create_decided_site_constraints I V = Ok _ |- _ => rewrite F9 in A; injection A as <- end. exact (S9 v good_picks).
  - now apply fit_active.
  - apply (fit_no_flow (i_inactive_links I)); [|assumption]. intros e He Hin. apply (inactive_iff ps at_ t I0 Hw Hn HI) in Hin. destruct Hin as (k & l & El & -> & Dl). exact (gp_dead _ _ _ _ _ _ _ Hg k l El Dl).
Qed.
Lemma fit_decls ds : site_decls I = Ok ds -> forall d, In d ds -> in_kind (v (fst d)) (snd d).
Proof using Hw Hn HI Hd Hg Etk Eok VT.
  unfold site_decls. intros E. inv_do. subst ds. intros d. rewrite !in_app_iff, !in_map_iff. destruct (site_keys_ok ps at_ t I0 Hw Hn HI) as (sk' & Ek & Hsk). fold I in Ek.
  match goal with A : site_decisions I = Ok _ |- _ => rewrite Ek in A; injection A as <- end. match goal with A : tdm_keys I = Ok ?y |- _ => match y with tk => fail 1 | _ => rewrite Etk in A; injection A as <- end end. match goal with A : odd_keys I = Ok ?y |- _ => match y with ok => fail 1 | _ => rewrite Eok in A; injection A as <- end end.
  intros [(i & <- & H)|[(e & <- & He)|[(k & <- & Hk)|[(i & <- & Hi)|H]]]]; cbn [fst snd in_kind].
  - apply (gp_site _ _ _ _ _ _ _ Hg). now apply Hsk.
  - split; [|exact Logic.I]. apply (gp_flow _ _ _ _ _ _ _ Hg). now apply (D_links _ _ _ _ _ D').
  - destruct k as (e & c). assert (G : dget (v_tdm V) (e, c) = Some (Var (tdm_var (e, c)))) by (rewrite VT, fresh_get; apply mem_In in Hk; now rewrite Hk).
    destruct (tdm_get_inv _ _ _ _ _ D' Hn V VT' _ _ _ G) as (_ & (k & l & El & -> & W) & Hc). change (channels I) with [0%nat] in Hc. destruct Hc as [<-|[]]. exact (gp_share _ _ _ _ _ _ _ Hg k l El W).
  - destruct (odd_keys_ok ps at_ t I0 Hw Hn HI) as (ok' & E' & Hok). fold I in E'. rewrite Eok in E'. injection E' as <-. apply Hok in Hi. apply (gp_odd _ _ _ _ _ _ _ Hg); apply Hi.
  - match goal with A : shortage_decls I = Ok _ |- _ => destruct (mapM_inv _ _ _ _ A H) as (n & Hin & En) end. inv_do. subst d. cbn [fst snd in_kind]. apply (proj2 (shortage_keys_lists ps at_ t I0 Hw Hn HI)) in Hin.
    match goal with A : dget (i_demand I) n = Some _ |- _ => rewrite (dem_value ps at_ t I0 Hw Hn HI dem all Hd n _ Hin A) end. exact (gp_short _ _ _ _ _ _ _ Hg n Hin).
Qed.
End Admit.
End Fit.
