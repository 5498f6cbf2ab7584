(** The site-selection problem admits only good plans that meet the goal. *)
From Coq Require Import QArith Lqa Lia.
From Verif Require Import Base Dict TopologyModel TopologySpec TopologyLemmas GraphSpec GraphProofs RfModel RfProofs SetupModel
  IlpModel IlpSpec QLib MonadLib SetupProofs IlpLemmas IlpProofs ExtractModel ExtractSpec ExtractProofs SolveSpec SolveProofs SolveMainProofs ValidModel ValidSpec ValidProofs FitSpec FitProofs FitMainProofs.
Local Open Scope Q_scope.

Section Answer.
Variables (ps : params) (at_ : attrs) (t : topo) (I0 : inst).
Hypothesis Hw : well_formed t.
Hypothesis Hn : names_ok at_ t.
Hypothesis HI : network ps at_ t = Ok I0.
Let I := with_channels 1 I0.
Variables (adv : list edge) (dem : string -> Q) (all : Q).
Hypothesis Hd : demands ps at_ t dem all.

(** ** the goal *)
Lemma goal_means g V cx v :
  (forall i, dget (v_site V) i = if dmem (t_sites t) i then Some (Var (VSite i)) else None) ->
  (forall k x, sector_stored t k x -> dget (v_sector V) (x_site x, k, 0%nat) = Some (Var (VSite (x_site x)))) ->
  v_short V = dict_of (fresh VShort (shortage_keys I)) ->
  (forall i, site_stored t i -> v (VSite i) == 0 \/ v (VSite i) == 1) ->
  goal_constraint g I V = Ok cx -> ((forall c, In c cx -> sat v c) <-> goal_met ps at_ t dem all g v).
Proof using Hw Hn HI Hd.
  intros VS VSec VSh Bin Ecx. assert (DD := D ps at_ t I0 Hw Hn HI). fold I in DD.
  assert (Hk := shortage_keys_lists ps at_ t I0 Hw Hn HI). fold I in Hk.
  assert (Val : forall i, site_stored t i -> v (VSite i) == on_ (choice_of t v) i).
  { intros i Hi. unfold on_. destruct (mem i (choice_of t v)) eqn:M.
    - apply mem_In, choice_In in M. apply M.
    - apply mem_not_In in M. destruct (Bin i Hi) as [B|B]; [exact B|]. exfalso. apply M, choice_In. split; [exact Hi|exact B]. }
  destruct g as [| |n]; cbn [goal_constraint goal_met] in *.
  - assert (Mx := all_max ps at_ t I0 Hw Hn HI dem all Hd). fold I in Mx.
    unfold create_coverage_constraint in Ecx. assert (Dset := D_dset _ _ _ _ _ DD). destruct (i_set I Demand) as [|n0 ns] eqn:Es.
    { injection Ecx as <-. split; [|intros _ c []]. intros _ cs Hcs. destruct cs as [|c cs]; [|exfalso; apply (Dset c); apply Hcs; now left].
      assert (Z : all == 0). { destruct Hd as (_ & cs & Hcs' & ->). rewrite (lists_total dem _ _ _ Hcs' Hcs). reflexivity. } cbn [total]. rewrite Z. lra. }
    rewrite <- Es in *. clear Es n0 ns. destruct (max_val ps at_ t I0 HI) as (thr & Ethr & Emax). fold I in Ethr, Emax. rewrite Ethr in Ecx. cbn [rbind] in Ecx. inv_do. subst cx.
    destruct (params_val ps at_ t I0 HI) as (_ & _ & _ & _ & Q & _). fold I in Q.
    assert (Ev : eval v (xsum x) == total (fun n => v (VShort n)) (shortage_keys I)).
    { rewrite eval_xsum. rewrite (mapM_eq _ (fun n => Var (VShort n)) _ _ E). - rewrite total_map. reflexivity. - intros n y _ Ey. apply get_ok in Ey. now apply (short_get I0 n y V VSh) in Ey. }
    assert (Tot : total dem (shortage_keys I) == all) by (rewrite <- Mx; symmetry; exact (total_demand ps at_ t I0 Hw Hn HI dem (proj1 Hd))).
    assert (Sm : (forall c, In c [Le (xsum x) (Cst ((1 - p_coverage (i_params I)) * fold_left Qplus thr 0))] -> sat v c) <-> total (fun n => v (VShort n)) (shortage_keys I) <= (1 - p_coverage ps) * all).
    { rewrite <- Emax, Q. split.
      - intros H. specialize (H _ (or_introl eq_refl)). cbn [sat eval] in H. rewrite Ev, Mx in H. exact H.
      - intros H c [<-|[]]. cbn [sat eval]. rewrite Ev, Mx. exact H. }
    apply (iff_trans Sm). clear Sm. split.
    + intros H cs Hcs. rewrite total_sub. rewrite (lists_total (fun n => v (VShort n)) _ _ _ Hcs Hk). change (fun x => dem x) with dem. rewrite (lists_total dem _ _ _ Hcs Hk), Tot. lra.
    + intros H. specialize (H _ Hk). rewrite total_sub in H. change (fun x => dem x) with dem in H. rewrite Tot in H. lra.
  - unfold create_cost_constraint in Ecx. inv_do. subst cx. destruct (params_val ps at_ t I0 HI) as (_ & _ & _ & Q & _). fold I in Q.
    assert (Same : forall chosen, lists chosen (fun i => site_stored t i /\ selected v i) -> forall i, site_stored t i -> v (VSite i) == on_ chosen i).
    { intros chosen Hc i Hi. rewrite (Val i Hi). unfold on_. destruct (mem i (choice_of t v)) eqn:M1, (mem i chosen) eqn:M2; try reflexivity; exfalso.
      - apply mem_In, choice_In, Hc in M1. apply mem_not_In in M2. contradiction.
      - apply mem_In, Hc, choice_In in M2. apply mem_not_In in M1. contradiction. }
    assert (Cv := cost_value ps at_ t I0 Hw Hn HI V v x VS VSec E). split.
    + intros H chosen q Hc Hq. specialize (H _ (or_introl eq_refl)). change (eval v x <= p_budget (i_params I)) in H. rewrite Cv, Q in H. rewrite (bill_of_choice ps at_ t I0 Hw Hn HI chosen _ q (Same chosen Hc) Hq) in H. exact H.
    + intros H c [<-|[]]. change (eval v x <= p_budget (i_params I)). rewrite Cv, Q. destruct (choice_costs ps at_ t I0 Hw Hn HI (choice_of t v)) as (q & Hq).
      assert (Lc : lists (choice_of t v) (fun i => site_stored t i /\ selected v i)) by (split; [apply NoDup_filter'; apply Hw|intros i; apply choice_In]).
      rewrite (bill_of_choice ps at_ t I0 Hw Hn HI _ _ q (Same _ Lc) Hq). exact (H _ _ Lc Hq).
  - set (pl := filter (fun loc => mem loc (i_set I (Real POP))) (i_locations I)).
    assert (Hpl : lists pl (is_pop t)).
    { split; [apply NoDup_filter', (D_locs_nd _ _ _ _ _ DD)|]. intros i. unfold pl. rewrite filter_In, mem_In, (D_rset _ _ _ _ _ DD). split; [tauto|]. intros (s & Es & Ty). split; [|exists s; auto]. apply (site_location ps at_ t I0 Hw Hn HI). now exists s. }
    assert (Lf : lists (filter (fun i => mem i (choice_of t v)) pl) (fun i => is_pop t i /\ selected v i)).
    { split; [apply NoDup_filter', Hpl|]. intros i. rewrite filter_In, mem_In, (proj2 Hpl), choice_In. split; [tauto|]. intros (A & B). split; [exact A|]. split; [|exact B]. destruct A as (s & Es & _). now exists s. }
    assert (Len : forall pops, lists pops (fun i => is_pop t i /\ selected v i) -> List.length pops = List.length (filter (fun i => mem i (choice_of t v)) pl)).
    { intros pops Lp. apply Nat.le_antisymm; (apply NoDup_incl_length; [first [apply Lp|apply Lf]|intros i Hi]); [apply Lf, Lp, Hi|apply Lp, Lf, Hi]. }
    unfold create_pop_constraint in Ecx. destruct n as [|m]. { injection Ecx as <-. split; [auto|]. intros _ c []. }
    fold pl in Ecx. rewrite (mapM_pure _ (fun i => Var (VSite i))) in Ecx.
    2:{ intros i Hi. apply Hpl in Hi. destruct Hi as (s & Es & _). unfold get. rewrite VS. assert (M : dmem (t_sites t) i = true) by (apply stored_dmem; now exists s). now rewrite M. }
    cbn [rbind] in Ecx. injection Ecx as <-.
    assert (Tv : total (fun i => v (VSite i)) pl == inject_Z (Z.of_nat (List.length (filter (fun i => mem i (choice_of t v)) pl)))).
    { rewrite <- count_on. apply total_ext. intros i Hi. apply Val. apply Hpl in Hi. destruct Hi as (s & Es & _). now exists s. }
    split.
    + intros H. right. intros pops Lp. rewrite (Len pops Lp). specialize (H _ (or_introl eq_refl)). cbn [sat eval] in H. rewrite eval_xsum, total_map in H. change (total (fun i => v (VSite i)) pl == inject_Z (Z.of_nat (S m))) in H. rewrite Tv in H. now apply inject_Z_injective, Nat2Z.inj in H.
    + intros [H|H]; [discriminate|]. intros c [<-|[]]. cbn [sat eval]. rewrite eval_xsum, total_map. change (total (fun i => v (VSite i)) pl == inject_Z (Z.of_nat (S m))). rewrite Tv, (H _ Lf). reflexivity.
Qed.

(** ** only good plans *)
Lemma best_unique m m' : best_link ps at_ t m -> best_link ps at_ t m' -> m == m'.
Proof using.
  intros (U1 & E1) (U2 & E2). destruct E1 as [(k & l & El & E1)|(N & E1)], E2 as [(k' & l' & El' & E2)|(N' & E2)].
  - assert (A := U2 _ _ El). assert (B := U1 _ _ El'). lra.
  - exfalso. exact (N' _ _ El).
  - exfalso. exact (N _ _ El').
  - lra.
Qed.
Lemma only_good g P v : 0 <= p_pop_capacity ps -> active_links_sound t -> site_problem g adv I0 = Ok P -> feasible P v -> good_plan ps at_ t adv dem all v.
Proof using Hw Hn HI Hd.
  intros Hpc Hal HP Hv. assert (DD := D ps at_ t I0 Hw Hn HI). fold I in DD.
  destruct (decls_all ps at_ t I0 g adv P v Hw Hn HI HP Hv) as (Dsite & Dflow & Dshare & Dodd & Dshort).
  destruct (plan_choice ps at_ t I0 Hw Hn HI g adv P v Hal HP Hv) as (_ & _ & Ch & _).
  destruct (pieces I0 g adv P v HP Hv) as (V & ds & sk & tk & ok & c1 & c2 & c3 & c4 & c5 & c6 & c7 & c8 & c9 & c10 & c11 & cx &
    Esk & Etk & Eok & VSi & VF & VT & VO & VSh & (sec & Esec & VSec) & Eds & Hds & E1 & S1 & E2 & S2 & E3 & S3 & E4 & S4 & E5 & S5 & E6 & S6 & E7 & S7 & E8 & S8 & E9 & S9 & E10 & S10 & E11 & S11 & Ex & Sx).
  fold I in Esk, Etk, Eok, VF, VSh, Eds, E2, E6, E7, E10, E11.
  assert (VS : forall i, site_stored t i -> dget (v_site V) i = Some (Var (VSite i))).
  { intros i Hi. destruct (site_keys_ok ps at_ t I0 Hw Hn HI) as (sk' & E' & Hsk). fold I in E'. rewrite Esk in E'. injection E' as <-. rewrite VSi, fresh_get. assert (M : mem i sk = true) by (apply mem_In, Hsk, Hi). now rewrite M. }
  assert (VTx : exists tk, tdm_keys I = Ok tk /\ v_tdm V = dict_of (fresh tdm_var tk)) by eauto.
  assert (Mx := all_max ps at_ t I0 Hw Hn HI dem all Hd). fold I in Mx.
  assert (All0 : 0 <= all).
  { destruct Hd as (H1 & cs & Hcs & ->). apply Qle_trans with (total (fun _ : string => 0) cs); [rewrite total_const0; apply Qle_refl|]. apply total_le. intros n Hin. apply Hcs in Hin. assert (A := Dshort n (dem n) Hin (H1 n Hin)). lra. }
  assert (NoTdm : forall e, In e (i_links I) -> dget (v_tdm V) (e, 0%nat) = None -> exists q, dget (i_cap I) e = Some q /\ flow v e <= q).
  { intros e He Ht. destruct (concatM_In _ _ _ _ E2 He) as (r & Er & Hr). apply rbind_ok in Er. destruct Er as (q & Eq & Er). apply get_ok in Eq. apply rbind_ok in Er. destruct Er as (f & Ef & Er). apply get_ok, (flow_get_inv _ _ VF) in Ef. subst f.
    assert (M : dmem (v_tdm V) (e, 0%nat) = false) by (unfold dmem; now rewrite Ht). rewrite M in Er. injection Er as <-. exists q. split; [exact Eq|]. assert (C := S2 _ (Hr _ (or_introl eq_refl))). cbn [sat eval] in C. change (v (flow_var e)) with (flow v e) in C. destruct (qmin2_spec q (i_max_throughput I)) as (_ & L & _). apply Qle_trans with (2 := L). exact C. }
  assert (None_ : forall e, ~ (exists k l, link_stored t k l /\ e = (l_tx l, l_rx l) /\ l_wireless l = true) -> dget (v_tdm V) (e, 0%nat) = None).
  { intros e Hx. destruct (dget (v_tdm V) (e, 0%nat)) as [y|] eqn:Y; [|reflexivity]. exfalso. destruct (tdm_get_inv _ _ _ _ _ DD Hn V VTx _ _ _ Y) as (_ & H & _). exact (Hx H). }
  assert (SupNo : ~ site_stored t SUPERSOURCE) by exact (proj1 Hn).
  assert (ConNo : forall n, consumer at_ t n -> ~ site_stored t n) by exact (proj1 (proj2 (proj2 Hn))).
  assert (LinkEnds : forall k l, link_stored t k l -> site_stored t (l_tx l) /\ site_stored t (l_rx l)) by (intros k l El; exact (link_sites t Hw k l El)).
  assert (Zero : forall es cs, no_flow_on I V es = Ok cs -> (forall c, In c cs -> sat v c) -> forall e, In e (i_links I) -> In e es -> flow v e == 0).
  { intros es cs E Sc e He Hin. destruct (concatM_In _ _ _ _ E He) as (r & Er & Hr). assert (M : mem e es = true) by now apply mem_In. rewrite M in Er. apply rbind_ok in Er. destruct Er as (f & Ef & Er). apply get_ok, (flow_get_inv _ _ VF) in Ef. subst f. injection Er as <-. exact (Sc _ (Hr _ (or_introl eq_refl))). }
  split.
  - exact Dsite.
  - destruct Ch as (C1 & C2 & C3). split; [|split].
    + intros i s H. apply C1. now apply choice_In.
    + intros i j si sj H1 H2. apply C2; now apply choice_In.
    + intros i s Es U. destruct (C3 i s Es U) as (j & sj & Ej & L & H & R). exists j, sj. rewrite choice_In in H. auto.
  - intros Ig i Hb. exact (Dodd i Ig Hb).
  - intros Ig k l El Al B1 B2. assert (C : v (VOdd (l_tx l)) == 1 - v (VOdd (l_rx l))).
    { unfold create_active_link_polarity_constraints in E10. destruct (params_val ps at_ t I0 HI) as (_ & Q & _). fold I in Q. rewrite Q, Ig in E10. injection E10 as <-.
      destruct (odd_keys_ok ps at_ t I0 Hw Hn HI) as (ok' & E' & Hok). fold I in E'. rewrite Eok in E'. injection E' as <-.
      assert (G : forall i, backhaul_site t i -> dget (v_odd V) i = Some (Var (VOdd i))). { intros i Hb. rewrite VO, fresh_get. assert (M : mem i ok = true) by (apply mem_In, Hok; auto). now rewrite M. }
      apply (S10 (Eq (Var (VOdd (l_tx l))) (Sub (Cst 1) (Var (VOdd (l_rx l)))))). apply in_flat_map. exists (l_tx l, l_rx l). split.
      - apply (D_links _ _ _ _ _ DD). right; right. exists k, l. auto.
      - cbv beta. match goal with |- In _ (if ?b then _ else _) => assert (A : b = true) end.
        { apply orb_true_iff. rewrite !mem_In, <- in_app_iff. apply (D_alinks _ _ _ _ _ DD). exists k, l. auto. }
        rewrite A. cbn [fst snd]. rewrite (G _ B1), (G _ B2). now left. }
    unfold opposite. destruct (Dodd _ Ig B1) as [O1|O1], (Dodd _ Ig B2) as [O2|O2]; rewrite O1, O2 in C; try (exfalso; lra); auto.
  - intros Ig k l El W B1 B2 Hs. apply (opposite_polarity ps at_ t I0 g adv P v Hw Hn HI HP Hv k l Ig El W B1 B2). auto.
  - exact Dflow.
  - exact Dshare.
  - intros k l El W. exact (proj2 (link_flow ps at_ t I0 g adv P v Hw Hn HI HP Hv k l El W)).
  - intros k l El W. destruct (LinkEnds k l El) as (L1 & L2). destruct (NoTdm (l_tx l, l_rx l)) as (q & Eq & Lq).
    { apply (D_links _ _ _ _ _ DD). right; right. exists k, l. auto. }
    { apply None_. intros (k' & l' & El' & X & W'). assert (l = l'); [|congruence]. exact (link_fun t Hw k l k' l' El El' X). }
    rewrite (D_cap _ _ _ _ _ DD _ _ El) in Eq. injection Eq as <-. exact Lq.
  - intros i Hp. destruct (NoTdm (SUPERSOURCE, i)) as (q & Eq & Lq).
    { apply (D_links _ _ _ _ _ DD). left. auto. }
    { apply None_. intros (k' & l' & El' & X & _). injection X as X1 X2. apply SupNo. rewrite X1. now apply (LinkEnds k' l'). }
    destruct (cap_kinds ps at_ t I0 Hw Hn HI _ q Eq) as [(j & X & Hj & ->)|[(H1 & H2 & Fe & _)|(k & l & El & X & _)]].
    + exact Lq.
    + contradiction.
    + exfalso. injection X as X1 X2. apply SupNo. rewrite X1. now apply (LinkEnds k l).
  - intros i n m Hs Hc Fe Hb. destruct (NoTdm (i, n)) as (q & Eq & Lq).
    { now apply (D_links _ _ _ _ _ DD). }
    { apply None_. intros (k' & l' & El' & X & _). injection X as X1 X2. apply (ConNo n Hc). rewrite X2. now apply (LinkEnds k' l'). }
    destruct (cap_kinds ps at_ t I0 Hw Hn HI _ q Eq) as [(j & X & Hj & _)|[(H1 & H2 & _ & ->)|(k & l & El & X & _)]].
    + exfalso. injection X as X1 X2. subst. contradiction.
    + rewrite (best_unique _ _ Hb (best_is ps at_ t Hw)). exact Lq.
    + exfalso. injection X as X1 X2. apply (ConNo n Hc). rewrite X2. now apply (LinkEnds k l).
  - intros i es Hp Ho. exact (pop_load ps at_ t I0 g adv P v Hw Hn HI HP Hv i es Hpc Hp Ho).
  - intros k x es Hx He. exact (proj1 (sector_share ps at_ t I0 g adv P v Hw Hn HI HP Hv k x es Hx He)).
  - intros i ei eo Hs Hi Ho. split; [exact (site_conserves ps at_ t I0 g adv P v Hw Hn HI HP Hv i ei eo Hs Hi Ho)|].
    assert (Hl : In i (i_locations I)) by exact (site_location ps at_ t I0 Hw Hn HI i Hs).
    destruct (concatM_In _ _ _ _ E6 Hl) as (r & Er & Hr). apply rbind_ok in Er. destruct Er as (a & Ea & Er). apply rbind_ok in Er. destruct Er as (b & Eb & Er). apply rbind_ok in Er. destruct Er as (ty & Et & Er). apply get_ok in Et. apply rbind_ok in Er. destruct Er as (y & Ey & Er). cbv zeta in Er. injection Er as <-.
    assert (Y : y = Var (VSite i)). { destruct Hs as (s & Es). rewrite (D_site _ _ _ _ _ DD _ _ Es) in Et. injection Et as <-. cbn [imaginary] in Ey. unfold get in Ey. rewrite (VS i (ex_intro _ s Es)) in Ey. congruence. }
    subst y. destruct (incoming_flow_val _ _ _ _ _ DD V VF v i a ei Ea Hi) as (Av & An). destruct a as [a|].
    + assert (C := S6 _ (Hr _ (or_introl eq_refl))). cbn [sat eval or_zero] in C, Av. rewrite Av in C. apply Qle_trans with (1 := C). rewrite <- Mx. apply Qle_refl.
    + rewrite (An eq_refl). cbn [total]. destruct (Dsite i Hs) as [B|B]; rewrite B; lra.
  - intros n Hc. exact (Dshort n (dem n) Hc (proj1 Hd n Hc)).
  - intros n ei Hc Hi. exact (consumer_receives ps at_ t I0 g adv P v Hw Hn HI HP Hv n ei dem (proj1 Hd) Hc Hi).
  - intros k l El Hdl. apply (Zero _ _ E11 S11). + apply (D_links _ _ _ _ _ DD). right; right. exists k, l. auto. + apply (inactive_iff ps at_ t I0 Hw Hn HI). exists k, l. auto.
  - intros e He Hin. apply (Zero _ _ E7 S7); [now apply (D_links _ _ _ _ _ DD)|exact Hin].
Qed.

(** ** both ways *)
Lemma good_answers g P v : site_problem g adv I0 = Ok P -> good_plan ps at_ t adv dem all v -> goal_met ps at_ t dem all g v -> feasible P v.
Proof using Hw Hn HI Hd.
  intros HP Hg Hm. destruct (tables_ok ps at_ t I0 Hw Hn HI) as (V & sk & tk & ok & EV & Etk & Eok & Esk & VS & VF & VT & VO & VSh & VSec & VSec').
  assert (H := HP). unfold site_problem in H. rewrite EV in H. cbn [rbind] in H. apply rbind_ok in H. destruct H as (ds & Eds & H). apply rbind_ok in H. destruct H as (cs & Ecs & H). apply rbind_ok in H. destruct H as (cx & Ecx & H). injection H as <-.
  split; cbn [decls constraints].
  - exact (fit_decls ps at_ t I0 Hw Hn HI adv dem all Hd v Hg V tk ok Etk Eok VT ds Eds).
  - intros c Hc. apply in_app_iff in Hc. destruct Hc as [Hc|Hc].
    + exact (fit_all ps at_ t I0 Hw Hn HI adv dem all Hd v Hg V tk ok EV Etk Eok VS VF VT VO VSh cs Ecs c Hc).
    + revert c Hc. apply (goal_means g V cx v VS VSec' VSh (gp_site _ _ _ _ _ _ _ Hg) Ecx). exact Hm.
Qed.
Lemma answers_met g P v : site_problem g adv I0 = Ok P -> feasible P v -> goal_met ps at_ t dem all g v.
Proof using Hw Hn HI Hd.
  intros HP Hv. destruct (decls_all ps at_ t I0 g adv P v Hw Hn HI HP Hv) as (Dsite & _).
  destruct (tables_ok ps at_ t I0 Hw Hn HI) as (V & sk & tk & ok & EV & Etk & Eok & Esk & VS & VF & VT & VO & VSh & VSec & VSec').
  assert (H := HP). unfold site_problem in H. rewrite EV in H. cbn [rbind] in H. apply rbind_ok in H. destruct H as (ds & Eds & H). apply rbind_ok in H. destruct H as (cs & Ecs & H). apply rbind_ok in H. destruct H as (cx & Ecx & H). injection H as <-.
  apply (goal_means g V cx v VS VSec' VSh Dsite Ecx). intros c Hc. apply (proj2 Hv). cbn [constraints]. apply in_app_iff. auto.
Qed.
Lemma exactly_good g P v : 0 <= p_pop_capacity ps -> active_links_sound t -> site_problem g adv I0 = Ok P ->
  (feasible P v <-> good_plan ps at_ t adv dem all v /\ goal_met ps at_ t dem all g v).
Proof using Hw Hn HI Hd.
  intros Hpc Hal HP. split.
  - intros Hv. split; [exact (only_good g P v Hpc Hal HP Hv)|exact (answers_met g P v HP Hv)].
  - intros (H1 & H2). exact (good_answers g P v HP H1 H2).
Qed.
End Answer.
Lemma demands_known ps at_ t I0 : well_formed t -> names_ok at_ t -> network ps at_ t = Ok I0 -> exists dem all, demands ps at_ t dem all.
Proof.
  intros Hw Hn HI. destruct (dem_exists ps at_ t I0 Hw Hn HI) as (dem & H). exists dem, (total dem (shortage_keys (with_channels 1 I0))). split; [exact H|].
  exists (shortage_keys (with_channels 1 I0)). split; [exact (shortage_keys_lists ps at_ t I0 Hw Hn HI)|reflexivity].
Qed.
(** what the check of statuses ensures *)
Lemma validated_sound sec t : reachable t -> typed t -> validate_status sec t = Ok tt ->
  (forall k l i s, link_stored t k l -> active_link l -> l_type l = WIRELESS_ACCESS -> touches l i -> dget (t_sites t) i = Some s -> deployed (s_status s)) -> active_links_sound t.
Proof.
  intros Hr Ht Hv Hc k l i s El Al T Es. assert (Dec : l_type l = WIRELESS_ACCESS \/ l_type l <> WIRELESS_ACCESS) by (destruct (l_type l); auto; right; discriminate).
  destruct Dec as [Ty|Ty]; [exact (Hc k l i s El Al Ty T Es)|].
  apply (access_unchecked sec t Hr Ht) with (1 := Hv) in El; [|exact Ty]. destruct El as (r & _ & _ & Su).
  assert (T' : i = l_tx l \/ i = l_rx l) by (destruct T; auto). destruct Su as (Se & Sp & _). destruct Al as [A|A].
  - exact (proj1 (Sp A) i s T' Es).
  - right. symmetry. exact (proj1 (Se A) i s T' Es).
Qed.
Lemma validated_answers sec ps at_ t I0 g adv P dem all v : reachable t -> typed t -> validate_status sec t = Ok tt ->
  (forall k l i s, link_stored t k l -> active_link l -> l_type l = WIRELESS_ACCESS -> touches l i -> dget (t_sites t) i = Some s -> deployed (s_status s)) ->
  names_ok at_ t -> network ps at_ t = Ok I0 -> demands ps at_ t dem all -> 0 <= p_pop_capacity ps -> site_problem g adv I0 = Ok P ->
  (feasible P v <-> good_plan ps at_ t adv dem all v /\ goal_met ps at_ t dem all g v).
Proof.
  intros Hr Ht Hv Hc Hn HI Hd Hpc HP. exact (exactly_good ps at_ t I0 (wf_reachable _ Hr) Hn HI adv dem all Hd g P v Hpc (validated_sound sec t Hr Ht Hv Hc) HP).
Qed.
