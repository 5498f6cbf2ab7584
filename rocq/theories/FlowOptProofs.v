(** Proofs about the flow found after planning. *)
From Coq Require Import QArith Lqa Lia Permutation.
From Verif Require Import Base Dict TopologyModel TopologySpec GraphSpec RfModel RfProofs SetupModel IlpModel IlpSpec QLib MonadLib SetupProofs
  IlpLemmas IlpProofs PruneModel PruneSpec PruneProofs ExtractModel ExtractSpec ExtractProofs TopologyLemmas TopologyQueryProofs FlowOptModel FlowOptSpec.
Local Open Scope Q_scope.

Section Flow.
Variables (ps : params) (at_ : attrs) (t : topo) (I0 : inst) (red : edge -> bool) (con : list string) (P : problem) (v : var -> Q).
Hypothesis Hw : well_formed t.
Hypothesis Hn : names_ok at_ t.
Hypothesis HI : network ps at_ t = Ok I0.
Hypothesis HP : flow_problem red con t I0 = Ok P.
Hypothesis Hv : feasible P v.
Let I := maxflow_inst (get_link_site_id_pairs t (Some [CANDIDATE]) None) red I0.
Let cap (e : edge) : Q := if red e then 0 else a_cap at_ e.

Lemma mdesc : describes ps at_ t cap I.
Proof. apply maxflow_describes, setup_describes; auto. exact (proj1 (network_setup ps at_ t I0 HI)). Qed.
Let D := mdesc.
Lemma mpieces : exists V tk sk sec c1 c2 c3 c4 c5 c6,
  maxflow_tables I = Ok V /\ tdm_keys I = Ok tk /\ site_decisions I = Ok sk /\
  v_flow V = dict_of (fresh flow_var (flow_keys I)) /\ v_tdm V = dict_of (fresh tdm_var tk) /\
  v_site V = dict_of (map (fun i => (i, Cst (if mem i (i_proposed_sites I ++ i_existing_sites I) then 1 else 0))) sk) /\
  concatM (fun loc =>
      do secs <- get (i_secs I) loc ;
      concatM (fun a => do ty <- get (i_sectype I) a ;
        Ok (if imaginary_sec ty then []
            else [(loc, a, 0%nat, Cst (if mem a (match dget (i_proposed_sectors I) loc with Some l => l | None => [] end) then 1 else 0))])) secs)
    (i_locations I) = Ok sec /\ v_sector V = dict_of sec /\
  (forall d, In d (decls P) -> in_kind (v (fst d)) (snd d)) /\
  decls P = (map (fun e => (flow_var e, Continuous 0 None)) (flow_keys I)
         ++ map (fun k => (tdm_var k, Continuous 0 (Some 1))) tk ++ [(VBuffer, Continuous 0 None)])%list /\
  create_tdm_sector_relationship I V = Ok c1 /\ (forall c, In c c1 -> sat v c) /\
  create_tdm_flow_relationship I V = Ok c2 /\ (forall c, In c c2 -> sat v c) /\
  create_flow_site_relationship I V = Ok c3 /\ (forall c, In c c3 -> sat v c) /\
  create_inactive_link_flow_constraints I V = Ok c4 /\ (forall c, In c c4 -> sat v c) /\
  create_pop_load_constraints I V = Ok c5 /\ (forall c, In c c5 -> sat v c) /\
  create_flow_balance_with_buffer con I V = Ok c6 /\ (forall c, In c c6 -> sat v c).
Proof.
  assert (H := HP). unfold flow_problem, maxflow_problem in H. fold I in H.
  apply rbind_ok in H. destruct H as (V & EV & H). apply rbind_ok in H. destruct H as (tk & Etk & H).
  apply rbind_ok in H. destruct H as (c1 & E1 & H). apply rbind_ok in H. destruct H as (c2 & E2 & H). apply rbind_ok in H. destruct H as (c3 & E3 & H).
  apply rbind_ok in H. destruct H as (c4 & E4 & H). apply rbind_ok in H. destruct H as (c5 & E5 & H). apply rbind_ok in H. destruct H as (c6 & E6 & H). injection H as H.
  assert (EV' := EV). unfold maxflow_tables in EV'. apply rbind_ok in EV'. destruct EV' as (sk & Esk & EV'). apply rbind_ok in EV'. destruct EV' as (sec & Esec & EV').
  rewrite Etk in EV'. cbn [rbind] in EV'. injection EV' as EV'.
  assert (Hv' := Hv). destruct Hv' as (Hd & Hc). rewrite <- H in Hc. cbn [constraints] in Hc.
  exists V, tk, sk, sec, c1, c2, c3, c4, c5, c6.
  split; [exact EV|]. split; [exact Etk|]. split; [exact Esk|]. split; [now rewrite <- EV'|]. split; [now rewrite <- EV'|]. split; [now rewrite <- EV'|].
  split; [exact Esec|]. split; [now rewrite <- EV'|]. split; [exact Hd|]. split; [now rewrite <- H|].
  repeat match goal with |- _ /\ _ => split end; try assumption; intros c Hin; apply Hc; rewrite !in_app_iff; tauto.
Qed.
Ltac mp := destruct mpieces as (V & tk & sk & sec & c1 & c2 & c3 & c4 & c5 & c6 & EV & Etk & Esk & VF & VT & VS & Esec & VSec & Hd & Ed & E1 & S1 & E2 & S2 & E3 & S3 & E4 & S4 & E5 & S5 & E6 & S6).

Lemma ch0 : In 0%nat (channels I). Proof. left. reflexivity. Qed.
Lemma ch1 : channels I = [0%nat]. Proof. reflexivity. Qed.
Lemma mflow_nonneg e : flow_edge at_ t e -> 0 <= flow v e.
Proof.
  intros He. mp. apply (Hd (flow_var e, Continuous 0 None)). rewrite Ed, !in_app_iff. left. apply in_map_iff. exists e. split; [auto|]. now apply (D_links _ _ _ _ _ D).
Qed.
Lemma mbuffer_nonneg : 0 <= v VBuffer.
Proof. mp. apply (Hd (VBuffer, Continuous 0 None)). rewrite Ed, !in_app_iff. right; right. now left. Qed.
Lemma mshare k l : link_stored t k l -> l_wireless l = true -> 0 <= share v 0 (l_tx l, l_rx l) <= 1.
Proof.
  intros El W. mp. apply (Hd (tdm_var ((l_tx l, l_rx l), 0%nat), Continuous 0 (Some 1))). rewrite Ed, !in_app_iff. right; left. apply in_map_iff.
  exists ((l_tx l, l_rx l), 0%nat). split; [auto|].
  assert (G := tdm_get _ _ _ _ _ D Hw V (ex_intro _ tk (conj Etk VT)) k l 0%nat El W ch0). rewrite VT, fresh_get in G.
  destruct (mem _ tk) eqn:M in G; [now apply mem_In in M|discriminate].
Qed.
Lemma mlink_flow k l : link_stored t k l -> l_wireless l = true -> 0 <= flow v (l_tx l, l_rx l) <= cap (l_tx l, l_rx l) * share v 0 (l_tx l, l_rx l).
Proof.
  intros El W. split; [apply mflow_nonneg; right; right; eauto|]. mp.
  assert (H := tdm_flow_sat _ _ _ _ _ D Hw Hn V VF (ex_intro _ tk (conj Etk VT)) v c2 k l E2 S2 ch0 El W). rewrite ch1 in H. cbn [total] in H. unfold share. cbn [fst snd] in *. lra.
Qed.
Lemma mwired_flow k l : link_stored t k l -> l_wireless l = false -> 0 <= flow v (l_tx l, l_rx l) <= cap (l_tx l, l_rx l).
Proof.
  intros El W. split; [apply mflow_nonneg; right; right; eauto|]. mp.
  destruct (concatM_In _ _ _ _ E2 (link_in _ _ _ _ _ D _ _ El)) as (r & Er & Hr). inv_do. rewrite (D_cap _ _ _ _ _ D _ _ El) in E. injection E as <-.
  apply (flow_get_inv _ V VF) in E0. subst x0.
  destruct (dmem (v_tdm V) (l_tx l, l_rx l, 0%nat)) eqn:M.
  { exfalso. apply dmem_Some in M. destruct M as (x & Ex). destruct (tdm_get_inv _ _ _ _ _ D Hn V (ex_intro _ tk (conj Etk VT)) _ _ _ Ex) as (_ & (k' & l' & El' & E' & W') & _).
    assert (l = l') by (eapply link_fun; eauto). congruence. }
  injection Er as <-. assert (C : flow v (l_tx l, l_rx l) <= qmin2 (cap (l_tx l, l_rx l)) (i_max_throughput I)) by exact (S2 _ (Hr _ (or_introl eq_refl))). unfold qmin2 in C.
  destruct (Qle_bool (cap (l_tx l, l_rx l)) (i_max_throughput I)) eqn:Q; [exact C|]. apply qle_false in Q. lra.
Qed.
Lemma mredundant k l : link_stored t k l -> red (l_tx l, l_rx l) = true -> flow v (l_tx l, l_rx l) == 0.
Proof.
  intros El R. destruct (l_wireless l) eqn:W.
  - assert (F := mlink_flow k l El W). unfold cap in F. rewrite R in F. lra.
  - assert (F := mwired_flow k l El W). unfold cap in F. rewrite R in F. lra.
Qed.
Lemma minactive k l : link_stored t k l -> l_status l <> PROPOSED -> l_status l <> EXISTING -> flow v (l_tx l, l_rx l) == 0.
Proof.
  intros El N1 N2. assert (Hin : In (l_tx l, l_rx l) (i_inactive_links I)).
  { destruct (l_status l) eqn:Es; try contradiction.
    - apply in_app_iff. right. apply links_by_status; auto. exists k, l. rewrite Es. cbn. auto.
    - apply (D_il _ _ _ _ _ D k l El); auto.
    - apply (D_il _ _ _ _ _ D k l El); auto. }
  mp. unfold create_inactive_link_flow_constraints, no_flow_on in E4. destruct (concatM_In _ _ _ _ E4 (link_in _ _ _ _ _ D _ _ El)) as (r & Er & Hr). apply mem_In in Hin. rewrite Hin in Er. inv_do. subst r.
  apply (flow_get_inv _ V VF) in E. subst x. exact (S4 _ (Hr _ (or_introl eq_refl))).
Qed.
Lemma msector k x es : sector_stored t k x -> lists es (sends t x) \/ lists es (receives t x) ->
  total (share v 0) es <= (if match x_status x with PROPOSED => true | _ => false end then 1 else 0).
Proof.
  intros Hx Hes. mp. set (b := match x_status x with PROPOSED => true | _ => false end).
  assert (Mb : mem k (match dget (i_proposed_sectors I) (x_site x) with Some l => l | None => [] end) = b).
  { change (i_proposed_sectors I) with (i_proposed_sectors I0). assert (S := setup_fields ps at_ t I0 (proj1 (network_setup ps at_ t I0 HI))).
    destruct S as (thr & _ & _ & _ & _ & _ & _ & _ & _ & _ & _ & _ & _ & _ & _ & _ & _ & _ & _ & _ & _ & _ & _ & Fpsec & _). rewrite Fpsec.
    change (mem k (row (get_sector_ids t [PROPOSED]) (x_site x)) = b). assert (F := sector_ids_fold [PROPOSED] (t_sectors t) [] (x_site x) k). fold (get_sector_ids t [PROPOSED]) in F.
    destruct (mem k (row (get_sector_ids t [PROPOSED]) (x_site x))) eqn:M.
    - apply mem_In in M. apply F in M. destruct M as [[]|(x' & Hin & _ & [Hst|[]])]. assert (Ex := In_dget _ _ _ (proj1 (proj2 (proj2 Hw))) Hin). unfold sector_stored in Hx. rewrite Hx in Ex. injection Ex as <-. unfold b. now rewrite <- Hst.
    - unfold b. destruct (x_status x) eqn:Hst; try reflexivity. apply mem_not_In in M. exfalso. apply M, F. right. exists x. split; [now apply dget_In|]. split; [auto|]. rewrite Hst. now left. }
  assert (G : dget (v_sector V) (x_site x, k, 0%nat) = Some (Cst (if b then 1 else 0))).
  { rewrite VSec. apply dict_of_value.
    - destruct (D_secs _ _ _ _ _ D _ _ Hx) as (sl & Esl & Hin). destruct (concatM_In _ _ _ _ Esec (D_secs_loc _ _ _ _ _ D _ _ Esl)) as (r & Er & Hr). unfold get at 1 in Er. rewrite Esl in Er. cbn [rbind] in Er.
      destruct (concatM_In _ _ _ _ Er Hin) as (r1 & Er1 & Hr1). unfold get at 1 in Er1. rewrite (D_sectype _ _ _ _ _ D _ _ Hx) in Er1. cbn [rbind] in Er1. apply Hr, Hr1. rewrite Mb in Er1.
      destruct (k_cn (x_key x)); cbn [imaginary_sec] in Er1; injection Er1 as <-; now left.
    - intros y Hy. destruct (concatM_inv _ _ _ _ Esec Hy) as (loc & r & _ & Er & Hin1). inv_do.
      destruct (concatM_inv _ _ _ _ Er Hin1) as (a & r1 & _ & Er1 & Hin2). inv_do. destruct (imaginary_sec x1); inv_do; subst r1; [contradiction|].
      destruct Hin2 as [E9|[]]. injection E9 as E9a E9b E9c. subst loc a. rewrite <- E9c. change (i_proposed_sectors I0) with (i_proposed_sectors I). rewrite Mb. reflexivity. }
  refine (Qle_trans _ _ _ (tdm_sector_sat _ _ _ _ _ D Hw Hn V (ex_intro _ tk (conj Etk VT)) v c1 k x 0%nat _ es E1 S1 ch0 ch0 Hx G _ Hes) _).
  - cbn. destruct b; lra.
  - cbn. lra.
Qed.
(** ** conservation *)
Lemma mbalance loc ei eo : In loc (i_locations I) -> into at_ t loc ei -> out_of at_ t loc eo -> (ei <> [] \/ eo <> []) ->
  (site_stored t loc -> total (flow v) ei == total (flow v) eo) /\
  (consumer at_ t loc -> total (flow v) ei - total (flow v) eo == if mem loc con then v VBuffer else 0).
Proof.
  intros Hloc Hi Ho Hne. mp. destruct (concatM_In _ _ _ _ E6 Hloc) as (r & Er & Hr). apply rbind_ok in Er. destruct Er as (o & Eo & Er).
  destruct (net_flow_val _ _ _ _ _ D V VF v loc o ei eo Eo Hi Ho) as (A & B). destruct o as [x|]; [|destruct (B eq_refl); destruct Hne; contradiction].
  cbn [or_zero] in A. inv_do. split.
  - intros (s & Es). rewrite (D_site _ _ _ _ _ D _ _ Es) in E. injection E as <-. subst r. assert (S := S6 _ (Hr _ (or_introl eq_refl))). cbn [sat eval] in S. rewrite A in S. lra.
  - intros Hc. rewrite (D_cons _ _ _ _ _ D _ Hc) in E. injection E as <-. subst r. assert (S := S6 _ (Hr _ (or_introl eq_refl))). cbn [sat] in S. rewrite A in S. rewrite S. destruct (mem loc con); reflexivity.
Qed.
Lemma mconserves i ei eo : site_stored t i -> into at_ t i ei -> out_of at_ t i eo -> total (flow v) ei == total (flow v) eo.
Proof.
  intros Hs Hi Ho. assert (Hl : In i (i_locations I)) by (apply (D_locs _ _ _ _ _ D); auto).
  assert (C : (ei = [] /\ eo = []) \/ (ei <> [] \/ eo <> [])).
  { destruct ei; [destruct eo; [auto|right; right; discriminate]|right; left; discriminate]. }
  destruct C as [(-> & ->)|C]; [reflexivity|]. now apply (mbalance i ei eo Hl Hi Ho C).
Qed.
Lemma mreceives n ei : consumer at_ t n -> into at_ t n ei -> (In n con -> ei <> []) -> total (flow v) ei == if mem n con then v VBuffer else 0.
Proof.
  intros Hc Hi Hne. assert (Hl : In n (i_locations I)) by (apply (D_locs _ _ _ _ _ D); auto). destruct (lists_out _ _ _ _ _ D n Hl) as (eo & _ & Ho).
  assert (O := out_consumer at_ t Hw Hn n eo Hc Ho). subst eo. destruct ei as [|e ei].
  - destruct (mem n con) eqn:M; [apply mem_In in M; exfalso; now apply (Hne M)|reflexivity].
  - destruct (mbalance n _ _ Hl Hi Ho) as (_ & B); [left; discriminate|]. specialize (B Hc). cbn [total] in *. lra.
Qed.
Lemma msupply es cs feed : out_of at_ t SUPERSOURCE es -> lists cs (consumer at_ t) -> (forall n, In n cs -> into at_ t n (feed n)) ->
  total (flow v) es == total (fun n => total (flow v) (feed n)) cs.
Proof.
  intros Hes Hcs Hf.
  set (fin := fun loc => filter (fun e : edge => beq (snd e) loc) (i_links I)). set (fout := fun loc => filter (fun e : edge => beq (fst e) loc) (i_links I)).
  assert (Fin : forall loc, into at_ t loc (fin loc)).
  { intros loc. split; [apply NoDup_filter', (D_links_nd _ _ _ _ _ D)|]. intros e. unfold fin. rewrite filter_In, (D_links _ _ _ _ _ D).
    split; intros [? H]; split; auto; [now apply beq_true in H|subst; apply beq_refl]. }
  assert (Fout : forall loc, out_of at_ t loc (fout loc)).
  { intros loc. split; [apply NoDup_filter', (D_links_nd _ _ _ _ _ D)|]. intros e. unfold fout. rewrite filter_In, (D_links _ _ _ _ _ D).
    split; intros [? H]; split; auto; [now apply beq_true in H|subst; apply beq_refl]. }
  set (nt := fun loc => total (flow v) (fin loc) - total (flow v) (fout loc)).
  assert (Sum : total nt (i_locations I) == 0).
  { unfold nt. rewrite total_sub. unfold fin, fout. rewrite !sum_by_end; try apply (D_locs_nd _ _ _ _ _ D); try (intros e He; apply (D_ends _ _ _ _ _ D e He)). lra. }
  assert (Sl : In SUPERSOURCE (i_locations I)) by (apply (D_locs _ _ _ _ _ D); auto).
  assert (Split := total_split (fun loc => mem loc cs) nt (i_locations I)). rewrite Sum in Split.
  assert (P1 : total nt (filter (fun loc => mem loc cs) (i_locations I)) == total (fun n => total (flow v) (feed n)) cs).
  { rewrite (lists_total nt _ cs (consumer at_ t)); [|split; [apply NoDup_filter', (D_locs_nd _ _ _ _ _ D)|]; intros m; rewrite filter_In, mem_In, (proj2 Hcs m), (D_locs _ _ _ _ _ D); tauto|exact Hcs].
    apply total_ext. intros n Hin. unfold nt. rewrite (out_consumer at_ t Hw Hn n (fout n) (proj1 (proj2 Hcs n) Hin) (Fout n)). cbn [total]. rewrite (lists_total (flow v) _ _ _ (Fin n) (Hf n Hin)). lra. }
  assert (P2 : total nt (filter (fun loc => negb (mem loc cs)) (i_locations I)) == nt SUPERSOURCE).
  { rewrite (total_ext nt (fun loc => if beq SUPERSOURCE loc then nt SUPERSOURCE else 0)).
    - apply total_pick; [apply NoDup_filter', (D_locs_nd _ _ _ _ _ D)|]. apply filter_In. split; [exact Sl|]. apply negb_true_iff, mem_not_In.
      intros Hin. apply Hcs in Hin. now apply (proj1 (proj2 Hn)).
    - intros loc Hin. apply filter_In in Hin. destruct Hin as (Hloc & Hm). apply negb_true_iff, mem_not_In in Hm.
      destruct (beq_spec SUPERSOURCE loc) as [<-|Hne]; [reflexivity|]. apply (D_locs _ _ _ _ _ D) in Hloc. destruct Hloc as [E|[Hs|Hcc]]; [congruence| |].
      + unfold nt. rewrite (mconserves loc (fin loc) (fout loc) Hs (Fin loc) (Fout loc)). lra.
      + exfalso. apply Hm. now apply Hcs. }
  rewrite P1, P2 in Split. unfold nt in Split. rewrite (into_super at_ t Hw Hn _ (Fin SUPERSOURCE)) in Split. cbn [total] in Split.
  rewrite (lists_total (flow v) es _ _ Hes (Fout SUPERSOURCE)). lra.
Qed.
Lemma mpop i eo : 0 <= p_pop_capacity ps -> is_pop t i -> out_of at_ t i eo -> total (flow v) eo <= p_pop_capacity ps.
Proof.
  intros Hpos Hp Ho. mp. assert (Q : p_pop_capacity (i_params I) = p_pop_capacity ps).
  { destruct (params_val ps at_ t I0 HI) as (Q & _). exact Q. }
  rewrite <- Q in *. exact (pop_load_sat _ _ _ _ _ D V VF v c5 i eo E5 S5 Hpos Hp Ho).
Qed.
Lemma msite_idle i s es : dget (t_sites t) i = Some s -> s_status s <> PROPOSED -> s_status s <> EXISTING -> into at_ t i es \/ out_of at_ t i es ->
  forall e, In e es -> flow v e == 0.
Proof.
  intros Es N1 N2 Hes e He. assert (Hs : site_stored t i) by now exists s. assert (Hl : In i (i_locations I)) by (apply (D_locs _ _ _ _ _ D); auto). mp.
  destruct (concatM_In _ _ _ _ E3 Hl) as (r & Er & Hr). apply rbind_ok in Er. destruct Er as (x & E & Er). apply rbind_ok in Er. destruct Er as (x0 & E0 & Er).
  apply rbind_ok in Er. destruct Er as (ty & Ety & Er). apply get_ok in Ety. rewrite (D_site _ _ _ _ _ D _ _ Es) in Ety. injection Ety as <-.
  apply rbind_ok in Er. destruct Er as (x2 & Ex2 & Er). cbn [imaginary] in Ex2. apply get_ok in Ex2.
  assert (x2 = Cst 0).
  { rewrite VS in Ex2. apply dict_of_In in Ex2. apply in_map_iff in Ex2. destruct Ex2 as (j & Ej & _). injection Ej as -> <-. change (i_proposed_sites I0) with (i_proposed_sites I). change (i_existing_sites I0) with (i_existing_sites I).
    destruct (mem i (i_proposed_sites I ++ i_existing_sites I)) eqn:M; [|reflexivity]. exfalso. apply mem_In, in_app_iff in M. destruct M as [M|M].
    - apply (D_ps _ _ _ _ _ D) in M. destruct M as (s' & Es' & X). congruence.
    - apply (D_es _ _ _ _ _ D) in M. destruct M as (s' & Es' & X). congruence. }
  subst x2. cbv zeta in Er. injection Er as Er. subst r.
  assert (Nn : forall l, (forall e, In e l -> flow_edge at_ t e) -> In e l -> total (flow v) l <= 0 -> flow v e == 0).
  { intros l Hl' Hin Hle. assert (M := total_member (flow v) l e (fun y Hy => mflow_nonneg y (Hl' y Hy)) Hin). assert (F := mflow_nonneg e (Hl' e Hin)). lra. }
  destruct Hes as [Hes|Hes].
  - destruct (incoming_flow_val _ _ _ _ _ D V VF v i x es E Hes) as (Ev & Ne). destruct x as [y|]; [|now rewrite Ne in He].
    assert (C : sat v (Le y (Scale (i_max_throughput I) (Cst 0)))) by (apply S3, Hr, in_or_app; left; left; reflexivity). cbn [sat eval or_zero] in C, Ev. rewrite Ev in C.
    apply (Nn es); [intros y' Hy'; now apply Hes|auto|lra].
  - destruct (outgoing_flow_val _ _ _ _ _ D V VF v i x0 es E0 Hes) as (Ev & Ne). destruct x0 as [y|]; [|now rewrite Ne in He].
    assert (C : sat v (Le y (Scale (i_max_throughput I) (Cst 0)))) by (apply S3, Hr, in_or_app; right; left; reflexivity). cbn [sat eval or_zero] in C, Ev. rewrite Ev in C.
    apply (Nn es); [intros y' Hy'; now apply Hes|auto|lra].
Qed.

(** ** the flow that is reported *)
Lemma mextract : exists o d, extract_flow_solution red con t I0 v = Ok o /\ fs_buffer o = v VBuffer /\ fs_connected o = con /\
  dwf (fs_flow o) /\ (forall e, In e (dkeys (fs_flow o)) <-> In e (i_links I)) /\
  (forall e, In e (i_links I) -> exists y, dget (fs_flow o) e = Some y /\ 0 <= y <= flow v e) /\ acyclic_above (fs_flow o) epsilon /\
  dwf d /\ (forall e, In e (dkeys d) <-> In e (i_links I)) /\ (forall e, In e (i_links I) -> dget d e = Some (flow v e)) /\ forall n, net (fs_flow o) n == net d n.
Proof.
  mp. unfold extract_flow_solution. fold I. rewrite EV. cbn [rbind].
  assert (Wd : dwf (values v (v_flow V))). { unfold dwf, values, dkeys. rewrite map_map. cbn. rewrite VF. exact (dict_of_wf _). }
  assert (Fv : forall e, In e (i_links I) -> dget (values v (v_flow V)) e = Some (flow v e)).
  { intros e He. rewrite values_get, (flow_get I V VF e He). reflexivity. }
  assert (Kd : forall e, In e (dkeys (values v (v_flow V))) <-> In e (i_links I)).
  { intros e. split; [|intros He; apply In_dkeys; eauto]. intros He. apply In_dkeys in He. destruct He as (q & He). rewrite values_get in He. rewrite VF, fresh_get in He. unfold flow_keys in He. destruct (mem e (i_links I)) eqn:M; [now apply mem_In|discriminate]. }
  assert (Gr : graph_ok (i_links I) (i_locations I) (values v (v_flow V))).
  { split; [exact Wd|]. split; [intros e He; now apply Kd|]. intros e He. destruct (D_ends _ _ _ _ _ D e He) as (A & B). split; [auto|]. split; [auto|].
    destruct (edge_kinds _ _ _ _ _ D Hn e He) as [(k & l & El & ->)|[(E & (s & Es & _))|(Hs & Hc)]].
    - destruct (setup_fields ps at_ t I0 (proj1 (network_setup ps at_ t I0 HI))) as (_ & _ & _ & _ & Hself & _). cbn. eapply Hself; eauto.
    - rewrite E. intros F. rewrite <- F in Es. apply (proj1 Hn). exists s; assumption.
    - intros F. assert (N := Hn). destruct N as (_ & _ & N3 & _). apply (N3 _ Hc). now rewrite <- F. }
  destruct (prune_loops_ok _ _ _ Gr) as (fl & E & Wf & Def & Net & Val & _ & Acy). rewrite E. cbn [rbind].
  destruct (mapM_total (fun p : key3 * Q => if Nat.eqb (snd (fst p)) 0 then Ok (fst (fst p), snd p) else Err OptExn) (values v (v_tdm V))) as (l & El).
  { intros p Hp. unfold values in Hp. apply in_map_iff in Hp. destruct Hp as (((e & c) & x) & <- & Hin). cbn [fst snd].
    assert (Hk : In (e, c) (dkeys (v_tdm V))) by (apply in_map_iff; exists (e, c, x); auto). apply In_dkeys in Hk. destruct Hk as (y & Ey).
    destruct (tdm_get_inv _ _ _ _ _ D Hn V (ex_intro _ tk (conj Etk VT)) _ _ _ Ey) as (_ & _ & Hc). rewrite ch1 in Hc. destruct Hc as [<-|[]]. cbn. eauto. }
  unfold tdm_decisions. rewrite El. cbn [rbind]. eexists. exists (values v (v_flow V)). split; [reflexivity|]. cbn [fs_buffer fs_connected fs_flow].
  split; [reflexivity|]. split; [reflexivity|]. split; [exact Wf|]. split; [exact Def|]. split; [|split; [exact Acy|split; [exact Wd|split; [exact Kd|split; [exact Fv|exact Net]]]]].
  intros e He. destruct (Val e (flow v e) (Fv e He)) as (y & Ey & Hle & Hpos). exists y. split; [auto|]. split; [|auto]. apply Hpos. apply mflow_nonneg. now apply (D_links _ _ _ _ _ D).
Qed.
Lemma mreported o : extract_flow_solution red con t I0 v = Ok o ->
  fs_buffer o = v VBuffer /\ acyclic_above (fs_flow o) epsilon /\ (forall e, flow_edge at_ t e -> 0 <= carried o e <= flow v e) /\
  (forall n ei eo, into at_ t n ei -> out_of at_ t n eo -> total (carried o) ei - total (carried o) eo == total (flow v) ei - total (flow v) eo).
Proof.
  intros E. destruct mextract as (o' & d & E' & B & _ & Wf & Kf & Val & Acy & Wd & Kd & Vd & Net). rewrite E in E'. injection E' as <-.
  split; [exact B|]. split; [exact Acy|]. split.
  - intros e He. apply (D_links _ _ _ _ _ D) in He. destruct (Val e He) as (y & Ey & H). unfold carried. now rewrite Ey.
  - intros n ei eo Hi Ho. specialize (Net n). unfold net in Net.
    assert (TI : forall d', dwf d' -> (forall e, In e (dkeys d') <-> In e (i_links I)) -> inflow d' n == total (val d') ei).
    { intros d' W K. unfold inflow. rewrite (flows_val d' W (fun e => String.eqb (snd e) n)), <- total_filter. apply (lists_total (val d') _ _ (fun e => flow_edge at_ t e /\ snd e = n)); [|exact Hi].
      split; [apply NoDup_filter'; exact W|]. intros e. rewrite filter_In, K, (D_links _ _ _ _ _ D), String.eqb_eq. reflexivity. }
    assert (TO : forall d', dwf d' -> (forall e, In e (dkeys d') <-> In e (i_links I)) -> outflow d' n == total (val d') eo).
    { intros d' W K. unfold outflow. rewrite (flows_val d' W (fun e => String.eqb (fst e) n)), <- total_filter. apply (lists_total (val d') _ _ (fun e => flow_edge at_ t e /\ fst e = n)); [|exact Ho].
      split; [apply NoDup_filter'; exact W|]. intros e. rewrite filter_In, K, (D_links _ _ _ _ _ D), String.eqb_eq. reflexivity. }
    rewrite (TI d Wd Kd), (TO d Wd Kd), (TI _ Wf Kf), (TO _ Wf Kf) in Net.
    assert (Ev : forall es, (forall e, In e es -> In e (i_links I)) -> total (val d) es == total (flow v) es).
    { intros es Hes. apply total_ext. intros e He. unfold val. rewrite (Vd e (Hes e He)). reflexivity. }
    rewrite (Ev ei), (Ev eo) in Net; [|intros e He; apply (D_links _ _ _ _ _ D); now apply Ho|intros e He; apply (D_links _ _ _ _ _ D); now apply Hi].
    change (val (fs_flow o)) with (carried o) in Net. lra.
Qed.

Section Reported.
Variable o : flow_solution.
Hypothesis Ho : extract_flow_solution red con t I0 v = Ok o.
Lemma carried_range e : flow_edge at_ t e -> 0 <= carried o e <= flow v e.
Proof. destruct (mreported o Ho) as (_ & _ & R & _). apply R. Qed.
Lemma carried_total es : (forall e, In e es -> flow_edge at_ t e) -> 0 <= total (carried o) es <= total (flow v) es.
Proof.
  induction es as [|e es IH]; intros H; cbn [total]; [lra|]. assert (R := carried_range e (H e (or_introl eq_refl))).
  assert (S := IH (fun x Hx => H x (or_intror Hx))). lra.
Qed.
Lemma r_link k l : link_stored t k l -> 0 <= carried o (l_tx l, l_rx l) <= (if red (l_tx l, l_rx l) then 0 else a_cap at_ (l_tx l, l_rx l)) * (if l_wireless l then share v 0 (l_tx l, l_rx l) else 1).
Proof.
  intros El. assert (R := carried_range (l_tx l, l_rx l) ltac:(right; right; eauto)). change (if red (l_tx l, l_rx l) then 0 else a_cap at_ (l_tx l, l_rx l)) with (cap (l_tx l, l_rx l)). destruct (l_wireless l) eqn:W.
  - assert (F := mlink_flow k l El W). lra.
  - assert (F := mwired_flow k l El W). lra.
Qed.
Lemma r_unused k l : link_stored t k l -> ~ in_network (l_status l) \/ red (l_tx l, l_rx l) = true -> carried o (l_tx l, l_rx l) == 0.
Proof.
  intros El H. assert (R := carried_range (l_tx l, l_rx l) ltac:(right; right; eauto)).
  assert (F : flow v (l_tx l, l_rx l) == 0); [|lra]. destruct H as [H|H]; [|eapply mredundant; eauto]. eapply minactive; eauto; intros E; apply H; unfold in_network; auto.
Qed.
Lemma r_site i s es : dget (t_sites t) i = Some s -> ~ in_network (s_status s) -> into at_ t i es \/ out_of at_ t i es -> forall e, In e es -> carried o e == 0.
Proof.
  intros Es N Hes e He. assert (F : flow v e == 0) by (eapply msite_idle; eauto; intros E; apply N; unfold in_network; auto).
  assert (R := carried_range e). destruct Hes as [(_ & Hes)|(_ & Hes)]; apply Hes in He; destruct (R (proj1 He)); lra.
Qed.
Lemma r_conserves i ei eo : site_stored t i -> into at_ t i ei -> out_of at_ t i eo -> total (carried o) ei == total (carried o) eo.
Proof. intros Hs Hi Ho'. destruct (mreported o Ho) as (_ & _ & _ & N). assert (X := N i ei eo Hi Ho'). assert (Y := mconserves i ei eo Hs Hi Ho'). lra. Qed.
Lemma r_receives n ei : consumer at_ t n -> into at_ t n ei -> (In n con -> ei <> []) -> total (carried o) ei == if mem n con then fs_buffer o else 0.
Proof.
  intros Hc Hi Hne. destruct (mreported o Ho) as (B & _ & _ & N). rewrite B. assert (Hl : In n (i_locations I)) by (apply (D_locs _ _ _ _ _ D); auto).
  destruct (lists_out _ _ _ _ _ D n Hl) as (eo & _ & Heo). assert (X := N n ei eo Hi Heo). rewrite (out_consumer at_ t Hw Hn n eo Hc Heo) in X. cbn [total] in X.
  rewrite <- (mreceives n ei Hc Hi Hne). lra.
Qed.
Lemma total_same {A} (f g : A -> Q) l : (forall x, In x l -> f x == g x) -> total f l == total g l.
Proof. induction l as [|a l IH]; intros H; cbn [total]; [reflexivity|]. rewrite (H a (or_introl eq_refl)), IH; [reflexivity|]. intros x Hx. apply H. now right. Qed.
Lemma total_const {A} (p : A -> bool) c l : total (fun x => if p x then c else 0) l == inject_Z (Z.of_nat (List.length (filter p l))) * c.
Proof.
  induction l as [|a l IH]; cbn [total filter]; [change (inject_Z (Z.of_nat (List.length (@nil A)))) with 0; lra|]. rewrite IH. destruct (p a); cbn [List.length]; [|lra]. rewrite Nat2Z.inj_succ, <- Z.add_1_l, inject_Z_plus. change (inject_Z 1) with 1. lra.
Qed.
Lemma r_supply es cs : out_of at_ t SUPERSOURCE es -> lists cs (consumer at_ t) -> (forall n ei, In n con -> into at_ t n ei -> ei <> []) ->
  total (carried o) es == inject_Z (Z.of_nat (List.length (filter (fun n => mem n con) cs))) * fs_buffer o.
Proof.
  intros Hes Hcs Hne. destruct (mreported o Ho) as (B & _ & _ & N).
  set (feed := fun n => filter (fun e : edge => beq (snd e) n) (i_links I)).
  assert (Hfeed : forall n, into at_ t n (feed n)).
  { intros n. split; [apply NoDup_filter', (D_links_nd _ _ _ _ _ D)|]. intros e. unfold feed. rewrite filter_In, (D_links _ _ _ _ _ D), beq_eq. reflexivity. }
  assert (S := msupply es cs feed Hes Hcs (fun n _ => Hfeed n)).
  assert (X := N SUPERSOURCE [] es). assert (Z0 : into at_ t SUPERSOURCE []) by (assert (Y := into_super at_ t Hw Hn _ (Hfeed SUPERSOURCE)); rewrite <- Y; apply Hfeed).
  assert (X0 := X Z0 Hes). cbn [total] in X0. rewrite <- (total_const (fun n => mem n con) (fs_buffer o) cs).
  assert (T : total (fun n => total (flow v) (feed n)) cs == total (fun x => if mem x con then fs_buffer o else 0) cs).
  { apply total_same. intros n Hin. rewrite B. apply mreceives; [now apply Hcs|apply Hfeed|]. intros Hc. eapply Hne; eauto. }
  lra.
Qed.
Lemma r_pop i eo : 0 <= p_pop_capacity ps -> is_pop t i -> out_of at_ t i eo -> total (carried o) eo <= p_pop_capacity ps.
Proof. intros Hp Hi He. assert (A := mpop i eo Hp Hi He). assert (B := carried_total eo (fun e X => proj1 (proj1 (proj2 He e) X))). lra. Qed.
Lemma r_acyclic : acyclic_above (fs_flow o) epsilon.
Proof. destruct (mreported o Ho) as (_ & A & _). exact A. Qed.
End Reported.
End Flow.
