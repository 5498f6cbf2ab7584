(** C16-C19: the planning models. *)
From Coq Require Import QArith Lqa Lia Permutation.
From Verif Require Import Base Dict TopologyModel TopologySpec GraphSpec RfModel RfProofs SetupModel IlpModel IlpSpec QLib MonadLib SetupProofs IlpLemmas.
Local Open Scope Q_scope.

(** ** sums over the ends of edges *)
Lemma sum_by_end (f : edge -> Q) (g : edge -> string) locs es : NoDup locs -> (forall e, In e es -> In (g e) locs) ->
  total (fun loc => total f (filter (fun e => beq (g e) loc) es)) locs == total f es.
Proof.
  intros Hnd Hin. transitivity (total (fun e => total (fun loc => if beq (g e) loc then f e else 0) locs) es).
  - rewrite <- total_exchange. apply total_ext. intros loc _. apply total_filter.
  - apply total_ext. intros e He. apply total_pick; auto.
Qed.
Lemma total_split {A} (p : A -> bool) (f : A -> Q) l : total f l == total f (filter p l) + total f (filter (fun x => negb (p x)) l).
Proof. induction l as [|x l IH]; cbn; [lra|]. destruct (p x); cbn; rewrite IH; lra. Qed.

(** ** binary choices *)
Definition bin (q : Q) : Prop := q == 0 \/ q == 1.
Lemma at_most_one {A} (f : A -> Q) l x y : (forall z, In z l -> bin (f z)) -> NoDup l -> total f l <= 1 ->
  In x l -> In y l -> x <> y -> ~ (f x == 1 /\ f y == 1).
Proof.
  intros Hb Hnd Ht Hx Hy Hxy (H1 & H2).
  assert (Hpos : forall z, In z l -> 0 <= f z) by (intros z Hz; destruct (Hb z Hz); lra).
  destruct (in_split _ _ Hx) as (l1 & l2 & ->). apply NoDup_remove_2 in Hnd. rewrite total_app in Ht. cbn in Ht.
  assert (Hin : In y (l1 ++ l2)). { apply in_app_iff in Hy. apply in_app_iff. destruct Hy as [?|[?|?]]; [auto|congruence|auto]. }
  assert (Hm := total_member f (l1 ++ l2) y). rewrite total_app in Hm. rewrite H2 in Hm.
  assert (1 <= total f l1 + total f l2). { apply Hm; auto. intros z Hz. apply Hpos. apply in_app_iff in Hz. apply in_app_iff. cbn. tauto. }
  lra.
Qed.
Lemma exactly_one {A} (f : A -> Q) l : (forall z, In z l -> bin (f z)) -> total f l == 1 -> exists x, In x l /\ f x == 1.
Proof.
  induction l as [|x l IH]; cbn; intros Hb Ht; [lra|]. destruct (Hb x (or_introl eq_refl)) as [H|H]; [|eauto].
  destruct IH as (y & Hy & E); [auto|lra|eauto].
Qed.

Section Site.
Variables (ps : params) (at_ : attrs) (t : topo) (I0 : inst) (g : goal) (adv : list edge) (P : problem) (v : var -> Q).
Hypothesis Hw : well_formed t.
Hypothesis Hn : names_ok at_ t.
Hypothesis HI : network ps at_ t = Ok I0.
Hypothesis HP : site_problem g adv I0 = Ok P.
Hypothesis Hv : feasible P v.
Let I := with_channels 1 I0.

Lemma network_setup : setup ps at_ t = Ok I0 /\ check_pop_feasibility I0 = Ok tt.
Proof. assert (H := HI). unfold network in H. inv_do. subst. destruct x0. auto. Qed.
Lemma desc : describes ps at_ t (a_cap at_) I.
Proof. apply with_channels_describes, setup_describes; auto. apply network_setup. Qed.
Lemma max_val : exists thr, mapM (get (i_demand I)) (shortage_keys I) = Ok thr /\ i_max_throughput I = fold_left Qplus thr 0.
Proof.
  destruct (setup_fields ps at_ t I0 (proj1 network_setup)) as (thr & Ethr & Eep & Edem & Eself & Fps & Floc & Ftype & Fset & Fsecs & Fst & Fl2s & Fcap & Fdem & Fgeo & Fcol & Fwired & Fes & Fpsi & Fis & Fel & Fpl & Fil & Fpsec & Fcost & Fmax).
  exists thr. split; [|exact Fmax]. unfold shortage_keys. change (i_set I) with (i_set I0). change (i_locations I) with (i_locations I0). change (i_demand I) with (i_demand I0).
  now rewrite Fset, Floc.
Qed.
Lemma params_val : p_pop_capacity (i_params I) = p_pop_capacity ps /\ p_ignore_polarities (i_params I) = p_ignore_polarities ps /\
  p_always_active_pops (i_params I) = p_always_active_pops ps /\ p_budget (i_params I) = p_budget ps /\ p_coverage (i_params I) = p_coverage ps /\ p_capex (i_params I) = p_capex ps.
Proof. assert (F := i_params_eq ps at_ t I0 (proj1 network_setup)). unfold I, with_channels. cbn. rewrite F. repeat split; reflexivity. Qed.
Lemma channels_one : channels I = [0%nat]. Proof. reflexivity. Qed.

(** all the pieces *)
Lemma pieces : exists V ds sk tk ok c1 c2 c3 c4 c5 c6 c7 c8 c9 c10 c11 cx,
  site_decisions I = Ok sk /\ tdm_keys I = Ok tk /\ odd_keys I = Ok ok /\
  v_site V = dict_of (fresh VSite sk) /\ v_flow V = dict_of (fresh flow_var (flow_keys I)) /\ v_tdm V = dict_of (fresh tdm_var tk) /\
  v_odd V = dict_of (fresh VOdd ok) /\ v_short V = dict_of (fresh VShort (shortage_keys I)) /\
  (exists sec, site_sector_vars I (v_site V) = Ok sec /\ v_sector V = dict_of sec) /\
  site_decls I = Ok ds /\ (forall d, In d ds -> in_kind (v (fst d)) (snd d)) /\
  create_colocated_site_relationship I V = Ok c1 /\ (forall c, In c c1 -> sat v c) /\
  create_tdm_flow_relationship I V = Ok c2 /\ (forall c, In c c2 -> sat v c) /\
  create_tdm_sector_relationship I V = Ok c3 /\ (forall c, In c c3 -> sat v c) /\
  create_pop_load_constraints I V = Ok c4 /\ (forall c, In c c4 -> sat v c) /\
  create_flow_balance_with_shortage I V = Ok c5 /\ (forall c, In c c5 -> sat v c) /\
  create_flow_site_relationship I V = Ok c6 /\ (forall c, In c c6 -> sat v c) /\
  no_flow_on I V adv = Ok c7 /\ (forall c, In c c7 -> sat v c) /\
  create_tdm_polarity_relationship I V = Ok c8 /\ (forall c, In c c8 -> sat v c) /\
  create_decided_site_constraints I V = Ok c9 /\ (forall c, In c c9 -> sat v c) /\
  create_active_link_polarity_constraints I V = Ok c10 /\ (forall c, In c c10 -> sat v c) /\
  create_inactive_link_flow_constraints I V = Ok c11 /\ (forall c, In c c11 -> sat v c) /\
  goal_constraint g I V = Ok cx /\ (forall c, In c cx -> sat v c).
Proof.
  assert (H := HP). unfold site_problem in H. fold I in H.
  apply rbind_ok in H. destruct H as (V & EV & H). apply rbind_ok in H. destruct H as (ds & Eds & H).
  apply rbind_ok in H. destruct H as (cs & Ecs & H). apply rbind_ok in H. destruct H as (cx & Ecx & H). injection H as H.
  unfold site_tables in EV. apply rbind_ok in EV. destruct EV as (sk & Esk & EV). apply rbind_ok in EV. destruct EV as (sec & Esec & EV).
  apply rbind_ok in EV. destruct EV as (tk & Etk & EV). apply rbind_ok in EV. destruct EV as (ok & Eok & EV). injection EV as EV.
  unfold site_constraints in Ecs.
  apply rbind_ok in Ecs. destruct Ecs as (c1 & E1 & Ecs). apply rbind_ok in Ecs. destruct Ecs as (c2 & E2 & Ecs).
  apply rbind_ok in Ecs. destruct Ecs as (c3 & E3 & Ecs). apply rbind_ok in Ecs. destruct Ecs as (c4 & E4 & Ecs).
  apply rbind_ok in Ecs. destruct Ecs as (c5 & E5 & Ecs). apply rbind_ok in Ecs. destruct Ecs as (c6 & E6 & Ecs).
  apply rbind_ok in Ecs. destruct Ecs as (c7 & E7 & Ecs). apply rbind_ok in Ecs. destruct Ecs as (c8 & E8 & Ecs).
  apply rbind_ok in Ecs. destruct Ecs as (c9 & E9 & Ecs). apply rbind_ok in Ecs. destruct Ecs as (c10 & E10 & Ecs).
  apply rbind_ok in Ecs. destruct Ecs as (c11 & E11 & Ecs). injection Ecs as Ecs.
  destruct Hv as (Hd & Hc). rewrite <- H in Hd, Hc. cbn [decls constraints] in Hd, Hc.
  assert (Hc' : forall c, In c cs -> sat v c) by (intros c Hin; apply Hc, in_app_iff; auto).
  assert (Hx : forall c, In c cx -> sat v c) by (intros c Hin; apply Hc, in_app_iff; auto).
  rewrite <- Ecs in Hc'.
  exists V, ds, sk, tk, ok, c1, c2, c3, c4, c5, c6, c7, c8, c9, c10, c11, cx.
  assert (VS : v_site V = dict_of (fresh VSite sk)) by now rewrite <- EV.
  repeat match goal with |- _ /\ _ => split end; try assumption; try (now rewrite <- EV).
  - exists sec. rewrite VS. split; [exact Esec|now rewrite <- EV].
  - intros c Hin; apply Hc'; rewrite !in_app_iff; tauto.
  - intros c Hin; apply Hc'; rewrite !in_app_iff; tauto.
  - intros c Hin; apply Hc'; rewrite !in_app_iff; tauto.
  - intros c Hin; apply Hc'; rewrite !in_app_iff; tauto.
  - intros c Hin; apply Hc'; rewrite !in_app_iff; tauto.
  - intros c Hin; apply Hc'; rewrite !in_app_iff; tauto.
  - intros c Hin; apply Hc'; rewrite !in_app_iff; tauto.
  - intros c Hin; apply Hc'; rewrite !in_app_iff; tauto.
  - intros c Hin; apply Hc'; rewrite !in_app_iff; tauto.
  - intros c Hin; apply Hc'; rewrite !in_app_iff; tauto.
  - intros c Hin; apply Hc'; rewrite !in_app_iff; tauto.
Qed.
Ltac pcs := destruct pieces as (V & ds & sk & tk & ok & c1 & c2 & c3 & c4 & c5 & c6 & c7 & c8 & c9 & c10 & c11 & cx &
  Esk & Etk & Eok & VS & VF & VT & VO & VSh & (sec & Esec & VSec) & Eds & Hds & E1 & S1 & E2 & S2 & E3 & S3 & E4 & S4 & E5 & S5 & E6 & S6 & E7 & S7 & E8 & S8 & E9 & S9 & E10 & S10 & E11 & S11 & Ex & Sx).

(** ** the variables *)
Lemma real_location i : In i (i_locations I) -> forall sk, site_decisions I = Ok sk -> (In i sk <-> site_stored t i).
Proof.
  intros Hi sk E. destruct (filterM_ok _ _ _ E) as (_ & H & _). rewrite H. split.
  - intros (_ & Ht). inv_do. apply (D_type _ _ _ _ _ desc) in E0. destruct E0 as [(_ & ->)|[(s & Es & _)|(_ & ->)]]; try discriminate. now exists s.
  - intros (s & Es). split; [auto|]. unfold get. rewrite (D_site _ _ _ _ _ desc _ _ Es). reflexivity.
Qed.
Lemma site_location i : site_stored t i -> In i (i_locations I).
Proof. intros H. apply (D_locs _ _ _ _ _ desc). auto. Qed.
Lemma decls_all : (forall i, site_stored t i -> bin (v (VSite i))) /\ (forall e, flow_edge at_ t e -> 0 <= flow v e) /\
  (forall k l, link_stored t k l -> l_wireless l = true -> 0 <= share v 0 (l_tx l, l_rx l) <= 1) /\
  (forall i, p_ignore_polarities ps = false -> backhaul_site t i -> bin (v (VOdd i))) /\
  (forall n q, consumer at_ t n -> wants ps at_ t n q -> 0 <= v (VShort n) <= q).
Proof.
  pcs. unfold site_decls in Eds. rewrite Esk, Etk, Eok in Eds. cbn [rbind] in Eds. apply rbind_ok in Eds. destruct Eds as (sh & Esh & Eds). injection Eds as <-.
  split; [|split; [|split; [|split]]].
  - intros i Hi. apply (Hds (VSite i, Binary)). rewrite !in_app_iff. left. apply in_map_iff. exists i. split; [auto|]. apply (real_location i); auto. now apply site_location.
  - intros e He. apply (Hds (flow_var e, Continuous 0 None)). rewrite !in_app_iff. right; left. apply in_map_iff. exists e. split; [auto|]. now apply (D_links _ _ _ _ _ desc).
  - intros k l El W. apply (Hds (tdm_var ((l_tx l, l_rx l), 0%nat), Continuous 0 (Some 1))). rewrite !in_app_iff. right; right; left. apply in_map_iff.
    exists ((l_tx l, l_rx l), 0%nat). split; [auto|].
    assert (G := tdm_get _ _ _ _ _ desc Hw V (ex_intro _ tk (conj Etk VT)) k l 0%nat El W (or_introl eq_refl)). rewrite VT, fresh_get in G.
    destruct (mem _ tk) eqn:M in G; [now apply mem_In in M|discriminate].
  - intros i Hp (s & Es & Hty). apply (Hds (VOdd i, Binary)). rewrite !in_app_iff. right; right; right; left. apply in_map_iff. exists i. split; [auto|].
    unfold odd_keys in Eok. destruct params_val as (_ & Q & _). rewrite Q, Hp in Eok. destruct (filterM_ok _ _ _ Eok) as (_ & H & _). apply H.
    split; [apply site_location; now exists s|]. unfold get. rewrite (D_site _ _ _ _ _ desc _ _ Es). cbn. destruct Hty as [-> | ->]; reflexivity.
  - intros n q Hc (i & d & q0 & Ed & Hd & Eq0 & ->). destruct (D_demand _ _ _ _ _ desc n Hc) as (i' & d' & Ed' & Hd' & Edem).
    assert (i' = i) by (destruct Hn as (_ & _ & _ & Hu & _); eapply Hu; eauto). subst i'. rewrite Ed in Ed'. injection Ed' as <-.
    unfold demand_value in Edem. rewrite Eq0 in Edem.
    apply (Hds (VShort n, Continuous 0 (Some (q0 / p_oversubscription ps)))). rewrite !in_app_iff. right; right; right; right.
    unfold shortage_decls in Esh. assert (Hin : In n (shortage_keys I)).
    { unfold shortage_keys. apply filter_In. split; [apply (D_locs _ _ _ _ _ desc); auto|]. apply mem_In. now apply (D_dset _ _ _ _ _ desc). }
    destruct (mapM_In _ _ _ _ Esh Hin) as (y & Ey & Hy). unfold get in Ey. rewrite Edem in Ey. cbn in Ey. injection Ey as <-. exact Hy.
Qed.

(** ** C17 *)
Lemma sector_get k x : sector_stored t k x -> forall V sec, v_site V = dict_of (fresh VSite (match site_decisions I with Ok sk => sk | _ => [] end)) ->
  site_sector_vars I (v_site V) = Ok sec -> dget (dict_of sec) (x_site x, k, 0%nat) = Some (Var (VSite (x_site x))).
Proof.
  intros Hx V sec VS Esec. destruct (D_secs _ _ _ _ _ desc _ _ Hx) as (sl & Esl & Hin).
  assert (R : forall i y, dget (v_site V) i = Some y -> y = Var (VSite i)) by (intros i y; rewrite VS, fresh_get; destruct (mem _ _); congruence).
  unfold site_sector_vars in Esec. apply dict_of_value.
  - destruct (concatM_In _ _ _ (x_site x, sl) Esec) as (r & Er & Hr); [now apply dget_In|]. cbn [fst snd] in Er.
    destruct (concatM_In _ _ _ _ Er Hin) as (r1 & Er1 & Hr1). unfold get at 1 in Er1. rewrite (D_sectype _ _ _ _ _ desc _ _ Hx) in Er1. cbn [rbind] in Er1.
    apply Hr, Hr1. destruct (k_cn (x_key x)); cbn [imaginary_sec] in Er1; inv_do; apply R in E; subst; now left.
  - intros y Hy. destruct (concatM_inv _ _ _ _ Esec Hy) as ((loc & l') & r & _ & Er & Hin1). cbn [fst snd] in Er.
    destruct (concatM_inv _ _ _ _ Er Hin1) as (a & r1 & _ & Er1 & Hin2). inv_do. destruct (imaginary_sec x0); inv_do; subst r1; [contradiction|].
    destruct Hin2 as [E2|[]]. apply R in E0. congruence.
Qed.
Lemma sector_share k x es : sector_stored t k x -> lists es (sends t x) \/ lists es (receives t x) ->
  total (share v 0) es <= v (VSite (x_site x)) /\ bin (v (VSite (x_site x))).
Proof.
  intros Hx Hes. destruct decls_all as (B & _). assert (Hst : site_stored t (x_site x)) by (destruct Hw as (_ & _ & _ & _ & _ & _ & _ & C); now apply (C _ _ Hx)).
  split; [|now apply B]. pcs.
  assert (G := sector_get k x Hx V sec). rewrite Esk in G. specialize (G VS Esec).
  refine (tdm_sector_sat _ _ _ _ _ desc Hw Hn V (ex_intro _ tk (conj Etk VT)) v c3 k x 0%nat (Var (VSite (x_site x))) es E3 S3 (or_introl eq_refl) (or_introl eq_refl) Hx _ _ Hes).
  - now rewrite VSec.
  - cbn. destruct (B _ Hst); lra.
Qed.
Lemma link_flow k l : link_stored t k l -> l_wireless l = true -> 0 <= flow v (l_tx l, l_rx l) <= a_cap at_ (l_tx l, l_rx l) * share v 0 (l_tx l, l_rx l).
Proof.
  intros El W. split; [apply decls_all; right; right; eauto|]. pcs.
  assert (G := tdm_flow_sat _ _ _ _ _ desc Hw Hn V VF (ex_intro _ tk (conj Etk VT)) v c2 k l E2 S2 (or_introl eq_refl) El W).
  rewrite channels_one in G. cbn in G. unfold share. cbn. lra.
Qed.
Lemma sector_throughput k x es best : sector_stored t k x -> lists es (sends t x) \/ lists es (receives t x) -> 0 <= best ->
  (forall e, In e es -> a_cap at_ e <= best) -> total (flow v) es <= best * v (VSite (x_site x)).
Proof.
  intros Hx Hes Hb Hcap. destruct (sector_share k x es Hx Hes) as (Hs & _).
  apply Qle_trans with (total (fun e => best * share v 0 e) es).
  - apply total_le. intros e He. assert (L : exists k l, link_stored t k l /\ l_wireless l = true /\ e = (l_tx l, l_rx l)).
    { destruct Hes as [(_ & H)|(_ & H)]; apply H in He; destruct He as (k' & l & a & b & ? & ? & ? & ? & ? & ?); eauto. }
    destruct L as (k' & l & El & W & ->). destruct (link_flow k' l El W) as (_ & F). destruct decls_all as (_ & _ & B & _). specialize (B k' l El W).
    specialize (Hcap _ He). nra.
  - rewrite total_scale. nra.
Qed.
(** the end of a wireless link with time to itself is in use *)
(** ** C16 *)
Lemma odd_get i : p_ignore_polarities ps = false -> backhaul_site t i -> forall ok, odd_keys I = Ok ok -> dget (dict_of (fresh VOdd ok)) i = Some (Var (VOdd i)).
Proof.
  intros Hp (s & Es & Hty) ok Eok. rewrite fresh_get. assert (M : mem i ok = true); [|now rewrite M]. apply mem_In.
  unfold odd_keys in Eok. destruct params_val as (_ & Q & _). rewrite Q, Hp in Eok. destruct (filterM_ok _ _ _ Eok) as (_ & H & _). apply H.
  split; [apply site_location; now exists s|]. unfold get. rewrite (D_site _ _ _ _ _ desc _ _ Es). cbn. destruct Hty as [-> | ->]; reflexivity.
Qed.
Lemma opposite_polarity k l : p_ignore_polarities ps = false -> link_stored t k l -> l_wireless l = true ->
  backhaul_site t (l_tx l) -> backhaul_site t (l_rx l) ->
  0 < flow v (l_tx l, l_rx l) \/ 0 < share v 0 (l_tx l, l_rx l) \/ l_status l = PROPOSED \/ l_status l = EXISTING ->
  opposite v (l_tx l) (l_rx l).
Proof.
  intros Hp El W Bt Br Hact. destruct decls_all as (_ & _ & Bs & Bo & _). assert (Ot := Bo _ Hp Bt). assert (Or := Bo _ Hp Br). specialize (Bs k l El W).
  pcs. destruct params_val as (_ & Q & _). unfold opposite.
  assert (Hl : In (l_tx l, l_rx l) (i_links I)) by (eapply link_in; eauto; apply desc).
  assert (Ac := D_alinks _ _ _ _ _ desc (l_tx l, l_rx l)).
  destruct (mem (l_tx l, l_rx l) (i_proposed_links I ++ i_existing_links I)) eqn:M.
  - clear Hact. unfold create_active_link_polarity_constraints in E10. rewrite Q, Hp in E10. injection E10 as E10.
    assert (C : In (Eq (Var (VOdd (l_tx l))) (Sub (Cst 1) (Var (VOdd (l_rx l))))) c10).
    { rewrite <- E10. apply in_flat_map. exists (l_tx l, l_rx l). split; [exact Hl|].
      apply mem_In in M. apply in_app_iff in M. replace (mem _ (i_proposed_links I) || mem _ (i_existing_links I)) with true
        by (symmetry; apply orb_true_iff; rewrite !mem_In; tauto).
      cbn [fst snd]. rewrite VO, (odd_get _ Hp Bt ok Eok), (odd_get _ Hp Br ok Eok). now left. }
    specialize (S10 _ C). cbn in S10. destruct Ot as [Ot|Ot], Or as [Or|Or]; try (exfalso; lra); [right|left]; split; lra.
  - assert (Hs : 0 < share v 0 (l_tx l, l_rx l)).
    { destruct Hact as [Hf|[Hs|Hst]]; [|exact Hs|].
      - destruct (link_flow k l El W) as (_ & F). destruct (Qlt_le_dec 0 (share v 0 (l_tx l, l_rx l))) as [?|Hle]; [auto|].
        assert (Z : share v 0 (l_tx l, l_rx l) == 0) by lra. rewrite Z in F. lra.
      - exfalso. apply mem_not_In in M. apply M, Ac. exists k, l. auto. }
    unfold create_tdm_polarity_relationship in E8. rewrite Q, Hp in E8. destruct (concatM_In _ _ _ _ E8 Hl) as (r & Er & Hr).
    rewrite M in Er. rewrite (D_wired _ _ _ _ _ desc _ _ El), W in Er. cbn [negb] in Er.
    destruct Bt as (st & Est & Tt). destruct Br as (sr & Esr & Tr). unfold get at 1 2 in Er. cbn [fst snd] in Er.
    rewrite (D_site _ _ _ _ _ desc _ _ Est), (D_site _ _ _ _ _ desc _ _ Esr) in Er. cbn [rbind] in Er.
    replace (dist (Real (s_type st)) && dist (Real (s_type sr))) with true in Er by (destruct Tt as [-> | ->], Tr as [-> | ->]; reflexivity).
    inv_do. assert (T := tdm_sum_val _ _ _ _ _ desc Hn V (ex_intro _ tk (conj Etk VT)) v k l x El E). rewrite channels_one in T. cbn [total] in T.
    rewrite VO in *. rewrite (odd_get (l_tx l) Hp (ex_intro _ st (conj Est Tt)) ok Eok) in E0. rewrite (odd_get (l_rx l) Hp (ex_intro _ sr (conj Esr Tr)) ok Eok) in E12.
    injection E0 as <-. injection E12 as <-. subst r. assert (A := S8 _ (Hr _ (or_introl eq_refl))). assert (B := S8 _ (Hr _ (or_intror (or_introl eq_refl)))).
    cbn in A, B. unfold share in Hs. cbn in Hs. destruct Ot as [Ot|Ot], Or as [Or|Or]; try (exfalso; lra); [right|left]; split; lra.
Qed.
(** ** C18 *)
Lemma short_get n x : forall V, v_short V = dict_of (fresh VShort (shortage_keys I)) -> dget (v_short V) n = Some x -> x = Var (VShort n).
Proof. intros V ->. rewrite fresh_get. destruct (mem _ _); congruence. Qed.
Lemma shortage_keys_lists : lists (shortage_keys I) (consumer at_ t).
Proof.
  split; [apply NoDup_filter', (D_locs_nd _ _ _ _ _ desc)|]. intros n. unfold shortage_keys. rewrite filter_In, mem_In, (D_dset _ _ _ _ _ desc), (D_locs _ _ _ _ _ desc). tauto.
Qed.
Lemma wants_value n d q : consumer at_ t n -> dget (i_demand I) n = Some d -> wants ps at_ t n q -> d = q.
Proof.
  intros Hc E (i & d0 & q0 & Ed & Hd & Eq0 & ->). destruct (D_demand _ _ _ _ _ desc n Hc) as (i' & d' & Ed' & Hd' & Edem).
  assert (i' = i) by (destruct Hn as (_ & _ & _ & Hu & _); eapply Hu; eauto). subst i'. rewrite Ed in Ed'. injection Ed' as <-.
  unfold demand_value in Edem. rewrite Eq0 in Edem. congruence.
Qed.
Lemma total_demand dem : (forall n, consumer at_ t n -> wants ps at_ t n (dem n)) -> i_max_throughput I == total dem (shortage_keys I).
Proof.
  intros Hd. destruct max_val as (thr & E & ->). rewrite fold_plus.
  rewrite (mapM_eq _ dem _ _ E).
  - rewrite total_map. change (fun x : string => dem x) with dem. lra.
  - intros n y Hin Hy. apply get_ok in Hy. apply shortage_keys_lists in Hin. eapply wants_value; eauto.
Qed.
(** the net flow at each kind of location *)
Lemma balance loc ei eo : In loc (i_locations I) -> into at_ t loc ei -> out_of at_ t loc eo -> (ei <> [] \/ eo <> []) ->
  forall dem, (forall n, consumer at_ t n -> wants ps at_ t n (dem n)) ->
  total (flow v) ei - total (flow v) eo ==
    (if beq loc SUPERSOURCE then - total (fun n => dem n - v (VShort n)) (shortage_keys I)
     else if mem loc (shortage_keys I) then dem loc - v (VShort loc) else 0).
Proof.
  intros Hloc Hi Ho Hne dem Hd. pcs. destruct (concatM_In _ _ _ _ E5 Hloc) as (r & Er & Hr). apply rbind_ok in Er. destruct Er as (o & Eo & Er).
  apply rbind_ok in Er. destruct Er as (rhs & Erhs & Er). injection Er as <-.
  destruct (net_flow_val _ _ _ _ _ desc V VF v loc o ei eo Eo Hi Ho) as (A & B).
  destruct o as [x|]; [|destruct (B eq_refl); destruct Hne; contradiction].
  cbn [or_zero] in A. assert (S := S5 _ (Hr _ (or_introl eq_refl))). cbn [sat] in S. rewrite <- A, S.
  unfold balance_rhs in Erhs. apply rbind_ok in Erhs. destruct Erhs as (ty & Ety & Erhs). apply get_ok in Ety.
  destruct (beq_spec loc SUPERSOURCE) as [->|Hns].
  - rewrite (D_super _ _ _ _ _ desc) in Ety. injection Ety as <-. inv_do. subst rhs. cbn [eval]. rewrite eval_xsum.
    rewrite (mapM_eq _ (fun n => Var (VShort n)) _ _ E).
    + rewrite total_map, total_sub. assert (T := total_demand dem Hd). change (fun x => dem x) with dem. change (fun x => eval v (Var (VShort x))) with (fun n => v (VShort n)). change (i_max_throughput I0) with (i_max_throughput I). lra.
    + intros n y _ Hy. apply get_ok in Hy. eapply short_get; eauto.
  - apply (D_type _ _ _ _ _ desc) in Ety. destruct Ety as [(-> & _)|[(s & Es & ->)|(Hc & ->)]]; [contradiction| |].
    + assert (M : mem loc (shortage_keys I) = false).
      { apply mem_not_In. intros Hin. apply shortage_keys_lists in Hin. destruct Hn as (_ & _ & N3 & _). apply (N3 _ Hin). now exists s. }
      rewrite M. injection Erhs as <-. cbn. lra.
    + assert (M : mem loc (shortage_keys I) = true) by (apply mem_In; now apply shortage_keys_lists). rewrite M. inv_do. subst rhs.
      cbn [eval]. rewrite (wants_value loc x0 (dem loc) Hc E (Hd _ Hc)). rewrite (short_get loc x1 V VSh E0). cbn. lra.
Qed.
Lemma into_super es : into at_ t SUPERSOURCE es -> es = [].
Proof.
  intros (_ & H). destruct es as [|e es]; [auto|]. exfalso. destruct (proj1 (H e) (or_introl eq_refl)) as (He & E).
  destruct Hn as (N1 & N2 & _). destruct He as [(_ & s & Es & _)|[(i & d & Ed & _ & Hc)|(k & l & El & ->)]].
  - apply N1. rewrite E in Es. now exists s.
  - apply N2. rewrite E in Hc. exists i, d. auto.
  - cbn in E. apply N1. rewrite <- E. now destruct (link_sites t Hw _ _ El).
Qed.
Lemma out_consumer n es : consumer at_ t n -> out_of at_ t n es -> es = [].
Proof.
  intros Hc (_ & H). destruct es as [|e es]; [auto|]. exfalso. destruct (proj1 (H e) (or_introl eq_refl)) as (He & E).
  destruct Hn as (N1 & N2 & N3 & _ & N5). destruct He as [(Ef & _)|[(i & d & Ed & Hin & _)|(k & l & El & ->)]].
  - apply N2. now rewrite <- Ef, E.
  - apply (N3 n Hc). rewrite <- E. eapply N5; eauto.
  - cbn in E. apply (N3 n Hc). rewrite <- E. now destruct (link_sites t Hw _ _ El).
Qed.
Lemma pop_exists : exists i, is_pop t i.
Proof.
  destruct network_setup as (Hs & Hc). unfold check_pop_feasibility in Hc. destruct (i_set I0 (Real POP)) as [|i l] eqn:E; [discriminate|].
  exists i. apply (D_rset _ _ _ _ _ desc POP i). change (i_set I) with (i_set I0). rewrite E. now left.
Qed.
Lemma super_out_nonempty es : out_of at_ t SUPERSOURCE es -> es <> [].
Proof.
  intros (_ & H) ->. destruct pop_exists as (i & Hp). destruct (H (SUPERSOURCE, i)) as (_ & G). apply G. split; [left; auto|auto].
Qed.
Lemma super_location : In SUPERSOURCE (i_locations I).
Proof. apply (D_locs _ _ _ _ _ desc). auto. Qed.
Lemma super_outflow es cs dem : out_of at_ t SUPERSOURCE es -> lists cs (consumer at_ t) ->
  (forall n, consumer at_ t n -> wants ps at_ t n (dem n)) ->
  total (flow v) es == total (fun n => dem n - v (VShort n)) cs.
Proof.
  intros Hes Hcs Hd. destruct (lists_in _ _ _ _ _ desc SUPERSOURCE super_location) as (ei & _ & Hi).
  assert (B := balance _ _ _ super_location Hi Hes (or_intror (super_out_nonempty _ Hes)) dem Hd). rewrite beq_refl in B.
  rewrite (into_super _ Hi) in B. cbn [total] in B.
  rewrite (lists_total (fun n => dem n - v (VShort n)) cs _ _ Hcs shortage_keys_lists). lra.
Qed.
Lemma dem_exists : exists dem, forall n, consumer at_ t n -> wants ps at_ t n (dem n).
Proof.
  exists (fun n => match dget (i_demand I) n with Some q => q | None => 0 end). intros n Hc.
  destruct (D_demand _ _ _ _ _ desc n Hc) as (i' & d & Ed & Hd & E). rewrite E.
  destruct (setup_fields ps at_ t I0 (proj1 network_setup)) as (thr & _ & _ & Edem & _). specialize (Edem _ _ Ed).
  unfold check_demand in Edem. unfold demand_value. destruct (a_demand at_ (d_id d)) as [q0|] eqn:Eq; [|discriminate]. exists i', d, q0. auto.
Qed.
Lemma site_conserves i ei eo : site_stored t i -> into at_ t i ei -> out_of at_ t i eo -> total (flow v) ei == total (flow v) eo.
Proof.
  intros Hs Hi Ho. assert (Hns : beq i SUPERSOURCE = false) by (apply beq_neq; eapply site_not_super; eauto).
  assert (M : mem i (shortage_keys I) = false) by (apply mem_not_In; intros Hin; apply shortage_keys_lists in Hin; destruct Hn as (_ & _ & N3 & _); exact (N3 _ Hin Hs)).
  destruct dem_exists as (dem & Hde). assert (B := balance i ei eo (site_location _ Hs) Hi Ho). rewrite Hns, M in B.
  assert (C : (ei = [] /\ eo = []) \/ (ei <> [] \/ eo <> [])).
  { destruct ei; [destruct eo; [auto|right; right; discriminate]|right; left; discriminate]. }
  destruct C as [(-> & ->)|C]; [reflexivity|]. specialize (B C dem Hde). lra.
Qed.
Lemma pop_load i eo : 0 <= p_pop_capacity ps -> is_pop t i -> out_of at_ t i eo -> total (flow v) eo <= p_pop_capacity ps.
Proof.
  intros Hpos Hp Ho. pcs. destruct params_val as (Q & _). rewrite <- Q in *.
  exact (pop_load_sat _ _ _ _ _ desc V VF v c4 i eo E4 S4 Hpos Hp Ho).
Qed.
(** what a consumer receives *)
Lemma consumer_receives n ei dem : (forall n, consumer at_ t n -> wants ps at_ t n (dem n)) -> consumer at_ t n -> into at_ t n ei ->
  total (flow v) ei == dem n - v (VShort n).
Proof.
  intros Hd Hc Hi.
  (* sum the net flow over all locations *)
  set (fin := fun loc => filter (fun e : edge => beq (snd e) loc) (i_links I)).
  set (fout := fun loc => filter (fun e : edge => beq (fst e) loc) (i_links I)).
  assert (Fin : forall loc, into at_ t loc (fin loc)).
  { intros loc. split; [apply NoDup_filter', (D_links_nd _ _ _ _ _ desc)|]. intros e. unfold fin. rewrite filter_In, (D_links _ _ _ _ _ desc).
    split; intros [? H]; split; auto; [now apply beq_true in H|subst; apply beq_refl]. }
  assert (Fout : forall loc, out_of at_ t loc (fout loc)).
  { intros loc. split; [apply NoDup_filter', (D_links_nd _ _ _ _ _ desc)|]. intros e. unfold fout. rewrite filter_In, (D_links _ _ _ _ _ desc).
    split; intros [? H]; split; auto; [now apply beq_true in H|subst; apply beq_refl]. }
  set (net := fun loc => total (flow v) (fin loc) - total (flow v) (fout loc)).
  assert (Sum : total net (i_locations I) == 0).
  { unfold net. rewrite total_sub. unfold fin, fout. rewrite !sum_by_end; try apply (D_locs_nd _ _ _ _ _ desc); try (intros e He; apply (D_ends _ _ _ _ _ desc e He)). lra. }
  (* consumers: net is at most the served demand, and equal if they have edges *)
  set (served := fun loc => dem loc - v (VShort loc)).
  assert (Pos : forall n, consumer at_ t n -> 0 <= served n).
  { intros m Hm. destruct decls_all as (_ & _ & _ & _ & B). specialize (B m (dem m) Hm (Hd m Hm)). unfold served. lra. }
  assert (Cons : forall m, consumer at_ t m -> net m == served m \/ (fin m = [] /\ net m == 0)).
  { intros m Hm. assert (Hloc : In m (i_locations I)) by (apply (D_locs _ _ _ _ _ desc); auto). unfold net.
    assert (Fo := out_consumer m (fout m) Hm (Fout m)). assert (Ho := Fout m). rewrite Fo in *. clear Fo.
    assert (B := balance m (fin m) [] Hloc (Fin m) Ho). assert (Cs : fin m = [] \/ fin m <> []) by (destruct (fin m); [auto|right; discriminate]).
    destruct Cs as [Cs|Cs]; [right; split; [exact Cs|rewrite Cs; cbn; lra]|]. left. specialize (B (or_introl Cs) dem Hd).
    assert (Ms : mem m (shortage_keys I) = true) by (apply mem_In; now apply shortage_keys_lists). rewrite Ms in B.
    destruct (beq_spec m SUPERSOURCE) as [->|_]; [exfalso; now apply (proj1 (proj2 Hn))|exact B]. }
  assert (Key : total (fun m => served m - net m) (shortage_keys I) == 0).
  { assert (Split := total_split (fun loc => mem loc (shortage_keys I)) net (i_locations I)). rewrite Sum in Split.
    assert (P1 : total net (filter (fun loc => mem loc (shortage_keys I)) (i_locations I)) == total net (shortage_keys I)).
    { apply (lists_total net _ _ (consumer at_ t)); [|apply shortage_keys_lists]. split; [apply NoDup_filter', (D_locs_nd _ _ _ _ _ desc)|].
      intros m. rewrite filter_In, mem_In, (proj2 shortage_keys_lists m), (D_locs _ _ _ _ _ desc). tauto. }
    assert (P2 : total net (filter (fun loc => negb (mem loc (shortage_keys I))) (i_locations I)) == net SUPERSOURCE).
    { rewrite (total_ext net (fun loc => if beq SUPERSOURCE loc then net SUPERSOURCE else 0)).
      - apply total_pick; [apply NoDup_filter', (D_locs_nd _ _ _ _ _ desc)|]. apply filter_In. split; [apply super_location|]. apply negb_true_iff, mem_not_In.
        intros Hin. apply shortage_keys_lists in Hin. now apply (proj1 (proj2 Hn)).
      - intros loc Hin. apply filter_In in Hin. destruct Hin as (Hloc & Hm). apply negb_true_iff, mem_not_In in Hm.
        destruct (beq_spec SUPERSOURCE loc) as [<-|Hne]; [reflexivity|]. apply (D_locs _ _ _ _ _ desc) in Hloc. destruct Hloc as [E|[Hs|Hcc]]; [congruence| |].
        + unfold net. rewrite (site_conserves loc (fin loc) (fout loc) Hs (Fin loc) (Fout loc)). lra.
        + exfalso. apply Hm. now apply shortage_keys_lists. }
    assert (P3 : net SUPERSOURCE == - total served (shortage_keys I)).
    { unfold net. rewrite (super_outflow (fout SUPERSOURCE) (shortage_keys I) dem (Fout _) shortage_keys_lists Hd). rewrite (into_super _ (Fin SUPERSOURCE)).
      cbn. unfold served. lra. }
    rewrite total_sub. rewrite P1, P2, P3 in Split. lra. }
  assert (Z := total_zero (fun m => served m - net m) (shortage_keys I)).
  assert (G : served n - net n == 0).
  { apply Z; [|exact Key|now apply shortage_keys_lists]. intros m Hm. apply shortage_keys_lists in Hm. specialize (Pos m Hm).
    destruct (Cons m Hm) as [E|(_ & E)]; lra. }
  unfold net in G. rewrite (out_consumer n (fout n) Hc (Fout n)) in G. cbn [total] in G.
  rewrite (lists_total (flow v) ei (fin n) _ Hi (Fin n)). unfold served in G. lra.
Qed.

(** ** C19 *)
Lemma site_get i x : forall V sk, site_decisions I = Ok sk -> v_site V = dict_of (fresh VSite sk) -> dget (v_site V) i = Some x -> x = Var (VSite i).
Proof. intros V sk _ ->. rewrite fresh_get. destruct (mem _ _); congruence. Qed.
Lemma sites_sum V sk locs xs : site_decisions I = Ok sk -> v_site V = dict_of (fresh VSite sk) -> mapM (get (v_site V)) locs = Ok xs ->
  eval v (xsum xs) == total (fun i => v (VSite i)) locs.
Proof.
  intros Esk VS E. rewrite eval_xsum, (mapM_eq _ (fun i => Var (VSite i)) _ _ E).
  - rewrite total_map. reflexivity.
  - intros i y _ Hy. apply get_ok in Hy. eapply site_get; eauto.
Qed.
Lemma colocated_exclusive i j si sj : dget (t_sites t) i = Some si -> dget (t_sites t) j = Some sj -> i <> j -> s_loc si = s_loc sj ->
  ~ (selected v i /\ selected v j).
Proof.
  intros Ei Ej Hij Hloc. destruct (D_col_dom _ _ _ _ _ desc i si Ei) as (locs & El). assert (L := D_col _ _ _ _ _ desc _ _ El).
  assert (Hi : In i locs) by (apply L; eauto). assert (Hj : In j locs) by (apply L; exists sj; auto).
  pcs. assert (Hin : In locs (dvals (i_colocated I))) by (apply In_dvals; [apply (D_col_wf _ _ _ _ _ desc)|eauto]).
  destruct (concatM_In _ _ _ _ E1 Hin) as (r & Er & Hr).
  assert (Hb : forall z, In z locs -> bin (v (VSite z))) by (intros z Hz; apply L in Hz; destruct Hz as (s & Es & _); apply decls_all; now exists s).
  assert (Hle : total (fun i => v (VSite i)) locs <= 1).
  { unfold colocated_group in Er. destruct locs as [|a [|b locs]]; [contradiction|destruct Hi as [<-|[]]; destruct Hj as [<-|[]]; contradiction|].
    apply rbind_ok in Er. destruct Er as (xs & Exs & Er). rewrite <- (sites_sum V sk _ xs Esk VS Exs).
    destruct (filter _ _) as [|h here] in Er.
    - injection Er as <-. exact (S1 _ (Hr _ (or_introl eq_refl))).
    - inv_do. subst r. assert (S := S1 _ (Hr _ (or_introl eq_refl))). cbn [sat eval] in S. lra. }
  apply (at_most_one (fun i => v (VSite i)) locs i j Hb (proj1 L) Hle Hi Hj Hij).
Qed.
Lemma in_use_iff i s : dget (t_sites t) i = Some s -> (In i (input_active_sites I) <-> in_use ps t i s).
Proof.
  intros Es. unfold input_active_sites, in_use. rewrite !in_app_iff. rewrite (D_ps _ _ _ _ _ desc), (D_es _ _ _ _ _ desc). destruct params_val as (_ & _ & Q & _). rewrite Q.
  assert (F : In i (flat_map (fun e => [fst e; snd e]) (i_proposed_links I ++ i_existing_links I)) <->
    exists k l, link_stored t k l /\ touches l i /\ (l_status l = PROPOSED \/ l_status l = EXISTING)).
  { rewrite in_flat_map. split.
    - intros (e & He & Hin). apply (D_alinks _ _ _ _ _ desc) in He. destruct He as (k & l & El & -> & Hst). exists k, l. split; [auto|]. split; [|auto].
      destruct Hin as [<-|[<-|[]]]; [now left|now right].
    - intros (k & l & El & Ht & Hst). exists (l_tx l, l_rx l). split; [apply (D_alinks _ _ _ _ _ desc); exists k, l; auto|]. destruct Ht as [<-|<-]; cbn; auto. }
  rewrite F.
  assert (G : In i (if p_always_active_pops ps then filter (fun i => mem i (i_set I (Real POP)) && negb (mem i (i_inactive_sites I))) (i_locations I) else []) <->
    p_always_active_pops ps = true /\ s_type s = POP /\ s_status s <> UNAVAILABLE /\ s_status s <> UNREACHABLE).
  { destruct (p_always_active_pops ps); [|split; [contradiction|intros (? & _); discriminate]].
    rewrite filter_In, andb_true_iff, mem_In, (D_rset _ _ _ _ _ desc), negb_true_iff, mem_not_In, (D_is _ _ _ _ _ desc). split.
    - intros (_ & (s' & Es' & Ht) & Hni). rewrite Es in Es'. injection Es' as <-. repeat split; auto; intros E; apply Hni; exists s; auto.
    - intros (_ & Ht & H1 & H2). split; [apply site_location; now exists s|]. split; [eauto|]. intros (s' & Es' & Hst). rewrite Es in Es'. injection Es' as <-. tauto. }
  rewrite G. split.
  - intros [(s' & Es' & H)|[(s' & Es' & H)|[H|H]]]; auto; rewrite Es in Es'; injection Es' as <-; auto.
  - intros [H|[H|[H|H]]]; [left; eauto|right; left; eauto|auto|auto].
Qed.
Lemma max_site_type_ge l ty : In (Real ty) l -> (rank ty <= rank (max_site_type l))%nat.
Proof.
  unfold max_site_type. assert (G : forall l m, (rank m <= rank (fold_left (fun m ty => match ty with Real DN => match m with POP => POP | _ => DN end | Real POP => POP | _ => m end) l m))%nat /\
    (In (Real ty) l -> (rank ty <= rank (fold_left (fun m ty => match ty with Real DN => match m with POP => POP | _ => DN end | Real POP => POP | _ => m end) l m))%nat)).
  { clear l. induction l as [|a l IH]; intros m; [split; [auto|contradiction]|]. cbn [fold_left]. destruct (IH (match a with Real DN => match m with POP => POP | _ => DN end | Real POP => POP | _ => m end)) as (H1 & H2).
    split.
    - eapply Nat.le_trans; [|exact H1]. destruct a as [[]| |], m; cbn; lia.
    - intros [->|Hin]; [|auto]. eapply Nat.le_trans; [|exact H1]. destruct ty, m; cbn; lia. }
  apply G.
Qed.
Lemma max_site_type_in l : max_site_type l = CN \/ In (Real (max_site_type l)) l.
Proof.
  unfold max_site_type. assert (G : forall l m, fold_left (fun m ty => match ty with Real DN => match m with POP => POP | _ => DN end | Real POP => POP | _ => m end) l m = m \/
    In (Real (fold_left (fun m ty => match ty with Real DN => match m with POP => POP | _ => DN end | Real POP => POP | _ => m end) l m)) l).
  { clear l. induction l as [|a l IH]; intros m; [auto|]. cbn [fold_left]. destruct (IH (match a with Real DN => match m with POP => POP | _ => DN end | Real POP => POP | _ => m end)) as [E|Hin]; [|right; now right].
    rewrite E. destruct a as [[]| |], m; cbn; auto. }
  apply G.
Qed.
(** a co-located group in use: exactly one of its sites is selected, of no lower type *)
Lemma colocated_kept i s : dget (t_sites t) i = Some s -> in_use ps t i s ->
  (exists j sj, dget (t_sites t) j = Some sj /\ s_loc sj = s_loc s /\ i <> j) ->
  exists j sj, dget (t_sites t) j = Some sj /\ s_loc sj = s_loc s /\ selected v j /\
    (rank (s_type s) <= rank (s_type sj))%nat /\ (s_type sj = s_type s -> in_use ps t j sj) /\ (s_type s <> CN -> in_use ps t j sj).
Proof.
  intros Ei Hu (i2 & s2 & E2' & Hl2 & Hne). destruct (D_col_dom _ _ _ _ _ desc i s Ei) as (locs & El). assert (L := D_col _ _ _ _ _ desc _ _ El).
  assert (Hi : In i locs) by (apply L; eauto). assert (Hi2 : In i2 locs) by (apply L; eauto).
  pcs. assert (Hin : In locs (dvals (i_colocated I))) by (apply In_dvals; [apply (D_col_wf _ _ _ _ _ desc)|eauto]).
  destruct (concatM_In _ _ _ _ E1 Hin) as (r & Er & Hr).
  assert (Hb : forall z, In z locs -> bin (v (VSite z))) by (intros z Hz; apply L in Hz; destruct Hz as (s' & Es' & _); apply decls_all; now exists s').
  unfold colocated_group in Er. destruct locs as [|a [|b locs]]; [contradiction|destruct Hi as [<-|[]]; destruct Hi2 as [<-|[]]; contradiction|].
  remember (a :: b :: locs)%list as ls eqn:Els. clear Els. apply rbind_ok in Er. destruct Er as (xs & Exs & Er).
  assert (Hact : In i (filter (fun l => mem l ls) (input_active_sites I))).
  { apply filter_In. split; [now apply (in_use_iff i s Ei)|now apply mem_In]. }
  destruct (filter (fun l => mem l ls) (input_active_sites I)) as [|h here] eqn:Fh; [contradiction|]. rewrite <- Fh in Er, Hact. clear Fh h here.
  apply rbind_ok in Er. destruct Er as (tys & Etys & Er). apply rbind_ok in Er. destruct Er as (bad & Ebad & Er). apply rbind_ok in Er. destruct Er as (bxs & Ebxs & Er). injection Er as <-.
  assert (One := S1 _ (Hr _ (or_introl eq_refl))). cbn [sat eval] in One. rewrite (sites_sum V sk _ xs Esk VS Exs) in One.
  destruct (exactly_one (fun i => v (VSite i)) ls Hb One) as (j & Hj & Sel). assert (Hj' := Hj). apply L in Hj'. destruct Hj' as (sj & Ej & Hlj).
  destruct (filterM_ok _ _ _ Ebad) as (_ & Hbad & _).
  assert (Nbad : ~ In j bad).
  { intros Hjb. destruct bxs as [|x0 bxs].
    - destruct (mapM_In _ _ _ _ Ebxs Hjb) as (y & _ & []).
    - assert (Z := S1 _ (Hr _ (or_intror (or_introl eq_refl)))). cbn [sat eval] in Z. rewrite (sites_sum V sk _ _ Esk VS Ebxs) in Z.
      assert (Zj := total_zero (fun i => v (VSite i)) bad). rewrite (Zj) in Sel; [lra| |exact Z|exact Hjb].
      intros z Hz. apply Hbad in Hz. destruct Hz as (Hz & _). destruct (Hb z Hz); lra. }
  assert (Ok_j : invalid_site I (input_active_sites I) (max_site_type tys) j = Ok false).
  { destruct (filterM_ok _ _ _ Ebad) as (Tot & _ & _). destruct (Tot j Hj) as (bb & Ebb). destruct bb; [|exact Ebb]. exfalso. apply Nbad, Hbad. auto. }
  unfold invalid_site, get in Ok_j. rewrite (D_site _ _ _ _ _ desc _ _ Ej) in Ok_j. cbn [rbind] in Ok_j. injection Ok_j as Ok_j. apply orb_false_iff in Ok_j. destruct Ok_j as (V1 & V2).
  apply negb_false_iff, mem_In, in_map_iff in V1. destruct V1 as (ty & Ety & Vty). injection Ety as ->.
  assert (Hm : (rank (s_type s) <= rank (max_site_type tys))%nat).
  { apply max_site_type_ge. destruct (mapM_In _ _ _ _ Etys Hact) as (y & Ey & Hy). unfold get in Ey. rewrite (D_site _ _ _ _ _ desc _ _ Ei) in Ey. injection Ey as <-. exact Hy. }
  assert (Use : s_type sj = max_site_type tys -> in_use ps t j sj).
  { intros E. rewrite <- E, beq_refl in V2. cbn [andb] in V2. apply negb_false_iff, mem_In in V2. now apply (in_use_iff j sj Ej). }
  exists j, sj. split; [auto|]. split; [auto|]. split; [exact Sel|].
  destruct (max_site_type tys) eqn:Em; cbn in Vty.
  - assert (Es : s_type s = CN) by (destruct (s_type s); cbn in Hm; auto; lia). rewrite Es. cbn. split; [lia|]. split; [intros E; now apply Use|congruence].
  - destruct Vty as [Vt|[]]. rewrite <- Vt. split; [exact Hm|]. split; intros _; now apply Use.
  - destruct Vty as [Vt|[]]. rewrite <- Vt. split; [exact Hm|]. split; intros _; now apply Use.
Qed.
(** a site that shares its place with no other *)
Lemma lone_decided i s : dget (t_sites t) i = Some s -> (forall j sj, dget (t_sites t) j = Some sj -> s_loc sj = s_loc s -> j = i) ->
  (s_status s = PROPOSED \/ s_status s = EXISTING \/ (p_always_active_pops ps = true /\ s_type s = POP /\ s_status s <> UNAVAILABLE /\ s_status s <> UNREACHABLE) -> selected v i).
Proof.
  intros Ei Hl Hu. pcs. assert (Hloc : In i (i_locations I)) by (apply site_location; now exists s).
  destruct (concatM_In _ _ _ _ E9 Hloc) as (r & Er & Hr). destruct params_val as (_ & _ & Q & _).
  destruct (D_col_dom _ _ _ _ _ desc i s Ei) as (locs & El). assert (L := D_col _ _ _ _ _ desc _ _ El).
  assert (Al : alone I i = Ok true).
  { unfold alone, get. rewrite (D_geo _ _ _ _ _ desc _ _ Ei). cbn [rbind]. rewrite El. destruct locs as [|a [|b locs]]; auto. exfalso.
    destruct L as (Lnd & L). destruct (proj1 (L a) (or_introl eq_refl)) as (sa & Ea & La). destruct (proj1 (L b) (or_intror (or_introl eq_refl))) as (sb & Eb & Lb).
    assert (a = i) by eauto. assert (b = i) by eauto. subst a b. inversion_clear Lnd. apply H. now left. }
  assert (Ni : mem i (i_inactive_sites I) = false).
  { apply mem_not_In. rewrite (D_is _ _ _ _ _ desc). intros (s' & Es' & Hst). rewrite Ei in Es'. injection Es' as <-. destruct Hu as [H|[H|(_ & _ & H1 & H2)]]; destruct Hst; congruence. }
  assert (Done : (do b <- alone I i ; if b then do x <- get (v_site V) i ; Ok [Eq x (Cst 1)] else Ok []) = Ok r -> selected v i).
  { rewrite Al. cbn [rbind]. intros E. inv_do. subst r. rewrite (site_get i x V sk Esk VS E0) in Hr. exact (S9 _ (Hr _ (or_introl eq_refl))). }
  unfold decided_site in Er. rewrite Q in Er. destruct (p_always_active_pops ps && mem i (i_set I (Real POP))) eqn:B; [rewrite Ni in Er; auto|].
  destruct (mem i (i_proposed_sites I) || mem i (i_existing_sites I)) eqn:B2; [auto|]. exfalso.
  apply orb_false_iff in B2. rewrite !mem_not_In, (D_ps _ _ _ _ _ desc), (D_es _ _ _ _ _ desc) in B2. destruct B2 as (B2 & B3).
  destruct Hu as [H|[H|(H1 & H2 & _)]]; [apply B2; eauto|apply B3; eauto|]. rewrite H1 in B. cbn in B. apply mem_not_In in B. apply B. apply (D_rset _ _ _ _ _ desc). eauto.
Qed.
Lemma ruled_out i s : dget (t_sites t) i = Some s -> s_status s = UNAVAILABLE \/ s_status s = UNREACHABLE ->
  (p_always_active_pops ps = true -> s_type s <> POP) -> ~ selected v i.
Proof.
  intros Ei Hst Hpop. pcs. assert (Hloc : In i (i_locations I)) by (apply site_location; now exists s).
  destruct (concatM_In _ _ _ _ E9 Hloc) as (r & Er & Hr). destruct params_val as (_ & _ & Q & _).
  unfold decided_site in Er. rewrite Q in Er. destruct (p_always_active_pops ps && mem i (i_set I (Real POP))) eqn:B.
  { apply andb_true_iff in B. destruct B as (B1 & B2). apply mem_In, (D_rset _ _ _ _ _ desc) in B2. destruct B2 as (s' & Es' & Ht). rewrite Ei in Es'. injection Es' as <-. now apply Hpop in B1. }
  destruct (mem i (i_proposed_sites I) || mem i (i_existing_sites I)) eqn:B2.
  { exfalso. apply orb_true_iff in B2. rewrite !mem_In, (D_ps _ _ _ _ _ desc), (D_es _ _ _ _ _ desc) in B2. destruct B2 as [(s' & Es' & H)|(s' & Es' & H)]; rewrite Ei in Es'; injection Es' as <-; destruct Hst; congruence. }
  assert (Ni : mem i (i_inactive_sites I) = true) by (apply mem_In, (D_is _ _ _ _ _ desc); eauto). rewrite Ni in Er. inv_do. subst r.
  rewrite (site_get i x V sk Esk VS E) in Hr. assert (Z := S9 _ (Hr _ (or_introl eq_refl))). cbn in Z. unfold selected. lra.
Qed.
End Site.
