(** Proofs about the links, sectors and channels of the deployment step. *)
From Coq Require Import QArith Lqa Lia Permutation.
From Verif Require Import Base Dict TopologyModel TopologySpec GraphSpec RfModel RfProofs SetupModel IlpModel IlpSpec QLib MonadLib SetupProofs
  IlpLemmas IlpProofs DeploySpec ChanModel ChanSpec.
Local Open Scope Q_scope.

(** ** sums of 0/1 values *)
Definition zero_one (q : Q) : Prop := q == 0 \/ q == 1.
Lemma sum_some {A} (f : A -> Q) l : (forall x, In x l -> zero_one (f x)) -> 0 < total f l -> exists x, In x l /\ f x == 1.
Proof.
  induction l as [|a l IH]; cbn [total]; intros Hb Hs; [lra|]. destruct (Hb a (or_introl eq_refl)) as [E|E].
  - destruct IH as (x & Hx & Ex); [intros; apply Hb; now right|lra|]. exists x. split; [now right|auto].
  - exists a. split; [now left|auto].
Qed.
Lemma sum_two {A} (f : A -> Q) l x y : (forall z, In z l -> zero_one (f z)) -> NoDup l -> In x l -> In y l -> x <> y -> f x == 1 -> f y == 1 -> 2 <= total f l.
Proof.
  induction l as [|a l IH]; intros Hb Hnd Hx Hy Hne Ex Ey; [contradiction|]. cbn [total]. inversion Hnd as [|? ? Ha Hnd']; subst.
  assert (Hb' : forall z, In z l -> 0 <= f z) by (intros z Hz; destruct (Hb z (or_intror Hz)); lra).
  destruct Hx as [->|Hx], Hy as [->|Hy]; [contradiction| | |].
  - assert (M := total_member f l y Hb' Hy). lra.
  - assert (M := total_member f l x Hb' Hx). lra.
  - assert (M : 2 <= total f l) by (apply IH; auto; intros; apply Hb; now right). destruct (Hb a (or_introl eq_refl)); lra.
Qed.
Lemma sum_ones {A} (f : A -> Q) l : (forall x, In x l -> f x == 1) -> total f l == inject_Z (Z.of_nat (List.length l)).
Proof.
  induction l as [|a l IH]; intros H; [reflexivity|]. cbn [total List.length]. rewrite (H a (or_introl eq_refl)), IH by (intros; apply H; now right).
  rewrite Nat2Z.inj_succ. unfold Z.succ. rewrite inject_Z_plus. change (inject_Z 1) with 1. lra.
Qed.
(** the total over a larger list without repetitions *)
Lemma sum_incl {A} `{EqB A} (f : A -> Q) l m : NoDup l -> incl l m -> (forall x, In x m -> 0 <= f x) -> total f l <= total f m.
Proof.
  revert m. induction l as [|a l IH]; cbn [total]; intros m Hnd Hi Hp; [now apply total_nonneg|].
  inversion Hnd as [|? ? Ha Hnd']; subst. destruct (in_split a m (Hi a (or_introl eq_refl))) as (m1 & m2 & ->).
  rewrite (total_perm f (m1 ++ a :: m2) (a :: m1 ++ m2)) by (symmetry; apply Permutation_middle). cbn [total].
  assert (total f l <= total f (m1 ++ m2)); [|lra]. apply IH; auto.
  - intros x Hx. assert (Hx' := Hi x (or_intror Hx)). apply in_app_iff in Hx'. apply in_app_iff. destruct Hx' as [?|[->|?]]; auto. contradiction.
  - intros x Hx. apply Hp. apply in_app_iff in Hx. apply in_app_iff. destruct Hx; auto. right. now right.
Qed.

Section Chan.
Variables (ps : params) (at_ : attrs) (t : topo) (I0 : inst) (dn_limit total_limit : nat) (bad : list (string * string * string)) (P : problem) (v : var -> Q).
Hypothesis Hw : well_formed t.
Hypothesis Hn : names_ok at_ t.
Hypothesis Hss : sectors_stored t.
Hypothesis Hk : sector_kinds t.
Hypothesis Hch : (1 <= p_channels ps)%nat.
Hypothesis HI : network ps at_ t = Ok I0.
Hypothesis HP : deploy_problem dn_limit total_limit bad I0 = Ok P.
Hypothesis Hv : feasible P v.
Let I := deploy_inst I0.

Lemma D0 : describes ps at_ t (a_cap at_) I0.
Proof. apply setup_describes; auto. exact (proj1 (network_setup ps at_ t I0 HI)). Qed.
Lemma chan_params : i_params I0 = ps.
Proof.
  destruct (setup_fields ps at_ t I0 (proj1 (network_setup ps at_ t I0 HI))) as (thr & _ & _ & _ & _ & F & _). exact F.
Qed.
Lemma chan_existing e : In e (i_existing_links I0) <-> existing_link t e.
Proof.
  destruct (setup_fields ps at_ t I0 (proj1 (network_setup ps at_ t I0 HI))) as (thr & Ethr & Eep & Edem & Eself & Fps & Floc & Ftype & Fset & Fsecs & Fst & Fl2s & Fcap & Fdem & Fgeo & Fcol & Fwired & Fes & Fpsi & Fis & Fel & _).
  rewrite Fel. apply (iff_trans (links_by_status t Hw _ e)). unfold existing_link. split; intros (k & l & A & B & C); exists k, l; repeat split; auto.
  - destruct C as [C|[]]; auto.
  - now left.
Qed.
Lemma chans c : In c (channels I) <-> (c < p_channels ps)%nat.
Proof. unfold channels. change (i_params I) with (i_params I0). rewrite chan_params, in_seq. lia. Qed.
Lemma chans_nd : NoDup (channels I). Proof. apply seq_NoDup. Qed.
Lemma ch_zero : In 0%nat (channels I). Proof. apply chans. lia. Qed.

Lemma cpieces : exists V Dp act ok ak sk tk sh c1 c2 c5 c7 c8 c9 c10 c11 c12 c13 c14 c15 c16,
  active_sites I = Ok act /\ odd_keys I = Ok ok /\ active_link_keys I = Ok ak /\ sector_keys I = Ok sk /\ tdm_keys I = Ok tk /\
  site_constants I act = Ok (v_site V) /\ v_sector V = dict_of (fresh sector_var sk) /\ v_flow V = dict_of (fresh flow_var (flow_keys I)) /\
  v_tdm V = dict_of (fresh tdm_var tk) /\ v_odd V = dict_of (fresh VOdd ok) /\ v_active V = dict_of (fresh active_var ak) /\
  Dp = dict_of (fresh deploy_var (deployment_keys I bad ak)) /\
  (forall d, In d (decls P) -> in_kind (v (fst d)) (snd d)) /\
  decls P = (map (fun i => (VOdd i, Binary)) ok
      ++ map (fun e => (flow_var e, Continuous 0 None)) (flow_keys I) ++ sh
      ++ map (fun e => (active_var e, Binary)) ak
      ++ map (fun k => (deploy_var k, Binary)) (deployment_keys I bad ak)
      ++ map (fun k => (sector_var k, Binary)) sk
      ++ map (fun k => (tdm_var k, Continuous 0 (Some 1))) tk)%list /\
  create_tdm_flow_relationship I V = Ok c1 /\ (forall c, In c c1 -> sat v c) /\
  create_tdm_link_relationship I V = Ok c2 /\ (forall c, In c c2 -> sat v c) /\
  create_flow_link_relationship I V = Ok c5 /\ (forall c, In c c5 -> sat v c) /\
  (forall c, In c (create_symmetric_link_constraints V) -> sat v c) /\
  create_sector_constraints I V = Ok c7 /\ (forall c, In c c7 -> sat v c) /\
  create_sector_link_constraints I V = Ok c8 /\ (forall c, In c c8 -> sat v c) /\
  create_cn_link_constraints I V = Ok c9 /\ (forall c, In c c9 -> sat v c) /\
  create_polarity_link_relationship I V = Ok c10 /\ (forall c, In c c10 -> sat v c) /\
  create_decided_link_constraints I V = Ok c11 /\ (forall c, In c c11 -> sat v c) /\
  create_active_link_polarity_constraints I V = Ok c12 /\ (forall c, In c c12 -> sat v c) /\
  create_inactive_link_flow_constraints I V = Ok c13 /\ (forall c, In c c13 -> sat v c) /\
  create_multi_point_constraints I dn_limit total_limit V = Ok c14 /\ (forall c, In c c14 -> sat v c) /\
  create_deployment_link_constraints I V Dp = Ok c15 /\ (forall c, In c c15 -> sat v c) /\
  create_angle_limit_guideline_constraints I bad V Dp = Ok c16 /\ (forall c, In c c16 -> sat v c).
Proof.
  assert (H := HP). unfold deploy_problem in H. fold I in H. apply rbind_ok in H. destruct H as ((V & Dp) & EV & H).
  apply rbind_ok in H. destruct H as (ds & Eds & H). apply rbind_ok in H. destruct H as (cs & Ecs & H). injection H as H. cbn [fst snd] in Ecs.
  unfold deploy_tables in EV. apply rbind_ok in EV. destruct EV as (act & Eact & EV). apply rbind_ok in EV. destruct EV as (vs & Evs & EV).
  apply rbind_ok in EV. destruct EV as (ok & Eok & EV). apply rbind_ok in EV. destruct EV as (ak & Eak & EV). apply rbind_ok in EV. destruct EV as (sk & Esk & EV).
  apply rbind_ok in EV. destruct EV as (tk & Etk & EV). injection EV as EV EDp.
  unfold deploy_decls in Eds. rewrite Eok, Eak, Esk, Etk in Eds. cbn [rbind] in Eds. apply rbind_ok in Eds. destruct Eds as (sh & Esh & Eds). injection Eds as Eds.
  unfold deploy_constraints in Ecs.
  apply rbind_ok in Ecs. destruct Ecs as (c1 & E1 & Ecs). apply rbind_ok in Ecs. destruct Ecs as (c2 & E2 & Ecs). apply rbind_ok in Ecs. destruct Ecs as (c3 & E3 & Ecs).
  apply rbind_ok in Ecs. destruct Ecs as (c4 & E4 & Ecs). apply rbind_ok in Ecs. destruct Ecs as (c5 & E5 & Ecs). apply rbind_ok in Ecs. destruct Ecs as (c7 & E7 & Ecs).
  apply rbind_ok in Ecs. destruct Ecs as (c8 & E8 & Ecs). apply rbind_ok in Ecs. destruct Ecs as (c9 & E9 & Ecs). apply rbind_ok in Ecs. destruct Ecs as (c10 & E10 & Ecs).
  apply rbind_ok in Ecs. destruct Ecs as (c11 & E11 & Ecs). apply rbind_ok in Ecs. destruct Ecs as (c12 & E12 & Ecs). apply rbind_ok in Ecs. destruct Ecs as (c13 & E13 & Ecs).
  apply rbind_ok in Ecs. destruct Ecs as (c14 & E14 & Ecs). apply rbind_ok in Ecs. destruct Ecs as (c15 & E15 & Ecs). apply rbind_ok in Ecs. destruct Ecs as (c16 & E16 & Ecs). injection Ecs as Ecs.
  assert (Hv' := Hv). destruct Hv' as (Hd & Hc). rewrite <- H, <- Ecs in Hc. cbn [constraints] in Hc.
  exists V, Dp, act, ok, ak, sk, tk, sh, c1, c2, c5, c7, c8, c9, c10, c11, c12, c13, c14, c15, c16.
  split; [exact Eact|]. split; [exact Eok|]. split; [exact Eak|]. split; [exact Esk|]. split; [exact Etk|].
  split; [now rewrite <- EV|]. split; [now rewrite <- EV|]. split; [now rewrite <- EV|]. split; [now rewrite <- EV|]. split; [now rewrite <- EV|]. split; [now rewrite <- EV|].
  split; [now rewrite <- EDp|]. split; [exact Hd|]. split; [now rewrite <- H, <- Eds|].
  repeat match goal with |- _ /\ _ => split end; try assumption; intros c Hin; apply Hc; rewrite !in_app_iff; tauto.
Qed.
Ltac cps := destruct cpieces as (V & Dp & act & ok & ak & sk & tk & sh & c1 & c2 & c5 & c7 & c8 & c9 & c10 & c11 & c12 & c13 & c14 & c15 & c16 &
  Eact & Eok & Eak & Esk & Etk & VS & VSec & VF & VT & VO & VA & EDp & Hd & Ed & E1 & S1 & E2 & S2 & E5 & S5 & S6 & E7 & S7 & E8 & S8 & E9 & S9 & E10 & S10 & E11 & S11 & E12 & S12 & E13 & S13 & E14 & S14 & E15 & S15 & E16 & S16).

(** ** the decisions *)
Lemma active_keys ak : active_link_keys I = Ok ak -> forall e, In e ak <-> exists k l, link_stored t k l /\ eligible at_ l /\ e = (l_tx l, l_rx l).
Proof.
  intros Eak e. destruct (filterM_ok _ _ _ Eak) as (_ & H & _). rewrite H. assert (D := D0). split.
  - intros (Hin & Ef). change (i_links I) with (i_links I0) in Hin. change (i_cap I) with (i_cap I0) in Ef. change (i_type I) with (i_type I0) in Ef. change (i_wired I) with (i_wired I0) in Ef.
    apply rbind_ok in Ef. destruct Ef as (q & Eq & Ef). apply get_ok in Eq. destruct (Qle_bool q 0) eqn:Bq; [discriminate|]. apply qle_false in Bq.
    unfold sectors_of in Ef. change (i_l2s I) with (i_l2s I0) in Ef.
    destruct (dget (i_l2s I0) e) as [[[s1|] [s2|]]|] eqn:Es; try discriminate.
    apply rbind_ok in Ef. destruct Ef as (ti & Eti & Ef). apply rbind_ok in Ef. destruct Ef as (tj & Etj & Ef). injection Ef as Ef. apply get_ok in Eti, Etj.
    apply andb_true_iff in Ef. destruct Ef as [Ef B3]. apply andb_true_iff in Ef. destruct Ef as [B1 B2].
    assert (R : forall i ty, dget (i_type I0) i = Some ty -> negb (imaginary ty) = true -> site_stored t i).
    { intros i ty Ei Hi. apply (D_type _ _ _ _ _ D) in Ei. destruct Ei as [(_ & ->)|[(s & Ess & _)|(_ & ->)]]; [discriminate|now exists s|discriminate]. }
    destruct (real_edge ps at_ t (a_cap at_) I0 D Hn e Hin (R _ _ Eti B1) (R _ _ Etj B2)) as (k & l & El & ->).
    exists k, l. split; [exact El|]. split; [|reflexivity]. rewrite (D_wired _ _ _ _ _ D _ _ El), negb_involutive in B3. split; [exact B3|].
    rewrite (D_l2s _ _ _ _ _ D _ _ El) in Es. rewrite (D_cap _ _ _ _ _ D _ _ El) in Eq. injection Eq as <-. split; [|exact Bq].
    destruct (l_sectors l) as [[a b]|]; [eauto|discriminate].
  - intros (k & l & El & (W & (a & b & Hs) & Hc) & ->). split; [exact (link_in ps at_ t (a_cap at_) I0 D k l El)|].
    change (i_cap I) with (i_cap I0). change (i_type I) with (i_type I0). change (i_wired I) with (i_wired I0). unfold sectors_of. change (i_l2s I) with (i_l2s I0).
    unfold get. rewrite (D_cap _ _ _ _ _ D _ _ El). cbn [rbind]. apply qle_false in Hc. rewrite Hc, (D_l2s _ _ _ _ _ D _ _ El), Hs. cbn [fst snd].
    destruct (link_sites t Hw k l El) as ((s1 & H1) & (s2 & H2)). rewrite (D_site _ _ _ _ _ D _ _ H1), (D_site _ _ _ _ _ D _ _ H2). cbn [rbind imaginary negb andb].
    now rewrite (D_wired _ _ _ _ _ D _ _ El), W.
Qed.
Lemma active_get V ak k l : active_link_keys I = Ok ak -> v_active V = dict_of (fresh active_var ak) -> link_stored t k l -> eligible at_ l ->
  dget (v_active V) (l_tx l, l_rx l) = Some (Var (VActive (l_tx l) (l_rx l))).
Proof.
  intros Eak -> El He. rewrite fresh_get. assert (M : mem (l_tx l, l_rx l) ak = true) by (apply mem_In, (active_keys _ Eak); eauto). now rewrite M.
Qed.
Lemma active_inv V ak e x : active_link_keys I = Ok ak -> v_active V = dict_of (fresh active_var ak) -> dget (v_active V) e = Some x ->
  x = Var (VActive (fst e) (snd e)) /\ exists k l, link_stored t k l /\ eligible at_ l /\ e = (l_tx l, l_rx l).
Proof.
  intros Eak -> . rewrite fresh_get. destruct (mem e ak) eqn:M; [|discriminate]. intros E. split; [now injection E as <-|]. now apply mem_In, (active_keys _ Eak) in M.
Qed.
Lemma used_bin k l : link_stored t k l -> eligible at_ l -> zero_one (v (VActive (l_tx l) (l_rx l))).
Proof.
  intros El He. cps. apply (Hd (VActive (l_tx l) (l_rx l), Binary)). rewrite Ed, !in_app_iff. right; right; right; left.
  apply in_map_iff. exists (l_tx l, l_rx l). split; [reflexivity|]. apply (active_keys _ Eak). eauto.
Qed.
(** sectors *)
Lemma sector_key_in sk k x c : sector_keys I = Ok sk -> sector_stored t k x -> (c = 0 \/ k_cn (x_key x) = false)%nat -> (c < p_channels ps)%nat -> In (x_site x, k, c) sk.
Proof.
  intros Esk Hx Hc Hlt. assert (D := D0). destruct (D_secs _ _ _ _ _ D _ _ Hx) as (sl & Esl & Hin).
  assert (Hp : In (x_site x, sl) (i_secs I)) by (now apply dget_In).
  destruct (concatM_In _ _ _ _ Esk Hp) as (r & Er & Hr). cbn [fst snd] in Er. destruct (concatM_In _ _ _ _ Er Hin) as (r1 & Er1 & Hr1).
  unfold get in Er1. change (i_sectype I) with (i_sectype I0) in Er1. rewrite (D_sectype _ _ _ _ _ D _ _ Hx) in Er1. cbn [rbind] in Er1. injection Er1 as <-.
  apply Hr, Hr1. destruct (k_cn (x_key x)); cbn [imaginary_sec].
  - destruct Hc as [->|?]; [now left|discriminate].
  - apply in_map_iff. exists c. split; [reflexivity|now apply chans].
Qed.
Lemma sector_cn_key sk k x c : sector_keys I = Ok sk -> sector_stored t k x -> k_cn (x_key x) = true -> In (x_site x, k, c) sk -> c = 0%nat.
Proof.
  intros Esk Hx Hcn Hin. assert (D := D0). destruct (concatM_inv _ _ _ _ Esk Hin) as (p & r & Hp & Er & Hr). destruct (concatM_inv _ _ _ _ Er Hr) as (a & r1 & Ha & Er1 & Hr1).
  apply rbind_ok in Er1. destruct Er1 as (ty & Ety & Er1). injection Er1 as <-. apply get_ok in Ety. change (i_sectype I) with (i_sectype I0) in Ety.
  destruct (imaginary_sec ty) eqn:Im; [contradiction|]. apply in_map_iff in Hr1. destruct Hr1 as (c' & Ec & Hc'). injection Ec as E1 -> ->.
  rewrite (D_sectype _ _ _ _ _ D _ _ Hx), Hcn in Ety. injection Ety as <-. destruct Hc' as [<-|[]]. reflexivity.
Qed.
Lemma sector_get V sk k x c : sector_keys I = Ok sk -> v_sector V = dict_of (fresh sector_var sk) -> sector_stored t k x ->
  (c = 0 \/ k_cn (x_key x) = false)%nat -> (c < p_channels ps)%nat -> dget (v_sector V) (x_site x, k, c) = Some (Var (VSector (x_site x) k c)).
Proof.
  intros Esk -> Hx Hc Hlt. rewrite fresh_get. assert (M := sector_key_in _ _ _ _ Esk Hx Hc Hlt). apply mem_In in M. now rewrite M.
Qed.
Lemma sector_inv V sk i s c y : sector_keys I = Ok sk -> v_sector V = dict_of (fresh sector_var sk) -> dget (v_sector V) (i, s, c) = Some y ->
  y = Var (VSector i s c) /\ In (i, s, c) sk.
Proof. intros Esk -> . rewrite fresh_get. destruct (mem (i, s, c) sk) eqn:M; [|discriminate]. intros E. injection E as <-. split; [reflexivity|now apply mem_In]. Qed.
Lemma sector_bin sk' : sector_keys I = Ok sk' -> forall i s c, In (i, s, c) sk' -> zero_one (v (VSector i s c)).
Proof.
  intros Esk' i s c Hin. cps. assert (sk = sk') by congruence. subst sk'. apply (Hd (VSector i s c, Binary)). rewrite Ed, !in_app_iff. do 5 right. left.
  apply in_map_iff. now exists (i, s, c).
Qed.
Definition term V i s c : Q := match dget (v_sector V) (i, s, c) with Some _ => v (VSector i s c) | None => 0 end.
Lemma sector_sum_val V sk i s : sector_keys I = Ok sk -> v_sector V = dict_of (fresh sector_var sk) ->
  eval v (sector_sum I V i s) == total (term V i s) (channels I).
Proof.
  intros Esk VSec. unfold sector_sum. rewrite eval_xsum. generalize (channels I). induction l as [|c l IH]; [reflexivity|].
  cbn [flat_map total]. rewrite total_app, IH. unfold term at 2. destruct (dget (v_sector V) (i, s, c)) as [y|] eqn:E; cbn [total]; [|lra].
  destruct (sector_inv _ _ _ _ _ _ Esk VSec E) as (-> & _). cbn [eval]. lra.
Qed.
Lemma term_bin V sk i s c : sector_keys I = Ok sk -> v_sector V = dict_of (fresh sector_var sk) -> zero_one (term V i s c).
Proof.
  intros Esk VSec. unfold term. destruct (dget (v_sector V) (i, s, c)) as [y|] eqn:E; [|now left].
  destruct (sector_inv _ _ _ _ _ _ Esk VSec E) as (_ & Hin). now apply (sector_bin _ Esk).
Qed.
Lemma term_on V sk i s c : sector_keys I = Ok sk -> v_sector V = dict_of (fresh sector_var sk) -> term V i s c == 1 -> tuned v i s c.
Proof. unfold term, tuned. intros _ _. destruct (dget _ _); [auto|intros; lra]. Qed.

(** ** which sites are active *)
Lemma act_status i : In i (i_proposed_sites I ++ i_existing_sites I)%list <-> exists s, standing t i s.
Proof.
  change (i_proposed_sites I) with (i_proposed_sites I0). change (i_existing_sites I) with (i_existing_sites I0). rewrite in_app_iff, (D_ps _ _ _ _ _ D0), (D_es _ _ _ _ _ D0). unfold standing, is_active. split.
  - intros [(s & A & B)|(s & A & B)]; exists s; auto.
  - intros (s & A & [B|B]); [left|right]; eauto.
Qed.
Lemma active_deployed act' : active_sites I = Ok act' -> forall i, In i act' <-> deployed t i.
Proof.
  intros Ea i. assert (D := D0). unfold active_sites in Ea. set (inp := (i_proposed_sites I ++ i_existing_sites I)%list) in Ea.
  apply rbind_ok in Ea. destruct Ea as (lone & El & Ea). apply rbind_ok in Ea. destruct Ea as (col & Ec & Ea). injection Ea as <-.
  destruct (filterM_ok _ _ _ El) as (_ & Hlone & _). rewrite in_app_iff, Hlone.
  assert (Inp : forall i, In i inp <-> exists s, standing t i s) by exact act_status.
  (* the group of a place *)
  assert (Grp : forall locs, In locs (dvals (i_colocated I)) -> exists p, dget (i_colocated I) p = Some locs /\ forall j, In j locs <-> exists s, dget (t_sites t) j = Some s /\ s_loc s = p).
  { intros locs Hl. apply In_dvals in Hl; [|exact (D_col_wf _ _ _ _ _ D)]. destruct Hl as (p & Hp). exists p. split; [exact Hp|]. intros j. apply (proj2 (D_col _ _ _ _ _ D _ _ Hp)). }
  assert (Best : forall locs hs tys, hs = filter (fun l => mem l locs) inp -> mapM (get (i_type I)) hs = Ok tys ->
    forall j s, In j locs -> standing t j s -> (rank (s_type s) <= rank (max_site_type tys))%nat).
  { intros locs hs tys -> Et j s Hj Hs. apply max_site_type_ge. assert (Hh : In j (filter (fun l => mem l locs) inp)) by (apply filter_In; split; [apply Inp; eauto|now apply mem_In]).
    destruct (mapM_In _ _ _ _ Et Hh) as (y & Ey & Hy). apply get_ok in Ey. change (i_type I) with (i_type I0) in Ey. rewrite (D_site _ _ _ _ _ D _ _ (proj1 Hs)) in Ey. injection Ey as <-. exact Hy. }
  split.
  - intros [(Hl & Ef)|Hcol].
    + destruct (mem i inp) eqn:M; [|discriminate]. apply mem_In, Inp in M. destruct M as (s & Hs). exists s. split; [exact Hs|].
      unfold alone in Ef. apply rbind_ok in Ef. destruct Ef as (g & Eg & Ef). apply get_ok in Eg. change (i_geo I) with (i_geo I0) in Eg. rewrite (D_geo _ _ _ _ _ D _ _ (proj1 Hs)) in Eg. injection Eg as <-.
      injection Ef as Ef. intros i' s' Hs' Hloc. destruct (D_col_dom _ _ _ _ _ D _ _ (proj1 Hs)) as (locs & Elocs). change (i_colocated I) with (i_colocated I0) in Ef. rewrite Elocs in Ef.
      assert (L := D_col _ _ _ _ _ D _ _ Elocs). assert (A1 : In i locs) by (apply L; exists s; split; [exact (proj1 Hs)|reflexivity]). assert (A2 : In i' locs) by (apply L; exists s'; split; [exact (proj1 Hs')|exact Hloc]).
      destruct locs as [|x [|y r]]; [contradiction| |discriminate]. destruct A1 as [<-|[]]. destruct A2 as [<-|[]]. destruct Hs as (Hs & _), Hs' as (Hs' & _). rewrite Hs in Hs'. injection Hs' as <-. lia.
    + destruct (concatM_inv _ _ _ _ Ec Hcol) as (locs & r & Hlocs & Er & Hr). destruct (Grp _ Hlocs) as (p & Ep & Hp).
      destruct locs as [|x1 [|x2 ls]]; [injection Er as <-; contradiction|injection Er as <-; contradiction|]. remember (x1 :: x2 :: ls)%list as locs eqn:Els. clear Els x1 x2 ls.
      destruct (filter (fun l => mem l locs) inp) as [|h here] eqn:Fh; [injection Er as <-; contradiction|]. rewrite <- Fh in Er. apply rbind_ok in Er. destruct Er as (tys & Et & Er).
      destruct (filterM_ok _ _ _ Er) as (_ & Hf & _). apply Hf in Hr. destruct Hr as (Hin & Ef). apply rbind_ok in Ef. destruct Ef as (ty & Ety & Ef). injection Ef as Ef.
      apply andb_true_iff in Ef. destruct Ef as (B1 & B2). apply beq_true in B1. apply mem_In, Inp in B2. destruct B2 as (s & Hs). exists s. split; [exact Hs|].
      apply get_ok in Ety. change (i_type I) with (i_type I0) in Ety. rewrite (D_site _ _ _ _ _ D _ _ (proj1 Hs)) in Ety. injection Ety as Ety. rewrite B1 in Ety. injection Ety as Ety.
      intros i' s' Hs' Hloc. rewrite Ety. apply (Best locs _ tys eq_refl Et i' s'); [|exact Hs']. apply Hp in Hin. destruct Hin as (s0 & Es0 & <-). rewrite (proj1 Hs) in Es0. injection Es0 as <-. apply Hp. exists s'. split; [exact (proj1 Hs')|exact Hloc].
  - intros (s & Hs & Hbest). destruct (D_col_dom _ _ _ _ _ D _ _ (proj1 Hs)) as (locs & Elocs). assert (L := D_col _ _ _ _ _ D _ _ Elocs).
    assert (A1 : In i locs) by (apply L; exists s; split; [exact (proj1 Hs)|reflexivity]). assert (Hi : In i inp) by (apply Inp; eauto).
    assert (Hgrp : In locs (dvals (i_colocated I))) by (apply In_dvals; [exact (D_col_wf _ _ _ _ _ D)|eauto]).
    destruct (concatM_In _ _ _ _ Ec Hgrp) as (r & Er & Hr).
    destruct locs as [|x1 [|x2 ls]]; [contradiction| |].
    + left. split; [apply (D_locs _ _ _ _ _ D); right; left; exists s; exact (proj1 Hs)|]. apply mem_In in Hi. rewrite Hi. unfold alone, get.
      change (i_geo I) with (i_geo I0). rewrite (D_geo _ _ _ _ _ D _ _ (proj1 Hs)). cbn [rbind]. change (i_colocated I) with (i_colocated I0). now rewrite Elocs.
    + right. apply Hr. remember (x1 :: x2 :: ls)%list as locs eqn:Els. clear Els x1 x2 ls.
      assert (Hh : In i (filter (fun l => mem l locs) inp)) by (apply filter_In; split; [exact Hi|now apply mem_In]).
      destruct (filter (fun l => mem l locs) inp) as [|h here] eqn:Fh; [contradiction|]. rewrite <- Fh in Er, Hh. apply rbind_ok in Er. destruct Er as (tys & Et & Er). cbv zeta in Er.
      destruct (filterM_ok _ _ _ Er) as (_ & Hf & _). apply Hf. split; [exact A1|]. unfold get. change (i_type I) with (i_type I0). rewrite (D_site _ _ _ _ _ D _ _ (proj1 Hs)). cbn [rbind].
      apply mem_In in Hi. rewrite Hi, andb_true_r. f_equal. apply beq_eq. f_equal.
      assert (U1 := Best locs _ tys eq_refl Et i s A1 Hs).
      assert (U2 : (rank (max_site_type tys) <= rank (s_type s))%nat).
      { destruct (max_site_type_in tys) as [E|E]; [rewrite E; cbn; lia|]. destruct (mapM_inv _ _ _ _ Et E) as (j & Hj & Ej). apply filter_In in Hj. destruct Hj as (Hj1 & Hj2). apply Inp in Hj1. destruct Hj1 as (sj & Hsj).
        apply get_ok in Ej. change (i_type I) with (i_type I0) in Ej. rewrite (D_site _ _ _ _ _ D _ _ (proj1 Hsj)) in Ej. injection Ej as <-. apply (Hbest j sj Hsj). apply mem_In, L in Hj2. destruct Hj2 as (s0 & Es0 & Hl0). rewrite (proj1 Hsj) in Es0. injection Es0 as <-. exact Hl0. }
      destruct (s_type s), (max_site_type tys); cbn in U1, U2; try reflexivity; lia.
Qed.
Lemma site_val V act' i s : active_sites I = Ok act' -> site_constants I act' = Ok (v_site V) -> dget (t_sites t) i = Some s ->
  dget (v_site V) i = Some (Cst (if mem i act' then 1 else 0)).
Proof.
  intros Ea Es Hs. unfold site_constants in Es. apply rbind_ok in Es. destruct Es as (sk & Esk & Es). injection Es as <-. apply dict_of_value.
  2: intros y Hy; apply in_map_iff in Hy; destruct Hy as (j & Ej & _); injection Ej as -> <-; reflexivity.
  - apply in_map_iff. exists i. split; [reflexivity|]. destruct (filterM_ok _ _ _ Esk) as (_ & H & _). apply H. assert (D := D0). split; [apply (D_locs _ _ _ _ _ D); right; left; now exists s|].
    unfold get. change (i_type I) with (i_type I0). now rewrite (D_site _ _ _ _ _ D _ _ Hs).
Qed.
Lemma sector_site_bound V sk' act' c7 k x : sector_keys I = Ok sk' -> v_sector V = dict_of (fresh sector_var sk') ->
  active_sites I = Ok act' -> site_constants I act' = Ok (v_site V) -> create_sector_constraints I V = Ok c7 -> (forall c, In c c7 -> sat v c) -> sector_stored t k x ->
  total (term V (x_site x) k) (channels I) <= (if mem (x_site x) act' then 1 else 0).
Proof.
  intros Esk VSec Ea VS E7 S7 Hx. assert (D := D0). unfold create_sector_constraints in E7. apply rbind_ok in E7. destruct E7 as (d1 & F1 & E7). apply rbind_ok in E7. destruct E7 as (d2 & F2 & E7).
  apply rbind_ok in E7. destruct E7 as (d3 & F3 & E7). apply rbind_ok in E7. destruct E7 as (d5 & F5 & E7). injection E7 as E7.
  assert (S2' : forall c, In c d2 -> sat v c) by (intros c Hc; apply S7; rewrite <- E7, !in_app_iff; auto).
  assert (Ex : exists s, dget (t_sites t) (x_site x) = Some s) by (destruct Hw as (_ & _ & _ & _ & _ & _ & _ & C); exact (proj2 (C _ _ Hx))). destruct Ex as (s & Hs).
  assert (Hloc : In (x_site x) (i_locations I)) by (apply (D_locs _ _ _ _ _ D); right; left; now exists s).
  destruct (concatM_In _ _ _ _ F2 Hloc) as (r & Er & Hr). unfold get at 1 in Er. change (i_type I) with (i_type I0) in Er. rewrite (D_site _ _ _ _ _ D _ _ Hs) in Er. cbn [rbind imaginary] in Er.
  destruct (D_secs _ _ _ _ _ D _ _ Hx) as (sl & Esl & Hin). unfold get in Er at 1. change (i_secs I) with (i_secs I0) in Er. rewrite Esl in Er. cbn [rbind] in Er.
  destruct (concatM_In _ _ _ _ Er Hin) as (r1 & Er1 & Hr1). unfold get in Er1. change (i_sectype I) with (i_sectype I0) in Er1. rewrite (D_sectype _ _ _ _ _ D _ _ Hx) in Er1. cbn [rbind] in Er1.
  replace (imaginary_sec (if k_cn (x_key x) then SecCN else SecDN)) with false in Er1 by (now destruct (k_cn (x_key x))). rewrite (site_val _ _ _ _ Ea VS Hs) in Er1. cbn [rbind] in Er1. injection Er1 as <-.
  assert (H := S2' _ (Hr _ (Hr1 _ (or_introl eq_refl)))). cbn [sat eval] in H. now rewrite (sector_sum_val _ _ _ _ Esk VSec) in H.
Qed.
(** ** sectors *)
Lemma chan_sector_site k x c : sector_stored t k x -> (c = 0 \/ k_cn (x_key x) = false)%nat -> (c < p_channels ps)%nat -> tuned v (x_site x) k c -> deployed t (x_site x).
Proof.
  intros Hx Hc Hlt Ht. cps. assert (B := sector_site_bound V sk act c7 k x Esk VSec Eact VS E7 S7 Hx).
  assert (G : term V (x_site x) k c == 1) by (unfold term; rewrite (sector_get V sk k x c Esk VSec Hx Hc Hlt); exact Ht).
  assert (M := total_member (term V (x_site x) k) (channels I) c). destruct (mem (x_site x) act) eqn:Ma; [now apply mem_In, (active_deployed _ Eact) in Ma|].
  exfalso. assert (term V (x_site x) k c <= total (term V (x_site x) k) (channels I)); [|lra]. apply M; [|now apply chans]. intros y _. destruct (term_bin V sk (x_site x) k y Esk VSec); lra.
Qed.
Lemma chan_one_channel k x c c' : sector_stored t k x -> k_cn (x_key x) = false -> (c < p_channels ps)%nat -> (c' < p_channels ps)%nat ->
  tuned v (x_site x) k c -> tuned v (x_site x) k c' -> c = c'.
Proof.
  intros Hx Hc Hlt Hlt' Ht Ht'. destruct (Nat.eq_dec c c') as [?|Hne]; [auto|exfalso]. cps. assert (B := sector_site_bound V sk act c7 k x Esk VSec Eact VS E7 S7 Hx).
  assert (G : forall c, (c < p_channels ps)%nat -> tuned v (x_site x) k c -> term V (x_site x) k c == 1) by (intros d Hd' Htd; unfold term; rewrite (sector_get V sk k x d Esk VSec Hx (or_intror Hc) Hd'); exact Htd).
  assert (2 <= total (term V (x_site x) k) (channels I)).
  { apply (sum_two _ _ c c'); auto using chans_nd; try (now apply chans). intros z _. now apply (term_bin V sk). }
  destruct (mem (x_site x) act); lra.
Qed.
(** ** links *)
Lemma link_ends k l a b : link_stored t k l -> l_sectors l = Some (a, b) -> exists x y, sector_stored t (key_id a) x /\ x_key x = a /\ x_site x = l_tx l /\ sector_stored t (key_id b) y /\ x_key y = b /\ x_site y = l_rx l.
Proof.
  intros El Es. destruct (Hss _ _ _ _ El Es) as (H1 & H2 & (x & Hx & Ex) & (y & Hy & Ey)). exists x, y. unfold x_site. rewrite Ex, Ey. auto 8.
Qed.
Lemma chan_link_sectors k l a b : link_stored t k l -> eligible at_ l -> l_sectors l = Some (a, b) -> used v (l_tx l, l_rx l) ->
  (exists c, (c < p_channels ps)%nat /\ (k_cn a = true -> c = 0%nat) /\ tuned v (l_tx l) (key_id a) c) /\ (exists c, (c < p_channels ps)%nat /\ (k_cn b = true -> c = 0%nat) /\ tuned v (l_rx l) (key_id b) c) /\ (~ type_is t (l_rx l) CN -> forall c, (c < p_channels ps)%nat -> tuned v (l_tx l) (key_id a) c -> tuned v (l_rx l) (key_id b) c).
Proof.
  intros El He Es Hu. destruct (link_ends k l a b El Es) as (x & y & Hx & Kx & Sx & Hy & Ky & Sy). cps. assert (D := D0).
  assert (G := active_get V ak k l Eak VA El He). assert (Hin := dget_In _ _ _ G).
  destruct (concatM_In _ _ _ _ E8 Hin) as (r & Er & Hr). cbn [fst snd] in Er. unfold link_sectors_on, sectors_of in Er. change (i_l2s I) with (i_l2s I0) in Er.
  rewrite (D_l2s _ _ _ _ _ D _ _ El), Es in Er. cbn [fst snd] in Er. rewrite <- Sx, <- Sy in *.
  assert (Hlt0 : (0 < p_channels ps)%nat) by lia.
  assert (Gx := sector_get V sk _ x 0 Esk VSec Hx (or_introl eq_refl) Hlt0). assert (Gy := sector_get V sk _ y 0 Esk VSec Hy (or_introl eq_refl) Hlt0).
  unfold dmem in Er. rewrite Gx, Gy in Er. unfold used in Hu. cbn [fst snd] in Hu.
  assert (K : forall k z, sector_stored t k z -> eval v (Var (VActive (x_site x) (x_site y))) <= eval v (sector_sum I V (x_site z) k) -> exists c, (c < p_channels ps)%nat /\ (k_cn (x_key z) = true -> c = 0%nat) /\ tuned v (x_site z) k c).
  { intros k' z Hz H. rewrite (sector_sum_val _ _ _ _ Esk VSec) in H. cbn [eval] in H. destruct (sum_some (term V (x_site z) k') (channels I)) as (c & Hc & Ht); [intros; now apply (term_bin V sk)|lra|].
    exists c. split; [now apply chans|]. split; [|now apply (term_on V sk)]. intros Hcn. unfold term in Ht. destruct (dget (v_sector V) (x_site z, k', c)) as [w|] eqn:Ew; [|lra].
    destruct (sector_inv _ _ _ _ _ _ Esk VSec Ew) as (_ & Hin'). exact (sector_cn_key sk k' z c Esk Hz Hcn Hin'). }
  apply rbind_ok in Er. destruct Er as (tj & Etj & Er).
  assert (AB : incl [Le (Var (VActive (x_site x) (x_site y))) (sector_sum I V (x_site x) (key_id a)); Le (Var (VActive (x_site x) (x_site y))) (sector_sum I V (x_site y) (key_id b))] c8).
  { destruct (beq tj (Real CN)); [injection Er as <-; intros z Hz; apply Hr; exact Hz|]. apply rbind_ok in Er. destruct Er as (cs & _ & Er). injection Er as <-. intros z Hz. apply Hr. destruct Hz as [<-|[<-|[]]]; [now left|right; now left]. }
  split; [|split].
  - destruct (K _ x Hx (S8 _ (AB _ (or_introl eq_refl)))) as (c & H1 & H2 & H3). rewrite Kx in H2. eauto.
  - destruct (K _ y Hy (S8 _ (AB _ (or_intror (or_introl eq_refl))))) as (c & H1 & H2 & H3). rewrite Ky in H2. eauto.
  - intros Hcn c Hc Ht. change (p_channels (i_params I)) with (p_channels (i_params I0)) in Etj. rewrite chan_params in Etj. destruct (Nat.eqb (p_channels ps) 1) eqn:En.
    + apply Nat.eqb_eq in En. assert (c = 0)%nat by lia. subst c. assert (Q := S8 _ (AB _ (or_intror (or_introl eq_refl)))). destruct (K _ y Hy Q) as (c & Hc' & _ & Hc''). assert (c = 0)%nat by lia. now subst c.
    + apply get_ok in Etj. change (i_type I) with (i_type I0) in Etj. destruct (link_sites t Hw k l El) as (_ & (s2 & H2)). rewrite Sy, (D_site _ _ _ _ _ D _ _ H2) in Etj. injection Etj as <-.
      assert (B : beq (Real (s_type s2)) (Real CN) = false). { apply beq_neq. intros E. injection E as E. apply Hcn. exists s2. now rewrite Sy. }
      rewrite B in Er. apply rbind_ok in Er. destruct Er as (cs & Ecs & Er). injection Er as <-. assert (Hc' := Hc). apply chans in Hc'.
      destruct (concatM_In _ _ _ _ Ecs Hc') as (r2 & Er2 & Hr2). apply rbind_ok in Er2. destruct Er2 as (y1 & Ey1 & Er2). apply rbind_ok in Er2. destruct Er2 as (y2 & Ey2 & Er2). injection Er2 as <-.
      apply get_ok in Ey1, Ey2. destruct (sector_inv _ _ _ _ _ _ Esk VSec Ey1) as (-> & B1). destruct (sector_inv _ _ _ _ _ _ Esk VSec Ey2) as (-> & B2).
      assert (Q : sat v (Le (Var (VActive (x_site x) (x_site y))) (Add (Sub (Var (VSector (x_site y) (key_id b) c)) (Var (VSector (x_site x) (key_id a) c))) (Cst 1)))).
      { apply S8, Hr. right; right. apply Hr2. right. now left. }
      cbn [sat eval] in Q. unfold tuned in *. destruct (sector_bin _ Esk _ _ _ B2) as [Z|Z]; [lra|exact Z].
Qed.
Lemma chan_deployed k l : link_stored t k l -> eligible at_ l -> used v (l_tx l, l_rx l) -> deployed t (l_tx l) /\ deployed t (l_rx l).
Proof.
  intros El He Hu. assert (He' := He). destruct He' as (_ & (a & b & Es) & _). destruct (link_ends k l a b El Es) as (x & y & Hx & Kx & Sx & Hy & Ky & Sy).
  destruct (chan_link_sectors k l a b El He Es Hu) as ((d & Hd' & Hdn & Htd) & (c & Hc & Hcn & Ht) & _). split.
  - rewrite <- Sx. apply (chan_sector_site (key_id a) x d Hx); [|exact Hd'|now rewrite Sx]. rewrite Kx. destruct (k_cn a); auto.
  - rewrite <- Sy. apply (chan_sector_site (key_id b) y c Hy); [|exact Hc|now rewrite Sy]. rewrite Ky. destruct (k_cn b); auto.
Qed.
(** sums of link decisions *)
Definition lterm V e : Q := match dget (v_active V) e with Some _ => v (VActive (fst e) (snd e)) | None => 0 end.
Lemma active_among_val V ak es : active_link_keys I = Ok ak -> v_active V = dict_of (fresh active_var ak) -> total (eval v) (active_among V es) == total (lterm V) es.
Proof.
  intros Eak VA. induction es as [|e es IH]; [reflexivity|]. unfold active_among in *. cbn [flat_map total]. rewrite total_app, IH. unfold lterm at 2.
  destruct (dget (v_active V) e) as [x|] eqn:E; cbn [total]; [|lra]. destruct (active_inv V ak e x Eak VA E) as (-> & _). cbn [eval]. lra.
Qed.
Lemma lterm_bin V ak e : active_link_keys I = Ok ak -> v_active V = dict_of (fresh active_var ak) -> zero_one (lterm V e).
Proof.
  intros Eak VA. unfold lterm. destruct (dget (v_active V) e) as [x|] eqn:E; [|now left]. destruct (active_inv V ak e x Eak VA E) as (_ & k & l & El & He & ->). now apply (used_bin k l).
Qed.
Lemma lterm_used V ak k l : active_link_keys I = Ok ak -> v_active V = dict_of (fresh active_var ak) -> link_stored t k l -> eligible at_ l ->
  lterm V (l_tx l, l_rx l) = v (VActive (l_tx l) (l_rx l)).
Proof. intros Eak VA El He. unfold lterm. now rewrite (active_get V ak k l Eak VA El He). Qed.
Lemma chan_cn k l k' l' : link_stored t k l -> link_stored t k' l' -> eligible at_ l -> eligible at_ l' -> l_rx l = l_rx l' -> type_is t (l_rx l) CN ->
  used v (l_tx l, l_rx l) -> used v (l_tx l', l_rx l') -> l = l'.
Proof.
  intros El El' He He' Hr (s & Hs & Ty) Hu Hu'. apply (link_fun t Hw k l k' l' El El'). cps. assert (D := D0).
  assert (Hin : In (l_rx l) (filter (fun loc => mem loc (i_set I (Real CN))) (i_locations I))).
  { apply filter_In. split; [apply (D_locs _ _ _ _ _ D); right; left; now exists s|]. apply mem_In. apply (D_rset _ _ _ _ _ D). eauto. }
  destruct (concatM_In _ _ _ _ E9 Hin) as (r & Er & Hr'). apply rbind_ok in Er. destruct Er as (es & Ees & Er). injection Er as <-.
  destruct (incoming_ok ps at_ t (a_cap at_) I0 D (l_rx l) es Ees) as (Hnd & Hes).
  assert (M := at_most_sat v (active_among V es) (Cst 1) c9 Hr' S9). cbn [eval] in M. rewrite (active_among_val V ak es Eak VA) in M.
  destruct (beq (l_tx l, l_rx l) (l_tx l', l_rx l')) eqn:B; [now apply beq_true in B|]. apply beq_false in B. exfalso.
  assert (2 <= total (lterm V) es); [|assert (total (lterm V) es <= 1) by (apply M; lra); lra].
  apply (sum_two _ _ (l_tx l, l_rx l) (l_tx l', l_rx l')); auto.
  - intros z _. now apply (lterm_bin V ak).
  - apply Hes. split; [right; right; eauto|reflexivity].
  - apply Hes. split; [right; right; eauto|now rewrite Hr].
  - rewrite (lterm_used V ak k l Eak VA El He). exact Hu.
  - rewrite (lterm_used V ak k' l' Eak VA El' He'). exact Hu'.
Qed.
Lemma chan_symmetric k l k' l' : link_stored t k l -> link_stored t k' l' -> eligible at_ l -> eligible at_ l' -> l_tx l' = l_rx l -> l_rx l' = l_tx l ->
  used v (l_tx l, l_rx l) -> used v (l_rx l, l_tx l).
Proof.
  intros El El' He He' H1 H2 Hu. cps. assert (G := active_get V ak k l Eak VA El He). assert (G' := active_get V ak k' l' Eak VA El' He'). rewrite H1, H2 in G'.
  assert (Q : sat v (Eq (Var (VActive (l_tx l) (l_rx l))) (Var (VActive (l_rx l) (l_tx l))))).
  { apply S6. apply in_flat_map. exists ((l_tx l, l_rx l), Var (VActive (l_tx l) (l_rx l))). split; [now apply dget_In|]. cbn [fst snd]. rewrite G'. now left. }
  cbn [sat eval] in Q. unfold used in *. cbn [fst snd] in *. lra.
Qed.
Lemma chan_odd i ok' : p_ignore_polarities ps = false -> backhaul_site t i -> odd_keys I = Ok ok' ->
  dget (dict_of (fresh VOdd ok')) i = Some (Var (VOdd i)) /\ zero_one (v (VOdd i)).
Proof.
  intros Hp (s & Es & Hty) Eok'. cps. assert (ok = ok') by congruence. subst ok'. assert (D := D0).
  assert (M : In i ok).
  { unfold odd_keys in Eok'. change (i_params I) with (i_params I0) in Eok'. rewrite chan_params, Hp in Eok'. destruct (filterM_ok _ _ _ Eok') as (_ & H & _). apply H.
    split; [apply (D_locs _ _ _ _ _ D); right; left; now exists s|]. unfold get. change (i_type I) with (i_type I0). rewrite (D_site _ _ _ _ _ D _ _ Es). cbn. destruct Hty as [-> | ->]; reflexivity. }
  split; [rewrite fresh_get; apply mem_In in M; now rewrite M|]. apply (Hd (VOdd i, Binary)). rewrite Ed, !in_app_iff. left. apply in_map_iff. eauto.
Qed.
Lemma chan_polarity k l : p_ignore_polarities ps = false -> link_stored t k l -> eligible at_ l -> backhaul_site t (l_tx l) -> backhaul_site t (l_rx l) ->
  used v (l_tx l, l_rx l) -> opposite v (l_tx l) (l_rx l).
Proof.
  intros Hp El He Bt Br Hu. cps. assert (D := D0). destruct (chan_odd _ ok Hp Bt Eok) as (Gt & Ot). destruct (chan_odd _ ok Hp Br Eok) as (Gr & Or). rewrite <- VO in Gt, Gr.
  assert (Hl : In (l_tx l, l_rx l) (i_links I)) by exact (link_in ps at_ t (a_cap at_) I0 D k l El). unfold opposite.
  unfold used in Hu. cbn [fst snd] in Hu. unfold create_active_link_polarity_constraints in E12. unfold create_polarity_link_relationship in E10.
  change (i_params I) with (i_params I0) in E10, E12. rewrite chan_params, Hp in E10, E12.
  destruct (mem (l_tx l, l_rx l) (i_proposed_links I ++ i_existing_links I)) eqn:M.
  - injection E12 as E12. assert (C : In (Eq (Var (VOdd (l_tx l))) (Sub (Cst 1) (Var (VOdd (l_rx l))))) c12).
    { rewrite <- E12. apply in_flat_map. exists (l_tx l, l_rx l). split; [exact Hl|].
      apply mem_In, in_app_iff in M. cbn [fst snd]. rewrite Gt, Gr. destruct M as [M|M]; [contradiction|]. apply mem_In in M.
      match goal with |- context [if ?b then _ else _] => replace b with true by (symmetry; exact M) end. now left. }
    specialize (S12 _ C). cbn in S12. destruct Ot as [Ot|Ot], Or as [Or|Or]; try (exfalso; lra); [right|left]; split; lra.
  - destruct (concatM_In _ _ _ _ E10 Hl) as (r & Er & Hr). rewrite M in Er. rewrite (active_get V ak k l Eak VA El He) in Er.
    destruct Bt as (st & Est & Tt). destruct Br as (sr & Esr & Tr). cbn [fst snd] in Er. unfold get at 1 2 in Er. change (i_type I) with (i_type I0) in Er.
    rewrite (D_site _ _ _ _ _ D _ _ Est), (D_site _ _ _ _ _ D _ _ Esr) in Er. cbn [rbind] in Er.
    replace (dist (Real (s_type st)) && dist (Real (s_type sr))) with true in Er by (destruct Tt as [-> | ->], Tr as [-> | ->]; reflexivity).
    unfold get in Er. rewrite Gt, Gr in Er. cbn [rbind] in Er. injection Er as <-.
    assert (A := S10 _ (Hr _ (or_introl eq_refl))). assert (B := S10 _ (Hr _ (or_intror (or_introl eq_refl)))). cbn in A, B.
    destruct Ot as [Ot|Ot], Or as [Or|Or]; try (exfalso; lra); [right|left]; split; lra.
Qed.
(** ** point-to-multipoint limits *)
Lemma sector_full_val V sk' act' c7 k x e : sector_keys I = Ok sk' -> v_sector V = dict_of (fresh sector_var sk') ->
  active_sites I = Ok act' -> site_constants I act' = Ok (v_site V) -> create_sector_constraints I V = Ok c7 -> (forall c, In c c7 -> sat v c) -> sector_stored t k x ->
  sector_full I V (x_site x) k = Ok e -> eval v e <= 1.
Proof.
  intros Esk VSec Ea VS E7 S7 Hx Ee. assert (B := sector_site_bound V sk' act' c7 k x Esk VSec Ea VS E7 S7 Hx).
  assert (Q : eval v e == total (term V (x_site x) k) (channels I)).
  { unfold sector_full in Ee. apply rbind_ok in Ee. destruct Ee as (l & El & Ee). injection Ee as <-. rewrite eval_xsum. revert l El. generalize (channels I).
    induction l as [|c l IH]; cbn [mapM total]; intros r Er; [injection Er as <-; reflexivity|]. apply rbind_ok in Er. destruct Er as (y & Ey & Er). apply rbind_ok in Er. destruct Er as (ys & Eys & Er). injection Er as <-.
    cbn [total]. rewrite (IH _ Eys). apply get_ok in Ey. unfold term at 2. rewrite Ey. destruct (sector_inv _ _ _ _ _ _ Esk VSec Ey) as (-> & _). cbn [eval]. reflexivity. }
  destruct (mem (x_site x) act'); lra.
Qed.
(** the sums of the limits *)
Lemma sector_links_val V ak k x mine (p : loc_type -> bool) : active_link_keys I = Ok ak -> v_active V = dict_of (fresh active_var ak) -> sector_stored t k x ->
  sector_links I V (x_site x) k = Ok mine -> exists es, NoDup es /\
  (forall e, In e es <-> exists kk l a b, link_stored t kk l /\ eligible at_ l /\ l_sectors l = Some (a, b) /\ l_tx l = x_site x /\ key_id a = k /\ e = (l_tx l, l_rx l) /\
     exists s, dget (t_sites t) (l_rx l) = Some s /\ p (Real (s_type s)) = true) /\
  total (eval v) (map snd (filter (fun q => p (fst q)) mine)) == total (fun e => v (VActive (fst e) (snd e))) es /\ List.length (map snd (filter (fun q => p (fst q)) mine)) = List.length es.
Proof.
  intros Eak VA Hx Em. assert (D := D0). unfold sector_links in Em. apply rbind_ok in Em. destruct Em as (out & Eo & Em).
  destruct (outgoing_ok ps at_ t (a_cap at_) I0 D (x_site x) out Eo) as (Hnd & Hout).
  set (keep := fun e : edge => match dget (i_l2s I0) e with Some s => beq (fst s) (Some k) | None => false end && dmem (v_active V) e &&
     match dget (i_type I0) (snd e) with Some ty => p ty | None => false end).
  exists (filter keep out). split; [now apply NoDup_filter'|]. split.
  - intros e. rewrite filter_In, Hout. unfold keep. split.
    + intros ((He & Hf) & Hb). apply andb_true_iff in Hb. destruct Hb as (Hb & B3). apply andb_true_iff in Hb. destruct Hb as (B1 & B2).
      apply dmem_Some in B2. destruct B2 as (y & B2). destruct (active_inv V ak e y Eak VA B2) as (_ & kk & l & El & Hel & ->). cbn [fst snd] in *.
      rewrite (D_l2s _ _ _ _ _ D _ _ El) in B1. destruct (l_sectors l) as [[a b]|] eqn:Es; cbn [fst] in B1; apply beq_true in B1; [|discriminate]. injection B1 as B1.
      exists kk, l, a, b. do 6 (split; [auto|]). destruct (link_sites t Hw kk l El) as (_ & (s2 & H2)). exists s2. split; [exact H2|]. now rewrite (D_site _ _ _ _ _ D _ _ H2) in B3.
    + intros (kk & l & a & b & El & Hel & Es & Htx & Ha & -> & s2 & H2 & Hp). cbn [fst snd]. split; [split; [right; right; eauto|auto]|].
      rewrite (D_l2s _ _ _ _ _ D _ _ El), Es. cbn [fst]. rewrite Ha, beq_refl. rewrite (D_site _ _ _ _ _ D _ _ H2), Hp, andb_true_r. cbn [andb].
      apply dmem_Some. eexists. exact (active_get V ak kk l Eak VA El Hel).
  - clear Hout Hnd. unfold concatM in Em. apply rbind_ok in Em. destruct Em as (ls & Els & Em). injection Em as <-. clear Eo. revert ls Els.
    induction out as [|e out IH]; cbn [mapM]; intros ls Els; [injection Els as <-; split; reflexivity|].
    apply rbind_ok in Els. destruct Els as (y & Ey & Els). apply rbind_ok in Els. destruct Els as (ys & Eys & Els). injection Els as <-. cbn [List.concat].
    destruct (IH _ Eys) as (T & L). rewrite filter_app, map_app, total_app, app_length, T, L. cbn [filter].
    apply rbind_ok in Ey. destruct Ey as (s & Es & Ey). apply get_ok in Es. change (i_l2s I) with (i_l2s I0) in Es. assert (Ke : keep e = beq (fst s) (Some k) && dmem (v_active V) e && match dget (i_type I0) (snd e) with Some ty => p ty | None => false end) by (unfold keep; now rewrite Es). rewrite Ke. clear Ke.
    destruct (beq (fst s) (Some k)); cbn [andb]; [|injection Ey as <-; cbn [filter map total List.length]; split; [lra|reflexivity]].
    unfold dmem. destruct (dget (v_active V) e) as [z|] eqn:Ez; cbn [andb]; [|injection Ey as <-; cbn [filter map total List.length]; split; [lra|reflexivity]].
    apply rbind_ok in Ey. destruct Ey as (tj & Etj & Ey). injection Ey as <-. apply get_ok in Etj. change (i_type I) with (i_type I0) in Etj. rewrite Etj.
    destruct (active_inv V ak e z Eak VA Ez) as (-> & _). cbn [filter fst]. destruct (p tj); cbn [map snd total eval List.length]; split; try lra; try reflexivity.
Qed.
Lemma multi_bound V sk' act' ak c7 k x mine p limit cs es : sector_keys I = Ok sk' -> v_sector V = dict_of (fresh sector_var sk') ->
  active_sites I = Ok act' -> site_constants I act' = Ok (v_site V) -> create_sector_constraints I V = Ok c7 -> (forall c, In c c7 -> sat v c) -> sector_stored t k x ->
  active_link_keys I = Ok ak -> v_active V = dict_of (fresh active_var ak) -> sector_links I V (x_site x) k = Ok mine ->
  (if Nat.leb limit (List.length (map snd (filter (fun q => p (fst q)) mine)))
   then do s <- sector_full I V (x_site x) k ; Ok [Le (xsum (map snd (filter (fun q => p (fst q)) mine))) (Scale (inject_Z (Z.of_nat limit)) s)] else Ok []) = Ok cs ->
  (forall c, In c cs -> sat v c) -> NoDup es ->
  (forall e, In e es -> used_from at_ t v x (fun i => exists s, dget (t_sites t) i = Some s /\ p (Real (s_type s)) = true) e) -> (List.length es <= limit)%nat.
Proof.
  intros Esk VSec Ea VS E7 S7 Hx Eak VA Em Ec Sc Hnd Hes. destruct (sector_links_val V ak k x mine p Eak VA Hx Em) as (all & Nall & Hall & T & L).
  assert (Kx : x_id x = k) by (destruct Hw as (_ & _ & _ & _ & _ & _ & _ & C); now destruct (C _ _ Hx)).
  assert (Hi : incl es all).
  { intros e He. destruct (Hes e He) as (kk & l & a & b & El & Hel & Es & Htx & Ha & -> & Hu & Hp). apply Hall. exists kk, l, a, b. rewrite Kx in Ha. auto 9. }
  assert (Hlen : (List.length es <= List.length all)%nat) by (now apply NoDup_incl_length).
  destruct (Nat.leb limit (List.length (map snd (filter (fun q => p (fst q)) mine)))) eqn:B; [|apply Nat.leb_gt in B; lia].
  apply rbind_ok in Ec. destruct Ec as (s & Es & Ec). injection Ec as <-. assert (Q := Sc _ (or_introl eq_refl)). cbn [sat eval] in Q. rewrite eval_xsum, T in Q.
  assert (Fs := sector_full_val V sk' act' c7 k x s Esk VSec Ea VS E7 S7 Hx Es).
  assert (U : total (fun e => v (VActive (fst e) (snd e))) es <= total (fun e => v (VActive (fst e) (snd e))) all).
  { apply sum_incl; auto. intros e He. apply Hall in He. destruct He as (kk & l & a & b & El & Hel & _ & _ & _ & -> & _). cbn [fst snd]. destruct (used_bin kk l El Hel); lra. }
  rewrite sum_ones in U by (intros e He; destruct (Hes e He) as (kk & l & a & b & _ & _ & _ & _ & _ & -> & Hu & _); exact Hu).
  assert (W : inject_Z (Z.of_nat (List.length es)) <= inject_Z (Z.of_nat limit)).
  { assert (0 <= inject_Z (Z.of_nat limit)) by (change 0 with (inject_Z 0); rewrite <- Zle_Qle; lia). nra. }
  rewrite <- Zle_Qle in W. lia.
Qed.
Lemma chan_multi k x es : sector_stored t k x -> backhaul_site t (x_site x) -> NoDup es ->
  ((forall e, In e es -> used_from at_ t v x (backhaul_site t) e) -> (List.length es <= dn_limit)%nat) /\
  ((forall e, In e es -> used_from at_ t v x (site_stored t) e) -> (List.length es <= total_limit)%nat).
Proof.
  intros Hx (s & Hs & Hty) Hnd. cps. assert (D := D0). assert (Hloc : In (x_site x) (i_locations I)) by (apply (D_locs _ _ _ _ _ D); right; left; now exists s).
  destruct (concatM_In _ _ _ _ E14 Hloc) as (r & Er & Hr). unfold get at 1 in Er. change (i_type I) with (i_type I0) in Er. rewrite (D_site _ _ _ _ _ D _ _ Hs) in Er. cbn [rbind] in Er.
  replace (negb (dist (Real (s_type s)))) with false in Er by (destruct Hty as [-> | ->]; reflexivity).
  destruct (D_secs _ _ _ _ _ D _ _ Hx) as (sl & Esl & Hin). unfold get in Er at 1. change (i_secs I) with (i_secs I0) in Er. rewrite Esl in Er. cbn [rbind] in Er.
  destruct (concatM_In _ _ _ _ Er Hin) as (r1 & Er1 & Hr1). apply rbind_ok in Er1. destruct Er1 as (mine & Em & Er1). cbv zeta in Er1.
  apply rbind_ok in Er1. destruct Er1 as (d1 & Ed1 & Er1). apply rbind_ok in Er1. destruct Er1 as (d2 & Ed2 & Er1). injection Er1 as <-. split; intros Hes.
  - apply (multi_bound V sk act ak c7 k x mine dist dn_limit d1 es Esk VSec Eact VS E7 S7 Hx Eak VA Em Ed1); auto.
    + intros c Hc. apply S14, Hr, Hr1, in_app_iff. now left.
    + intros e He. destruct (Hes e He) as (kk & l & a & b & A1 & A2 & A3 & A4 & A5 & A6 & A7 & (s2 & H2 & T2)). exists kk, l, a, b. do 7 (split; [auto|]). exists s2. split; [auto|]. destruct T2 as [-> | ->]; reflexivity.
  - apply (multi_bound V sk act ak c7 k x mine (fun ty => dist ty || beq ty (Real CN)) total_limit d2 es Esk VSec Eact VS E7 S7 Hx Eak VA Em Ed2); auto.
    + intros c Hc. apply S14, Hr, Hr1, in_app_iff. now right.
    + intros e He. destruct (Hes e He) as (kk & l & a & b & A1 & A2 & A3 & A4 & A5 & A6 & A7 & (s2 & H2)). exists kk, l, a, b. do 7 (split; [auto|]). exists s2. split; [auto|]. destruct (s_type s2); reflexivity.
Qed.
(** ** what the input fixes *)
Lemma chan_kept k l : link_stored t k l -> eligible at_ l -> l_status l = EXISTING -> deployed t (l_tx l) -> deployed t (l_rx l) -> used v (l_tx l, l_rx l).
Proof.
  intros El He Hst D1 D2. cps. assert (D := D0). unfold create_decided_link_constraints in E11. apply rbind_ok in E11. destruct E11 as (d1 & Ed1 & E11). injection E11 as E11.
  assert (Hl : In (l_tx l, l_rx l) (i_links I)) by exact (link_in ps at_ t (a_cap at_) I0 D k l El).
  destruct (concatM_In _ _ _ _ Ed1 Hl) as (r & Er & Hr). unfold decided_link in Er.
  assert (M : mem (l_tx l, l_rx l) (i_proposed_links I ++ i_existing_links I) = true). { apply mem_In, in_app_iff. right. apply chan_existing. exists k, l. auto. }
  rewrite M in Er. cbn [negb fst snd] in Er.
  assert (Off : forall i s, dget (t_sites t) i = Some s -> deployed t i -> site_off V i = Ok false).
  { intros i s Hs Hdep. unfold site_off, get. rewrite (site_val V act i s Eact VS Hs). cbn [rbind]. apply (active_deployed _ Eact), mem_In in Hdep. rewrite Hdep. reflexivity. }
  destruct (link_sites t Hw k l El) as ((s1 & H1) & (s2 & H2)). rewrite (Off _ _ H1 D1) in Er. cbn [rbind] in Er. rewrite (Off _ _ H2 D2) in Er. cbn [rbind] in Er.
  unfold sectors_of in Er. change (i_l2s I) with (i_l2s I0) in Er. rewrite (D_l2s _ _ _ _ _ D _ _ El) in Er. assert (He' := He). destruct He' as (_ & (a & b & Es) & _). rewrite Es in Er.
  rewrite (active_get V ak k l Eak VA El He) in Er. injection Er as <-.
  assert (Q : sat v (Eq (Var (VActive (l_tx l) (l_rx l))) (Cst 1))); [|exact Q]. apply S11. rewrite <- E11. apply in_app_iff. left. apply Hr. now left.
Qed.
Lemma chan_ruled_out k l : link_stored t k l -> eligible at_ l -> l_status l = UNAVAILABLE \/ l_status l = UNREACHABLE -> v (VActive (l_tx l) (l_rx l)) == 0.
Proof.
  intros El He Hst. cps. assert (D := D0). unfold create_decided_link_constraints in E11. apply rbind_ok in E11. destruct E11 as (d1 & Ed1 & E11). injection E11 as E11.
  assert (Hl : In (l_tx l, l_rx l) (i_links I)) by exact (link_in ps at_ t (a_cap at_) I0 D k l El).
  assert (Q : sat v (Eq (Var (VActive (l_tx l) (l_rx l))) (Cst 0))); [|exact Q]. apply S11. rewrite <- E11. apply in_app_iff. right. apply in_flat_map. exists (l_tx l, l_rx l). split; [exact Hl|].
  assert (M : mem (l_tx l, l_rx l) (i_inactive_links I) = true). { apply mem_In. apply (D_il _ _ _ _ _ D k l El). tauto. }
  rewrite (active_get V ak k l Eak VA El He). match goal with |- context [if ?b then _ else _] => replace b with true by (symmetry; exact M) end. now left.
Qed.
Lemma chan_not_used k l : link_stored t k l -> eligible at_ l -> l_status l = UNAVAILABLE \/ l_status l = UNREACHABLE -> ~ used v (l_tx l, l_rx l).
Proof. intros El He Hs Hu. assert (Z := chan_ruled_out k l El He Hs). unfold used in Hu. cbn [fst snd] in Hu. lra. Qed.
Lemma chan_used_link k l a b : link_stored t k l -> eligible at_ l -> l_sectors l = Some (a, b) -> used v (l_tx l, l_rx l) ->
  deployed t (l_tx l) /\ deployed t (l_rx l) /\
  (exists c, (c < p_channels ps)%nat /\ (k_cn a = true -> c = 0%nat) /\ tuned v (l_tx l) (key_id a) c) /\
  (exists c, (c < p_channels ps)%nat /\ (k_cn b = true -> c = 0%nat) /\ tuned v (l_rx l) (key_id b) c) /\
  (~ type_is t (l_rx l) CN -> forall c, (c < p_channels ps)%nat -> tuned v (l_tx l) (key_id a) c -> tuned v (l_rx l) (key_id b) c).
Proof.
  intros El He Es Hu. destruct (chan_deployed k l El He Hu) as (A & B). split; [exact A|]. split; [exact B|]. exact (chan_link_sectors k l a b El He Es Hu).
Qed.
(** ** traffic and airtime *)
Lemma chan_share_kind k l c : link_stored t k l -> l_wireless l = true -> (c < p_channels ps)%nat -> 0 <= share v c (l_tx l, l_rx l).
Proof.
  intros El W Hc. cps. assert (D := D0). assert (G : In ((l_tx l, l_rx l), c) tk).
  { assert (G := tdm_get ps at_ t (a_cap at_) I0 D Hw (mkTables [] [] [] (dict_of (fresh tdm_var tk)) [] [] []) (ex_intro _ tk (conj Etk eq_refl)) k l c El W (proj2 (chans c) Hc)).
    cbn [v_tdm] in G. rewrite fresh_get in G. destruct (mem ((l_tx l, l_rx l), c) tk) eqn:M; [now apply mem_In|discriminate]. }
  assert (K := Hd (VTdm (l_tx l) (l_rx l) c, Continuous 0 (Some 1))). apply K. rewrite Ed, !in_app_iff. do 6 right. apply in_map_iff. exists ((l_tx l, l_rx l), c). split; [reflexivity|exact G].
Qed.
Lemma chan_traffic k l : link_stored t k l -> l_wireless l = true -> 0 < flow v (l_tx l, l_rx l) -> eligible at_ l /\ used v (l_tx l, l_rx l).
Proof.
  intros El W Hf. assert (D := D0). assert (He : eligible at_ l).
  { split; [exact W|]. split.
    - destruct (l_sectors l) as [[a b]|] eqn:Es; [eauto|exfalso]. cps. unfold create_inactive_link_flow_constraints, no_flow_on in E13.
      assert (Hl : In (l_tx l, l_rx l) (i_links I)) by exact (link_in ps at_ t (a_cap at_) I0 D k l El). destruct (concatM_In _ _ _ _ E13 Hl) as (r & Er & Hr).
      assert (M : mem (l_tx l, l_rx l) (i_inactive_links I) = true). { apply mem_In. apply (D_il _ _ _ _ _ D k l El). tauto. }
      rewrite M in Er. apply rbind_ok in Er. destruct Er as (y & Ey & Er). injection Er as <-. apply get_ok in Ey. rewrite VF, fresh_get in Ey. destruct (mem _ _); [|discriminate]. injection Ey as <-.
      assert (Q := S13 _ (Hr _ (or_introl eq_refl))). cbn [sat eval] in Q; unfold flow_var in Q; cbn [fst snd] in Q. unfold flow in Hf. cbn [fst snd] in Hf. lra.
    - cps. assert (F := tdm_flow_sat ps at_ t (a_cap at_) I0 D Hw Hn V VF (ex_intro _ tk (conj Etk VT)) v c1 k l E1 S1 ch_zero El W).
      destruct (Qlt_le_dec 0 (a_cap at_ (l_tx l, l_rx l))) as [?|Hle]; [auto|exfalso].
      assert (0 <= total (fun c => v (VTdm (l_tx l) (l_rx l) c)) (channels I0)) by (apply total_nonneg; intros c Hc; apply (chan_share_kind k l c El W); now apply chans). nra. }
  split; [exact He|]. destruct (used_bin k l El He) as [Z|Z]; [exfalso|exact Z]. cps.
  assert (Hin : In ((l_tx l, l_rx l), Var (flow_var (l_tx l, l_rx l))) (v_flow V)).
  { apply dget_In. rewrite VF, fresh_get. assert (M : mem (l_tx l, l_rx l) (flow_keys I) = true) by (apply mem_In; exact (link_in ps at_ t (a_cap at_) I0 D k l El)). now rewrite M. }
  destruct (concatM_In _ _ _ _ E5 Hin) as (r & Er & Hr). cbn [fst snd] in Er. rewrite (active_get V ak k l Eak VA El He) in Er. unfold get in Er. change (i_cap I) with (i_cap I0) in Er.
  rewrite (D_cap _ _ _ _ _ D _ _ El) in Er. cbn [rbind] in Er. injection Er as <-. assert (Q := S5 _ (Hr _ (or_introl eq_refl))). cbn [sat eval] in Q; unfold flow_var in Q; cbn [fst snd] in Q. unfold flow in Hf. cbn [fst snd] in Hf. rewrite Z in Q. lra.
Qed.
Lemma chan_idle k l : link_stored t k l -> eligible at_ l ->
  total (fun c => share v c (l_tx l, l_rx l)) (seq 0 (p_channels ps)) <= 1 /\
  forall c, (c < p_channels ps)%nat -> 0 < share v c (l_tx l, l_rx l) -> used v (l_tx l, l_rx l).
Proof.
  intros El He. assert (W : l_wireless l = true) by apply He. assert (B := used_bin k l El He). cps. assert (D := D0).
  assert (Hl : In (l_tx l, l_rx l) (i_links I)) by exact (link_in ps at_ t (a_cap at_) I0 D k l El).
  destruct (concatM_In _ _ _ _ E2 Hl) as (r & Er & Hr).
  assert (G := tdm_get ps at_ t (a_cap at_) I0 D Hw V (ex_intro _ tk (conj Etk VT)) k l 0%nat El W ch_zero).
  assert (M : dmem (v_tdm V) ((l_tx l, l_rx l), 0%nat) = true) by (apply dmem_Some; eauto). rewrite M, (active_get V ak k l Eak VA El He) in Er.
  apply rbind_ok in Er. destruct Er as (y & Ey & Er). injection Er as <-.
  assert (Q := S2 _ (Hr _ (or_introl eq_refl))). cbn [sat eval] in Q.
  assert (T : eval v y == total (fun c => v (VTdm (l_tx l) (l_rx l) c)) (channels I0)) by (eapply tdm_sum_val; eauto).
  rewrite T in Q. unfold channels in Q. rewrite chan_params in Q.
  assert (U : total (fun c => share v c (l_tx l, l_rx l)) (seq 0 (p_channels ps)) <= v (VActive (l_tx l) (l_rx l))) by exact Q.
  split; [destruct B as [B|B]; unfold used in *; cbn [fst snd] in *; lra|].
  intros c Hc Hp. destruct B as [B|B]; [exfalso|exact B].
  assert (K : share v c (l_tx l, l_rx l) <= total (fun c => share v c (l_tx l, l_rx l)) (seq 0 (p_channels ps))).
  { apply (total_member (fun c => share v c (l_tx l, l_rx l))); [|apply in_seq; lia]. intros c' Hc'. apply in_seq in Hc'. apply (chan_share_kind k l c' El W). lia. }
  lra.
Qed.
Lemma chan_airtime k x c es : sector_stored t k x -> (c = 0 \/ k_cn (x_key x) = false)%nat -> (c < p_channels ps)%nat -> lists es (sends t x) \/ lists es (receives t x) ->
  total (share v c) es <= 1 /\ (0 < total (share v c) es -> tuned v (x_site x) k c).
Proof.
  intros Hx Hc Hlt Hes. cps. assert (D := D0). assert (G := sector_get V sk k x c Esk VSec Hx Hc Hlt).
  assert (B := sector_bin _ Esk _ _ _ (sector_key_in sk k x c Esk Hx Hc Hlt)).
  unfold create_sector_constraints in E7. apply rbind_ok in E7. destruct E7 as (d1 & F1 & E7).
  assert (S1' : forall c, In c d1 -> sat v c). { apply rbind_ok in E7. destruct E7 as (? & _ & E7). apply rbind_ok in E7. destruct E7 as (? & _ & E7). apply rbind_ok in E7. destruct E7 as (? & _ & E7). injection E7 as E7. intros z Hz. apply S7. rewrite <- E7, !in_app_iff. auto. }
  assert (U := tdm_sector_sat ps at_ t (a_cap at_) I0 D Hw Hn V (ex_intro _ tk (conj Etk VT)) v d1 k x c _ es F1 S1' ch_zero (proj2 (chans c) Hlt) Hx G). cbn [eval] in U.
  assert (U' : total (share v c) es <= v (VSector (x_site x) k c)) by (apply U; [destruct B; lra|exact Hes]). unfold tuned.
  destruct B as [B|B]; rewrite B in U'; split; try lra; intros; lra.
Qed.
(** ** the angle guideline *)
Lemma chan_angle i j h k1 l1 a1 b1 k2 l2 a2 b2 c : In (i, j, h) bad ->
  link_stored t k1 l1 -> eligible at_ l1 -> l_sectors l1 = Some (a1, b1) -> l_tx l1 = i -> l_rx l1 = j ->
  link_stored t k2 l2 -> eligible at_ l2 -> l_sectors l2 = Some (a2, b2) -> l_tx l2 = i -> l_rx l2 = h ->
  used v (i, j) -> used v (i, h) -> (c < p_channels ps)%nat -> tuned v i (key_id a1) c -> tuned v i (key_id a2) c -> existing_link t (i, j) /\ existing_link t (i, h).
Proof.
  intros Hb El1 He1 Es1 T1 R1 El2 He2 Es2 T2 R2 U1 U2 Hc Tu1 Tu2. cps. assert (D := D0).
  destruct (concatM_In _ _ _ _ E16 Hb) as (r & Er & Hr). cbv beta iota in Er.
  assert (G1 := active_get V ak k1 l1 Eak VA El1 He1). assert (G2 := active_get V ak k2 l2 Eak VA El2 He2). rewrite T1, R1 in G1. rewrite T2, R2 in G2. rewrite G1, G2 in Er.
  destruct (mem (i, j) (i_proposed_links I ++ i_existing_links I) && mem (i, h) (i_proposed_links I ++ i_existing_links I)) eqn:M.
  { apply andb_true_iff in M. destruct M as (M1 & M2). apply mem_In, in_app_iff in M1. apply mem_In, in_app_iff in M2. destruct M1 as [[]|M1], M2 as [[]|M2]. split; now apply chan_existing. }
  exfalso. clear M. change (p_channels (i_params I)) with (p_channels (i_params I0)) in Er. rewrite chan_params in Er. unfold used in U1, U2. cbn [fst snd] in U1, U2.
  destruct (Nat.eqb (p_channels ps) 1) eqn:En.
  - injection Er as <-. assert (Q := S16 _ (Hr _ (or_introl eq_refl))). cbn [sat eval] in Q. lra.
  - destruct (concatM_In _ _ _ _ Er (proj2 (chans c) Hc)) as (r1 & Er1 & Hr1). apply rbind_ok in Er1. destruct Er1 as (y1 & Ey1 & Er1). apply rbind_ok in Er1. destruct Er1 as (y2 & Ey2 & Er1). injection Er1 as <-. apply get_ok in Ey1, Ey2.
    assert (Q := S16 _ (Hr _ (Hr1 _ (or_introl eq_refl)))). cbn [sat eval] in Q.
    assert (K : forall k l a b y, link_stored t k l -> eligible at_ l -> l_sectors l = Some (a, b) -> v (VActive (l_tx l) (l_rx l)) == 1 -> tuned v (l_tx l) (key_id a) c -> dget Dp (l_tx l, l_rx l, c) = Some y -> 1 <= eval v y).
    { intros k l a b y El He Es U Tu Ey. unfold create_deployment_link_constraints in E15. change (p_channels (i_params I)) with (p_channels (i_params I0)) in E15. rewrite chan_params, En in E15.
      destruct (concatM_In _ _ _ _ E15 (dget_In _ _ _ Ey)) as (q & Eq & Hq). unfold deployment_link in Eq. cbn [fst snd] in Eq.
      unfold get at 1 2 in Eq. change (i_l2s I) with (i_l2s I0) in Eq. rewrite (active_get V ak k l Eak VA El He), (D_l2s _ _ _ _ _ D _ _ El), Es in Eq. cbn [rbind] in Eq.
      apply rbind_ok in Eq. destruct Eq as (z1 & Ez1 & Eq). apply rbind_ok in Eq. destruct Eq as (z2 & Ez2 & Eq). injection Eq as <-. apply get_ok in Ez1. destruct (sector_inv _ _ _ _ _ _ Esk VSec Ez1) as (-> & _).
      destruct (chan_link_sectors k l a b El He Es U) as (_ & (c' & Hc' & Hcn & Tr) & Same). destruct (link_ends k l a b El Es) as (x & w & Hx & Kx & Sx & Hw' & Kw & Sw).
      assert (One : eval v z2 == 1).
      { destruct (link_sites t Hw k l El) as (_ & (s2 & H2)). assert (Kd := Hk _ _ s2 Hw'). rewrite Sw, Kw in Kd. specialize (Kd H2). destruct (k_cn b) eqn:Kb.
        - assert (c' = 0)%nat by auto. subst c'. destruct (dget (v_sector V) (l_rx l, key_id b, c)) as [q|] eqn:Eq'.
          + injection Ez2 as <-. destruct (sector_inv _ _ _ _ _ _ Esk VSec Eq') as (-> & Hin). rewrite <- Sw in Hin. rewrite <- Kw in Kb. rewrite (sector_cn_key sk _ w c Esk Hw' Kb Hin). exact Tr.
          + apply get_ok in Ez2. destruct (sector_inv _ _ _ _ _ _ Esk VSec Ez2) as (-> & _). exact Tr.
        - assert (Gz := sector_get V sk (key_id b) w c Esk VSec Hw' (or_intror (eq_trans (f_equal k_cn Kw) Kb)) Hc). rewrite Sw in Gz. rewrite Gz in Ez2. injection Ez2 as <-. cbn [eval].
          apply Same; auto. intros (s3 & H3 & Ty). rewrite H2 in H3. injection H3 as <-. apply Kd in Ty. discriminate. }
      assert (Z := S15 _ (Hq _ (or_intror (or_intror (or_intror (or_introl eq_refl)))))). cbn [sat eval] in Z. unfold tuned in Tu. rewrite One, U, Tu in Z. lra. }
    assert (A1 : 1 <= eval v y1). { apply (K k1 l1 a1 b1 y1 El1 He1 Es1); rewrite T1, ?R1; assumption. }
    assert (A2 : 1 <= eval v y2). { apply (K k2 l2 a2 b2 y2 El2 He2 Es2); rewrite T2, ?R2; assumption. }
    lra.
Qed.
End Chan.
