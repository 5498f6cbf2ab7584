(** When a site-selection problem has an answer: the proofs. *)
From Coq Require Import QArith Lqa Lia.
From Verif Require Import Base Dict TopologyModel TopologySpec TopologyLemmas GraphSpec GraphProofs RfModel RfProofs SetupModel
  IlpModel IlpSpec QLib MonadLib SetupProofs IlpLemmas IlpProofs ExtractModel ExtractSpec ExtractProofs SolveSpec SolveProofs.
Local Open Scope Q_scope.

Lemma fold_nonneg l : (forall x, In x l -> 0 <= x) -> 0 <= fold_left Qplus l 0.
Proof.
  assert (G : forall a, 0 <= a -> (forall x, In x l -> 0 <= x) -> 0 <= fold_left Qplus l a); [|intros H; apply G; [lra|exact H]].
  induction l as [|b l IH]; intros a Ha H; cbn [fold_left]; [exact Ha|]. apply IH; [|intros x Hx; apply H; now right]. assert (B := H b (or_introl eq_refl)). lra.
Qed.

Section Main.
Variables (ps : params) (at_ : attrs) (t : topo) (I0 : inst).
Hypothesis Hw : well_formed t.
Hypothesis Hn : names_ok at_ t.
Hypothesis HI : network ps at_ t = Ok I0.
Let I := with_channels 1 I0.

Lemma problem_posed g adv : exists P, site_problem g adv I0 = Ok P.
Proof using Hw Hn HI.
  destruct (tables_ok ps at_ t I0 Hw Hn HI) as (V & sk & tk & ok & EV & Etk & Eok & Esk & VS & VF & VT & VO & VSh & VSec & VSec').
  destruct (decls_ok ps at_ t I0 Hw Hn HI) as (ds & Eds & _).
  destruct (pose_constraints ps at_ t I0 Hw Hn HI V tk ok Etk Eok VS VF VT VO VSh VSec adv) as (cs & Ecs & _).
  destruct (goal_ok ps at_ t I0 Hw Hn HI V VS VSh VSec' g) as (cx & Ecx).
  unfold site_problem. rewrite EV. cbn [rbind]. rewrite Eds. cbn [rbind]. rewrite Ecs. cbn [rbind]. rewrite Ecx. cbn [rbind]. eauto.
Qed.

(** ** what the network is made of is not negative *)
Section Sane.
Hypothesis Hs : sane ps at_ t.
Lemma demand_nonneg n q : consumer at_ t n -> dget (i_demand I) n = Some q -> 0 <= q.
Proof using Hw Hn HI Hs.
  intros Hc E. destruct (D_demand _ _ _ _ _ (D ps at_ t I0 Hw Hn HI) n Hc) as (i & d & Ed & _ & E'). fold I in E'. rewrite E in E'. injection E' as ->.
  destruct (setup_fields ps at_ t I0 (proj1 (network_setup ps at_ t I0 HI))) as (thr & _ & _ & Edem & _). assert (C := Edem i d Ed). unfold check_demand in C. unfold demand_value.
  destruct (a_demand at_ (d_id d)) as [q|]; [|lra]. inv_do. assert (G : 0 <= q) by (apply Qle_bool_iff; destruct (Qle_bool 0 q); [reflexivity|discriminate]).
  destruct Hs as (_ & Ho & _). apply Qle_shift_div_l; [exact Ho|lra].
Qed.
Lemma max_nonneg : 0 <= i_max_throughput I.
Proof using Hw Hn HI Hs.
  destruct (setup_fields ps at_ t I0 (proj1 (network_setup ps at_ t I0 HI))) as (thr & Ethr & _ & _ & _ & _ & Floc & _ & Fset & _ & _ & _ & _ & _ & _ & _ & _ & _ & _ & _ & _ & _ & _ & _ & _ & Fmax).
  change (i_max_throughput I) with (i_max_throughput I0). rewrite Fmax. apply fold_nonneg. intros q Hq. destruct (mapM_inv _ _ _ _ Ethr Hq) as (n & Hin & E). apply get_ok in E.
  apply filter_In in Hin. destruct Hin as (_ & M). rewrite <- Fset in M. apply mem_In in M. apply (D_dset _ _ _ _ _ (D ps at_ t I0 Hw Hn HI)) in M. exact (demand_nonneg n q M E).
Qed.
Lemma max_link_nonneg : 0 <= max_link_cap ps at_ t.
Proof using Hw Hs.
  destruct Hs as (Hp & _ & Hc). assert (A : forall p, In p (topology_edges t) -> 0 <= a_cap at_ (fst p)).
  { intros p Hin. unfold topology_edges in Hin. apply in_map_iff in Hin. destruct Hin as ((k & l) & <- & Hin). cbn [fst snd]. apply (Hc k l). now apply In_dget; [apply Hw|]. }
  unfold max_link_cap. destruct (topology_edges t) as [|p r]; [exact Hp|].
  assert (G : forall a, 0 <= a -> (forall p, In p r -> 0 <= a_cap at_ (fst p)) -> 0 <= fold_left (fun m q => qmax2 m (a_cap at_ (fst q))) r a).
  { clear. induction r as [|b r IH]; intros a Ha H; cbn [fold_left]; [exact Ha|]. apply IH; [|intros p Hp; apply H; now right]. unfold qmax2. destruct (Qle_bool _ _); auto. apply H. now left. }
  apply G; [apply A; now left|]. intros q Hq. apply A. now right.
Qed.
Lemma cap_nonneg e q : dget (i_cap I) e = Some q -> 0 <= q.
Proof using Hw Hn HI Hs.
  destruct (setup_fields ps at_ t I0 (proj1 (network_setup ps at_ t I0 HI))) as (thr & _ & _ & _ & _ & _ & _ & _ & _ & _ & _ & _ & Fcap & _).
  change (i_cap I) with (i_cap I0). rewrite Fcap. intros E. apply dict_of_In in E. destruct Hs as (Hp & _ & Hc). rewrite !in_app_iff, !in_map_iff in E. destruct E as [(i & E & _)|[(p & E & _)|(p & E & Hin)]].
  - injection E as _ <-. exact Hp.
  - injection E as _ <-. apply max_link_nonneg.
  - injection E as _ <-. unfold topology_edges in Hin. apply in_map_iff in Hin. destruct Hin as ((k & l) & <- & Hin). cbn [fst snd]. apply (Hc k l). now apply In_dget; [apply Hw|].
Qed.
End Sane.

(** ** the price of a choice *)
Definition on_ (chosen : list string) (i : string) : Q := if mem i chosen then 1 else 0.
Definition sec_ (z : string -> Q) (k : string) : Q := match dget (t_sectors t) k with Some x => z (x_site x) | None => 0 end.
Lemma existing_iff i s : dget (t_sites t) i = Some s -> (ex_ I0 i = true <-> s_status s = EXISTING).
Proof using Hw Hn HI.
  intros Es. unfold ex_. rewrite mem_In, (D_es _ _ _ _ _ (D ps at_ t I0 Hw Hn HI)). split; [intros (s' & E & H); congruence|eauto].
Qed.
Lemma bill_of_choice chosen z q : (forall i, site_stored t i -> z i == on_ chosen i) -> costs ps at_ t chosen q -> bill t I0 z (sec_ z) == q.
Proof using Hw Hn HI.
  intros Hz (sites & nodes & Ls & Ln & ->). assert (Wd : dwf (t_sites t)) by apply Hw. assert (Wx : dwf (t_sectors t)) by apply Hw.
  unfold bill. apply Qplus_comp.
  - set (F := fun i => if ex_ I0 i then 0 else site_price ps t i * z i).
    transitivity (total F (dkeys (t_sites t))).
    { unfold dkeys. rewrite total_map. apply total_ext. intros [i s] Hin. cbn [fst snd]. unfold F, site_price. rewrite (In_dget _ _ _ Wd Hin). unfold price.
      destruct (params_val ps at_ t I0 HI) as (_ & _ & _ & _ & _ & Q). fold I in Q. fold I. now rewrite Q. }
    transitivity (total (site_price ps t) (filter (fun i => negb (ex_ I0 i) && mem i chosen) (dkeys (t_sites t)))).
    { rewrite total_filter. apply total_ext. intros i Hi. unfold F. assert (Hst : site_stored t i) by now apply In_dkeys. destruct (ex_ I0 i); cbn [negb andb]; [reflexivity|]. rewrite (Hz i Hst). unfold on_. destruct (mem i chosen); lra. }
    apply (lists_total _ _ _ (new_site t chosen)); [|exact Ls]. split; [apply NoDup_filter'; exact Wd|]. intros i. rewrite filter_In, In_dkeys, andb_true_iff, negb_true_iff, mem_In. unfold new_site. split.
    + intros ((s & Es) & Hex & Hon). split; [auto|]. exists s. split; [auto|]. intros E. apply (existing_iff i s Es) in E. congruence.
    + intros (Hon & s & Es & Hex). split; [eauto|]. split; [destruct (ex_ I0 i) eqn:E; [|auto]; apply (existing_iff i s Es) in E; contradiction|auto].
  - set (zz := fun e : edge => if ex_ I0 (fst e) then 0 else sec_ z (snd e)).
    assert (Fc : i_seccost I = dict_of (sector_costs at_ [] (t_sectors t))).
    { assert (Sf := setup_fields ps at_ t I0 (proj1 (network_setup ps at_ t I0 HI))). destruct Sf as (thr & _ & _ & _ & _ & _ & _ & _ & _ & _ & _ & _ & _ & _ & _ & _ & _ & _ & _ & _ & _ & _ & _ & _ & Fcost & _). exact Fcost. }
    transitivity (total (fun p => val (dict_of (sector_costs at_ [] (t_sectors t))) (x_site (snd p), fst p) * zz (x_site (snd p), fst p)) (t_sectors t)).
    { apply total_ext. intros [k x] Hin. cbn [fst snd]. unfold q_, zz. fold I. rewrite Fc. cbn [fst snd]. destruct (ex_ I0 (x_site x)); lra. }
    rewrite costs_lookup by exact Wx.
    set (W := fun n : string * nat => negb (ex_ I0 (fst n)) && mem (fst n) chosen).
    rewrite (costs_by_node at_ zz (fun n => if W n then 1 else 0)).
    + transitivity (total (fun n => a_node_capex at_ (fst n)) (filter W (new_nodes [] (t_sectors t)))).
      { rewrite total_filter. apply total_ext. intros n _. destruct (W n); lra. }
      apply (lists_total _ _ _ (new_node t chosen)); [|exact Ln]. split; [apply NoDup_filter', new_nodes_NoDup|]. intros n. rewrite filter_In, new_nodes_In. unfold W. rewrite andb_true_iff, negb_true_iff, mem_In. unfold new_node, new_site. split.
      * intros ((((k & x) & Hin & Hb) & _) & Hex & Hon). cbn [snd] in Hb. assert (Hx : sector_stored t k x) by now apply In_dget. subst n. change (fst (node_of x)) with (x_site x) in *.
        destruct (sector_site_stored _ _ _ Hw Hx) as (s & Es). exists k, x. split; [auto|]. split; [auto|]. split; [auto|]. exists s. split; [auto|]. intros E. apply (existing_iff _ _ Es) in E. congruence.
      * intros (k & x & Hx & <- & Hon & s & Es & Hex). assert (Hin : In (k, x) (t_sectors t)) by (now apply dget_In). split; [split; [exists (k, x); auto|auto]|]. change (fst (node_of x)) with (x_site x). split; [|auto].
        destruct (ex_ I0 (x_site x)) eqn:E; [|auto]. apply (existing_iff _ _ Es) in E. contradiction.
    + intros [k x] Hin. cbn [fst snd]. assert (Hx : sector_stored t k x) by now apply In_dget. unfold zz, W. cbn [fst snd]. change (fst (node_of x)) with (x_site x). destruct (ex_ I0 (x_site x)); cbn [negb andb]; [reflexivity|].
      unfold sec_. unfold sector_stored in Hx. rewrite Hx. exact (Hz _ (sector_site_stored _ _ _ Hw Hx)).
Qed.
Lemma cost_value V v x :
  (forall i, dget (v_site V) i = if dmem (t_sites t) i then Some (Var (VSite i)) else None) ->
  (forall k x, sector_stored t k x -> dget (v_sector V) (x_site x, k, 0%nat) = Some (Var (VSite (x_site x)))) ->
  extract_cost I V = Ok x -> eval v x == bill t I0 (fun i => v (VSite i)) (sec_ (fun i => v (VSite i))).
Proof using Hw Hn HI.
  intros VS VSec E. unfold extract_cost in E. inv_do. subst x. rewrite eval_xsum.
  set (h := fun i => match site_cost I V i with Ok x => eval v x | Err _ => 0 end).
  assert (Eh : total (eval v) x0 == total h (i_locations I)).
  { rewrite (mapM_eq _ (fun i => match site_cost I V i with Ok x => x | Err _ => Cst 0 end) _ _ E0).
    - rewrite total_map. apply total_ext. intros i _. unfold h. destruct (site_cost I V i); reflexivity.
    - intros i y _ Ey. now rewrite Ey. }
  rewrite Eh. assert (DD := D ps at_ t I0 Hw Hn HI). fold I in DD. apply (bill_by_location ps at_ t I0 Hw Hn HI).
  + intros i Hi Hno. destruct (mapM_In _ _ _ _ E0 Hi) as (y & Ey & _). unfold h. rewrite Ey. unfold site_cost in Ey. inv_do. apply (D_type _ _ _ _ _ DD) in E. destruct E as [(_ & ->)|[(s & Es & _)|(_ & ->)]].
    * injection Ey as <-. reflexivity.
    * exfalso. apply Hno. exists s; assumption.
    * injection Ey as <-. reflexivity.
  + intros i s l Es El. assert (Hi : In i (i_locations I)) by (apply (site_location ps at_ t I0 Hw Hn HI); now exists s). destruct (mapM_In _ _ _ _ E0 Hi) as (y & Ey & _). unfold h. rewrite Ey. unfold site_cost in Ey.
    unfold get at 1 in Ey. rewrite (D_site _ _ _ _ _ DD _ _ Es) in Ey. cbn [rbind] in Ey. unfold ex_. fold I. destruct (mem i (i_existing_sites I)); [injection Ey as <-; reflexivity|]. inv_do. subst y.
    fold I in El. assert (x1 = l) by congruence. subst x1.
    cbn [eval]. rewrite VS in E. assert (M : dmem (t_sites t) i = true) by (apply stored_dmem; now exists s). rewrite M in E. injection E as <-. cbn [eval]. apply Qplus_comp; [reflexivity|]. rewrite eval_xsum.
    assert (T : forall a, In a l -> exists r, (do st <- get (i_sectype I) a ; if imaginary_sec st then Ok [] else do q <- get (i_seccost I) (i, a) ; Ok [Scale q (sector_sum I V i a)]) = Ok r /\ total (eval v) r == if real_sec I0 a then q_ I0 (i, a) * sec_ (fun i => v (VSite i)) a else 0).
    { intros a Ha. destruct (D_sectype_tot _ _ _ _ _ DD i l a El Ha) as (ty & Ety). unfold real_sec. fold I. unfold get at 1. rewrite Ety. cbn [rbind]. destruct (imaginary_sec ty) eqn:Im; [exists []; split; reflexivity|].
      destruct (D_sec_inv _ _ _ _ _ DD i l a ty El Ha Ety Im) as (w & Hx & Hxs). assert (Sc := seccost_get ps at_ t I0 HI _ _ Hx). rewrite Hxs in Sc. fold I in Sc. unfold get. rewrite Sc. cbn [rbind negb]. eexists. split; [reflexivity|].
      cbn [total eval]. unfold sector_sum. change (channels I) with [0%nat]. cbn [flat_map]. assert (Sg := VSec a w Hx). rewrite Hxs in Sg.
      rewrite Sg. cbn [app]. rewrite eval_xsum. cbn [total eval]. unfold sec_. unfold sector_stored in Hx. rewrite Hx, Hxs. ring. }
    match goal with H : concatM _ l = Ok _ |- _ => unfold concatM in H; apply rbind_ok in H; destruct H as (xs & Exs & H); injection H as <- end. clear - Exs T. revert xs Exs. induction l as [|a l IH]; intros r Er; cbn [mapM] in Er.
    * injection Er as <-. reflexivity.
    * destruct (T a (or_introl eq_refl)) as (ra & Era & Ta). rewrite Era in Er. cbn [rbind] in Er. apply rbind_ok in Er. destruct Er as (rs & Ers & Er). injection Er as <-.
      cbn [List.concat total]. rewrite total_app, Ta, (IH (fun b Hb => T b (or_intror Hb)) _ Ers). reflexivity.
Qed.

(** ** from a choice to a plan *)
Definition plan_of (chosen : list string) (odd : string -> bool) (x : var) : Q :=
  match x with
  | VSite i => on_ chosen i
  | VOdd i => if odd i then 1 else 0
  | VShort n => match dget (i_demand I) n with Some q => q | None => 0 end
  | _ => 0
  end.
Lemma plan_selects chosen odd i : selected (plan_of chosen odd) i <-> In i chosen.
Proof using. unfold selected, plan_of, on_. destruct (mem i chosen) eqn:M; [apply mem_In in M|apply mem_not_In in M]; split; intros H; try tauto; try reflexivity; discriminate. Qed.
Lemma plan_idle chosen odd : sane ps at_ t -> site_choice ps t (fun i => In i chosen) ->
  (p_ignore_polarities ps = false -> forall k l, link_stored t k l -> active_link l -> backhaul_site t (l_tx l) -> backhaul_site t (l_rx l) -> odd (l_tx l) <> odd (l_rx l)) ->
  idle ps at_ t I0 (plan_of chosen odd).
Proof using Hw Hn HI.
  intros Hs Ch Ho. split.
  - reflexivity.
  - reflexivity.
  - intros i. unfold bin, plan_of, on_. destruct (mem i chosen); [right|left]; reflexivity.
  - intros i. unfold bin, plan_of. destruct (odd i); [right|left]; reflexivity.
  - intros n q _ E. unfold plan_of. fold I in E. rewrite E. reflexivity.
  - exact (demand_nonneg Hs).
  - exact (max_nonneg Hs).
  - apply Hs.
  - exact (cap_nonneg Hs).
  - intros Ig k l El Al B1 B2. specialize (Ho Ig k l El Al B1 B2). unfold plan_of. destruct (odd (l_tx l)), (odd (l_rx l)); try reflexivity; exfalso; now apply Ho.
  - destruct Ch as (C1 & C2 & C3). split; [|split].
    + intros i s H. apply plan_selects in H. now apply C1.
    + intros i j si sj H1 H2. apply plan_selects in H1. apply plan_selects in H2. now apply C2.
    + intros i s Es U. destruct (C3 i s Es U) as (j & sj & Ej & L & H & R). exists j, sj. split; [exact Ej|]. split; [exact L|]. split; [now apply plan_selects|exact R].
Qed.
Lemma idle_plan g adv P : site_problem g adv I0 = Ok P -> exists V cx, goal_constraint g I V = Ok cx /\
  (forall i, dget (v_site V) i = if dmem (t_sites t) i then Some (Var (VSite i)) else None) /\
  (forall k x, sector_stored t k x -> dget (v_sector V) (x_site x, k, 0%nat) = Some (Var (VSite (x_site x)))) /\
  (forall v c, feasible P v -> In c cx -> sat v c) /\
  (forall v, idle ps at_ t I0 v -> (forall c, In c cx -> sat v c) -> feasible P v).
Proof using Hw Hn HI.
  intros HP. destruct (tables_ok ps at_ t I0 Hw Hn HI) as (V & sk & tk & ok & EV & Etk & Eok & Esk & VS & VF & VT & VO & VSh & VSec & VSec').
  destruct (decls_ok ps at_ t I0 Hw Hn HI) as (ds & Eds & Hds).
  destruct (pose_constraints ps at_ t I0 Hw Hn HI V tk ok Etk Eok VS VF VT VO VSh VSec adv) as (cs & Ecs & Scs).
  destruct (goal_ok ps at_ t I0 Hw Hn HI V VS VSh VSec' g) as (cx & Ecx). exists V, cx. split; [exact Ecx|]. split; [exact VS|]. split; [exact VSec'|].
  unfold site_problem in HP. rewrite EV in HP. cbn [rbind] in HP. rewrite Eds in HP. cbn [rbind] in HP. rewrite Ecs in HP. cbn [rbind] in HP. rewrite Ecx in HP. cbn [rbind] in HP. injection HP as <-. unfold feasible. cbn [decls constraints]. split.
  - intros v c (_ & H) Hc. apply H, in_app_iff. auto.
  - intros v Hv Hx. split.
    + intros d Hd. destruct (Hds d Hd) as [(i & _ & ->)|[(e & ->)|[(k & ->)|[(i & ->)|(n & q & Hc & E & ->)]]]]; cbn [fst snd in_kind].
      * exact (id_site _ _ _ _ _ Hv i).
      * rewrite (id_flow _ _ _ _ _ Hv e). split; [apply Qle_refl|exact Logic.I].
      * rewrite (id_tdm _ _ _ _ _ Hv k). split; [apply Qle_refl|lra].
      * exact (id_odd _ _ _ _ _ Hv i).
      * rewrite (id_short _ _ _ _ _ Hv n q Hc E). split; [exact (id_dem _ _ _ _ _ Hv n q Hc E)|apply Qle_refl].
    + intros c Hc. apply in_app_iff in Hc. destruct Hc as [Hc|Hc]; [exact (Scs v Hv c Hc)|auto].
Qed.

(** ** from a plan to a choice *)
Definition choice_of (v : var -> Q) : list string := filter (fun i => Qeq_bool (v (VSite i)) 1) (dkeys (t_sites t)).
Lemma choice_In v i : In i (choice_of v) <-> site_stored t i /\ selected v i.
Proof using. unfold choice_of, selected. rewrite filter_In, In_dkeys, Qeq_bool_iff. reflexivity. Qed.
Lemma choice_value g adv P v i : site_problem g adv I0 = Ok P -> feasible P v -> site_stored t i -> v (VSite i) == on_ (choice_of v) i.
Proof using Hw Hn HI.
  intros HP Hv Hi. assert (B : bin (v (VSite i))).
  { destruct (pieces I0 g adv P v HP Hv) as (V & ds & sk & tk & ok & c1 & c2 & c3 & c4 & c5 & c6 & c7 & c8 & c9 & c10 & c11 & cx & Esk & _ & _ & _ & _ & _ & _ & _ & _ & Eds & Hds & _).
    destruct (site_keys_ok ps at_ t I0 Hw Hn HI) as (sk' & E' & Hsk). rewrite Esk in E'. injection E' as <-.
    unfold site_decls in Eds. rewrite Esk in Eds. cbn [rbind] in Eds. inv_do. subst ds. apply (Hds (VSite i, Binary)). rewrite !in_app_iff, !in_map_iff. left. exists i. split; [reflexivity|now apply Hsk]. }
  unfold on_. destruct (mem i (choice_of v)) eqn:M.
  - apply mem_In, choice_In in M. apply M.
  - apply mem_not_In in M. destruct B as [B|B]; [exact B|]. exfalso. apply M, choice_In. auto.
Qed.
Lemma plan_choice g adv P v : active_links_sound t -> site_problem g adv I0 = Ok P -> feasible P v -> valid_choice ps t (choice_of v).
Proof using Hw Hn HI.
  intros Hal HP Hv. assert (DD := D ps at_ t I0 Hw Hn HI). split; [apply NoDup_filter'; apply Hw|]. split; [intros i H; apply choice_In in H; tauto|]. split.
  - split; [|split].
    + intros i s H Es (Hst & Hno). apply choice_In in H. apply (ruled_out ps at_ t I0 g adv P v Hw Hn HI HP Hv i s Es Hst); [|tauto]. intros A T. auto.
    + intros i j si sj H1 H2 E1 E2 L. apply choice_In in H1. apply choice_In in H2. destruct (String.string_dec i j) as [X|X]; [exact X|]. exfalso. apply (colocated_exclusive ps at_ t I0 g adv P v Hw Hn HI HP Hv i j si sj E1 E2 X L). tauto.
    + intros i s Es U. destruct (D_col_dom _ _ _ _ _ DD i s Es) as (locs & El). assert (L := D_col _ _ _ _ _ DD _ _ El).
      assert (Hi : In i locs) by (apply L; eauto).
      destruct (existsb (fun j => negb (beq i j)) locs) eqn:X.
      * apply existsb_exists in X. destruct X as (j & Hj & X). apply negb_true_iff, beq_false in X. apply L in Hj. destruct Hj as (sj & Ej & Lj).
        destruct (colocated_kept ps at_ t I0 g adv P v Hw Hn HI HP Hv i s Es U) as (j' & sj' & Ej' & Lj' & Sj' & R). { exists j, sj. auto. }
        exists j', sj'. split; [exact Ej'|]. split; [exact Lj'|]. split; [|exact R]. apply choice_In. split; [now exists sj'|exact Sj'].
      * assert (Al : forall j sj, dget (t_sites t) j = Some sj -> s_loc sj = s_loc s -> j = i).
        { intros j sj Ej Lj. assert (Hj : In j locs) by (apply L; eauto). destruct (beq i j) eqn:B; [apply beq_true in B; auto|]. assert (Y : existsb (fun j => negb (beq i j)) locs = true) by (apply existsb_exists; exists j; rewrite B; auto). congruence. }
        exists i, s. split; [exact Es|]. split; [reflexivity|]. split; [|split; [apply le_n|split; intros _; exact U]]. apply choice_In. split; [now exists s|].
        apply (lone_decided ps at_ t I0 g adv P v Hw Hn HI HP Hv i s Es Al). destruct U as [U|[U|[(k & l & El' & T & A)|U]]]; auto. destruct (Hal k l i s El' A T Es); auto.
  - intros Ig. exists (fun i => Qeq_bool (v (VOdd i)) 1). intros k l El Al B1 B2.
    destruct (pieces I0 g adv P v HP Hv) as (V & ds & sk & tk & ok & c1 & c2 & c3 & c4 & c5 & c6 & c7 & c8 & c9 & c10 & c11 & cx & Esk & Etk & Eok & _ & _ & _ & VO & _ & _ & Eds & Hds & _ & _ & _ & _ & _ & _ & _ & _ & _ & _ & _ & _ & _ & _ & _ & _ & _ & _ & E10 & S10 & _).
    fold I in Eok, E10. destruct (odd_keys_ok ps at_ t I0 Hw Hn HI) as (ok' & E' & Hok). fold I in E'. rewrite Eok in E'. injection E' as <-.
    assert (G : forall i, backhaul_site t i -> dget (v_odd V) i = Some (Var (VOdd i))). { intros i Hb. rewrite VO, fresh_get. assert (M : mem i ok = true) by (apply mem_In, Hok; auto). now rewrite M. }
    assert (Bin : forall i, backhaul_site t i -> v (VOdd i) == 0 \/ v (VOdd i) == 1).
    { intros i Hb. fold I in Esk, Etk, Eds. unfold site_decls in Eds. rewrite Esk, Etk, Eok in Eds. cbn [rbind] in Eds. inv_do. subst ds. apply (Hds (VOdd i, Binary)). rewrite !in_app_iff, !in_map_iff. right; right; right; left. exists i. split; [reflexivity|now apply Hok]. }
    unfold create_active_link_polarity_constraints in E10. destruct (params_val ps at_ t I0 HI) as (_ & Q & _). fold I in Q. rewrite Q, Ig in E10. injection E10 as <-.
    assert (C : v (VOdd (l_tx l)) == 1 - v (VOdd (l_rx l))).
    { apply (S10 (Eq (Var (VOdd (l_tx l))) (Sub (Cst 1) (Var (VOdd (l_rx l)))))). apply in_flat_map. exists (l_tx l, l_rx l). split.
      - apply (D_links _ _ _ _ _ DD). right; right. exists k, l. auto.
      - cbv beta. match goal with |- In _ (if ?b then _ else _) => assert (A : b = true) end.
        { apply orb_true_iff. rewrite !mem_In, <- in_app_iff. apply (D_alinks _ _ _ _ _ DD). exists k, l. auto. }
        rewrite A. cbn [fst snd]. rewrite (G _ B1), (G _ B2). now left. }
    destruct (Qeq_bool (v (VOdd (l_tx l))) 1) eqn:X, (Qeq_bool (v (VOdd (l_rx l))) 1) eqn:Y; try congruence; intros _.
    + apply Qeq_bool_iff in X. apply Qeq_bool_iff in Y. rewrite X, Y in C. discriminate.
    + apply Qeq_bool_neq in X. apply Qeq_bool_neq in Y. destruct (Bin _ B1) as [A1|A1]; [|contradiction]. destruct (Bin _ B2) as [A2|A2]; [|contradiction]. rewrite A1, A2 in C. discriminate.
Qed.
Lemma choice_costs chosen : exists q, costs ps at_ t chosen q.
Proof using Hw Hn HI.
  exists (total (site_price ps t) (filter (fun i => negb (ex_ I0 i) && mem i chosen) (dkeys (t_sites t))) + total (fun n => a_node_capex at_ (fst n)) (filter (fun n => negb (ex_ I0 (fst n)) && mem (fst n) chosen) (new_nodes [] (t_sectors t)))).
  exists (filter (fun i => negb (ex_ I0 i) && mem i chosen) (dkeys (t_sites t))), (filter (fun n => negb (ex_ I0 (fst n)) && mem (fst n) chosen) (new_nodes [] (t_sectors t))).
  assert (Wd : dwf (t_sites t)) by apply Hw. assert (Wx : dwf (t_sectors t)) by apply Hw. split; [|split; [|reflexivity]].
  - split; [apply NoDup_filter'; exact Wd|]. intros i. rewrite filter_In, In_dkeys, andb_true_iff, negb_true_iff, mem_In. unfold new_site. split.
    + intros ((s & Es) & Hex & Hon). split; [auto|]. exists s. split; [auto|]. intros E. apply (existing_iff i s Es) in E. congruence.
    + intros (Hon & s & Es & Hex). split; [eauto|]. split; [destruct (ex_ I0 i) eqn:E; [|auto]; apply (existing_iff i s Es) in E; contradiction|auto].
  - split; [apply NoDup_filter', new_nodes_NoDup|]. intros n. rewrite filter_In, new_nodes_In. rewrite andb_true_iff, negb_true_iff, mem_In. unfold new_node, new_site. split.
    + intros ((((k & x) & Hin & Hb) & _) & Hex & Hon). cbn [snd] in Hb. assert (Hx : sector_stored t k x) by now apply In_dget. subst n. change (fst (node_of x)) with (x_site x) in *.
      destruct (sector_site_stored _ _ _ Hw Hx) as (s & Es). exists k, x. split; [auto|]. split; [auto|]. split; [auto|]. exists s. split; [auto|]. intros E. apply (existing_iff _ _ Es) in E. congruence.
    + intros (k & x & Hx & <- & Hon & s & Es & Hex). assert (Hin : In (k, x) (t_sectors t)) by (now apply dget_In). split; [split; [exists (k, x); auto|auto]|]. change (fst (node_of x)) with (x_site x). split; [|auto].
      destruct (ex_ I0 (x_site x)) eqn:E; [|auto]. apply (existing_iff _ _ Es) in E. contradiction.
Qed.
Lemma budget_answer adv P : sane ps at_ t -> active_links_sound t -> site_problem CoverageUnderCost adv I0 = Ok P ->
  ((exists v, feasible P v) <-> exists chosen q, valid_choice ps t chosen /\ costs ps at_ t chosen q /\ q <= p_budget ps).
Proof using Hw Hn HI.
  intros Hs Hal HP. destruct (idle_plan _ _ _ HP) as (V & cx & Ecx & VS & VSec & Fw & Bw). cbn [goal_constraint] in Ecx. unfold create_cost_constraint in Ecx. inv_do. subst cx.
  destruct (params_val ps at_ t I0 HI) as (_ & _ & _ & Q & _). fold I in Q. split.
  - intros (v & Hv). destruct (choice_costs (choice_of v)) as (q & Hq). exists (choice_of v), q. split; [exact (plan_choice _ _ _ _ Hal HP Hv)|]. split; [exact Hq|].
    assert (C : eval v x <= p_budget ps) by (rewrite <- Q; exact (Fw v _ Hv (or_introl eq_refl))). rewrite (cost_value V v x VS VSec E) in C. rewrite (bill_of_choice (choice_of v) _ q) in C; [exact C| |exact Hq]. intros i Hi. exact (choice_value _ _ _ _ i HP Hv Hi).
  - intros (chosen & q & (_ & _ & Ch & Pol) & Hq & Le). assert (O : exists odd : string -> bool, p_ignore_polarities ps = false -> forall k l, link_stored t k l -> active_link l -> backhaul_site t (l_tx l) -> backhaul_site t (l_rx l) -> odd (l_tx l) <> odd (l_rx l)).
    { destruct (p_ignore_polarities ps); [exists (fun _ => true); discriminate|]. destruct (Pol eq_refl) as (odd & H). exists odd. auto. }
    destruct O as (odd & Ho). exists (plan_of chosen odd). apply Bw; [now apply plan_idle|]. intros c [<-|[]]. change (eval (plan_of chosen odd) x <= p_budget (i_params I)). rewrite Q, (cost_value V _ x VS VSec E), (bill_of_choice chosen _ q); [exact Le| |exact Hq]. intros i _. reflexivity.
Qed.
Lemma count_on chosen l : total (on_ chosen) l == inject_Z (Z.of_nat (List.length (filter (fun i => mem i chosen) l))).
Proof using.
  induction l as [|a l IH]; cbn [total filter]; [reflexivity|]. rewrite IH. unfold on_. destruct (mem a chosen); [|lra]. cbn [List.length]. rewrite Nat2Z.inj_succ, <- Z.add_1_l, inject_Z_plus. reflexivity.
Qed.
Lemma pops_answer n adv P : sane ps at_ t -> active_links_sound t -> site_problem (CoverageUnderPops n) adv I0 = Ok P ->
  ((exists v, feasible P v) <-> exists chosen, valid_choice ps t chosen /\ (n = 0%nat \/ pop_count t chosen n)).
Proof using Hw Hn HI.
  intros Hs Hal HP. destruct (idle_plan _ _ _ HP) as (V & cx & Ecx & VS & VSec & Fw & Bw). cbn [goal_constraint] in Ecx. assert (DD := D ps at_ t I0 Hw Hn HI). fold I in DD.
  set (pl := filter (fun loc => mem loc (i_set I (Real POP))) (i_locations I)).
  assert (Hpl : lists pl (fun i => exists s, dget (t_sites t) i = Some s /\ s_type s = POP)).
  { split; [apply NoDup_filter', (D_locs_nd _ _ _ _ _ DD)|]. intros i. unfold pl. rewrite filter_In, mem_In, (D_rset _ _ _ _ _ DD). split; [tauto|]. intros (s & Es & Ty). split; [|eauto]. apply (site_location ps at_ t I0 Hw Hn HI). now exists s. }
  assert (Cnt : forall chosen m, pop_count t chosen m <-> List.length (filter (fun i => mem i chosen) pl) = m).
  { intros chosen m. assert (Lf : lists (filter (fun i => mem i chosen) pl) (fun i => In i chosen /\ exists s, dget (t_sites t) i = Some s /\ s_type s = POP)).
    { split; [apply NoDup_filter', Hpl|]. intros i. rewrite filter_In, mem_In, (proj2 Hpl). tauto. }
    split; [|intros <-; eexists; split; [exact Lf|reflexivity]]. intros (pops & Lp & <-). apply Nat.le_antisymm; (apply NoDup_incl_length; [first [apply Lp|apply Lf]|intros i Hi]); [apply Lp, Lf, Hi|apply Lf, Lp, Hi]. }
  assert (Sem : forall v, (forall c, In c cx -> sat v c) <-> n = 0%nat \/ total (fun i => v (VSite i)) pl == inject_Z (Z.of_nat n)).
  { intros v. unfold create_pop_constraint in Ecx. destruct n as [|m]. { injection Ecx as <-. split; [auto|]. intros _ c []. }
    fold pl in Ecx. rewrite (mapM_pure _ (fun i => Var (VSite i))) in Ecx.
    2:{ intros i Hi. apply Hpl in Hi. destruct Hi as (s & Es & _). unfold get. rewrite VS. assert (M : dmem (t_sites t) i = true) by (apply stored_dmem; now exists s). now rewrite M. }
    cbn [rbind] in Ecx. injection Ecx as <-. split.
    - intros H. right. specialize (H _ (or_introl eq_refl)). cbn [sat eval] in H. rewrite eval_xsum, total_map in H. exact H.
    - intros [H|H]; [discriminate|]. intros c [<-|[]]. cbn [sat eval]. rewrite eval_xsum, total_map. exact H. }
  assert (Val : forall v chosen, (forall i, site_stored t i -> v (VSite i) == on_ chosen i) -> (n = 0%nat \/ total (fun i => v (VSite i)) pl == inject_Z (Z.of_nat n) <-> n = 0%nat \/ pop_count t chosen n)).
  { intros v chosen H. rewrite Cnt. rewrite (total_ext _ (on_ chosen) pl), count_on. 2:{ intros i Hi. apply H. apply Hpl in Hi. destruct Hi as (s & Es & _). now exists s. }
    split; (intros [X|X]; [now left|right]); [apply inject_Z_injective, Nat2Z.inj in X; exact X|now rewrite X]. }
  split.
  - intros (v & Hv). exists (choice_of v). split; [exact (plan_choice _ _ _ _ Hal HP Hv)|]. apply (Val v); [intros i Hi; exact (choice_value _ _ _ _ i HP Hv Hi)|]. apply Sem. intros c Hc. exact (Fw v c Hv Hc).
  - intros (chosen & (_ & _ & Ch & Pol) & Hc). assert (O : exists odd : string -> bool, p_ignore_polarities ps = false -> forall k l, link_stored t k l -> active_link l -> backhaul_site t (l_tx l) -> backhaul_site t (l_rx l) -> odd (l_tx l) <> odd (l_rx l)).
    { destruct (p_ignore_polarities ps); [exists (fun _ => true); discriminate|]. destruct (Pol eq_refl) as (odd & H). exists odd. auto. }
    destruct O as (odd & Ho). exists (plan_of chosen odd). apply Bw; [now apply plan_idle|]. apply Sem. apply (Val _ chosen); [intros i _; reflexivity|exact Hc].
Qed.
End Main.
