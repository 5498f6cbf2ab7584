(** The two problems of the redundancy step can be built and solved. *)
From Coq Require Import QArith Lqa Lia Permutation.
From Verif Require Import Base Dict TopologyModel TopologySpec TopologyLemmas TopologyQueryProofs GraphSpec GraphProofs RfModel SetupModel PruneModel
  IlpModel IlpSpec QLib MonadLib SetupProofs IlpLemmas IlpProofs ExtractModel ExtractSpec ExtractProofs RedunModel RedunSpec FlowCut RedunProofs RedunReadProofs RedunMainProofs RedunKeepProofs.
Local Open Scope Q_scope.

Lemma at_most_one (f : string -> Q) l : NoDup l -> (forall i, In i l -> f i == 0 \/ f i == 1) -> (forall i j, In i l -> In j l -> f i == 1 -> f j == 1 -> i = j) -> total f l <= 1.
Proof.
  induction 1 as [|x l Hx Hnd IH]; intros Hf Hu; [unfold total; cbn; lra|]. rewrite tot_cons.
  assert (Il : total f l <= 1) by (apply IH; intros; [apply Hf|apply Hu]; auto; now right).
  destruct (Hf x (or_introl eq_refl)) as [E|E]; [lra|]. assert (Z : total f l == 0); [|lra].
  rewrite (total_ext _ (fun _ => 0)), total_const0; [reflexivity|]. intros y Hy. destruct (Hf y (or_intror Hy)) as [Z|Z]; [exact Z|].
  exfalso. apply Hx. rewrite (Hu x y); auto; [now left|now right].
Qed.

Lemma concatM_ext {A B} (f g : A -> result (list B)) l : (forall x, In x l -> f x = g x) -> concatM f l = concatM g l.
Proof.
  unfold concatM. intros H. assert (E : mapM f l = mapM g l); [|now rewrite E]. induction l as [|x l IH]; [reflexivity|]. cbn [mapM]. rewrite H by now left. rewrite IH; [reflexivity|]. intros; apply H; now right.
Qed.
Lemma super_wired ps at_ t I e : setup ps at_ t = Ok I -> In e (i_links I) -> fst e = SUPERSOURCE -> In e (i_wired I).
Proof.
  unfold setup. intros H He Es. inv_do. rewrite <- H in *. unfold i_links in He. cbn [i_cap i_wired] in *. rewrite !in_app_iff, !filter_In. right. left. split; [exact He|]. rewrite Es. apply beq_refl.
Qed.
Lemma network_setup ps at_ t I : network ps at_ t = Ok I -> setup ps at_ t = Ok I.
Proof. unfold network. intros H. apply rbind_ok in H. destruct H as (x & Ex & H). apply rbind_ok in H. destruct H as (y & _ & H). apply rbind_ok in H. destruct H as (z & _ & H). injection H as <-. exact Ex. Qed.

Section Solve.
Variables (ps : params) (at_ : attrs) (t : topo) (cs : caps) (only : option (list edge)) (R : rnet).
Hypothesis Hw : well_formed t.
Hypothesis Hn : names_ok at_ t.
Hypothesis HR : redundant_network ps at_ t cs only = Ok R.
Let I := r_inst R.
Let D : describes ps at_ t (a_cap at_) I := desc_R ps at_ t cs only R Hw Hn HR.
Let NF := net_fields ps at_ t cs only R Hw Hn HR.

(** ** the second solve accepts the answer of the first *)
Definition shortages (v : rvar -> Q) : dict string Q := map (fun d => (d, v (RShort d))) (r_dns R).
Lemma short_get v d : dget (shortages v) d = if mem d (r_dns R) then Some (v (RShort d)) else None.
Proof.
  unfold shortages. clear D NF. induction (r_dns R) as [|x l IH]; [reflexivity|]. cbn [map dget mem]. destruct (beq_spec d x) as [->|Ne].
  - reflexivity.
  - exact IH.
Qed.
Lemma second_solve P v : skeleton R None = Ok P -> rfeasible P v -> exists P', skeleton R (Some (shortages v)) = Ok P' /\ rfeasible P' v.
Proof.
  intros HP (H1 & H2). unfold skeleton in HP.
  destruct (tables_fields ps at_ t cs only R Hw Hn HR None) as (V & sk & ok & EV & VS & VO & VF & VH & _). rewrite EV in HP. cbn [rbind] in HP.
  destruct (tables_fields ps at_ t cs only R Hw Hn HR (Some (shortages v))) as (V' & sk' & ok' & EV' & VS' & VO' & VF' & VH' & _).
  assert (T : w_site V' = w_site V /\ w_odd V' = w_odd V /\ w_flow V' = w_flow V).
  { unfold r_tables in EV, EV'. destruct (r_site_keys R); [|discriminate]. cbn [rbind] in EV, EV'. destruct (r_odd_keys R); [|discriminate]. cbn [rbind] in EV, EV'. injection EV as <-. injection EV' as <-. cbn. auto. }
  destruct T as (T1 & T2 & T3). unfold skeleton. rewrite EV'. cbn [rbind]. inv_do.
  assert (Ea : r_decided_sites R V' = Ok x) by (unfold r_decided_sites in *; now rewrite T1).
  assert (Eb : r_inactive_links R V' = Ok x0) by (unfold r_inactive_links in *; now rewrite T3).
  assert (Ec : r_colocated R V' = Ok x1) by (unfold r_colocated in *; now rewrite T1).
  assert (Ein : forall loc d, r_incoming R V' loc d = r_incoming R V loc d) by (intros; unfold r_incoming, r_flow_sum; now rewrite T3).
  assert (Eout : forall loc d, r_outgoing R V' loc d = r_outgoing R V loc d) by (intros; unfold r_outgoing, r_flow_sum; now rewrite T3).
  assert (Ed : r_flow_site R V' = Ok x2).
  { rewrite <- E2. unfold r_flow_site. apply concatM_ext. intros loc _. destruct (negb _); [auto|]. apply concatM_ext. intros d _. now rewrite Ein, T1. }
  assert (Ef : r_polarity R V' = Ok x4) by (unfold r_polarity in *; now rewrite T2, T3).
  assert (Ee : exists e, r_balance R V' = Ok e /\ forall c, In c e -> rsat v c).
  { unfold r_balance. apply concatM_sat. intros loc Hloc. unfold r_balance in E3. destruct (concatM_In _ _ _ _ E3 Hloc) as (r & Er & Hr).
    destruct (negb _); [exists []; split; [auto|contradiction]|]. apply concatM_sat. intros d Hd. destruct (concatM_In _ _ _ _ Er Hd) as (r1 & Er1 & Hr1).
    rewrite Ein, Eout. inv_do. rewrite E5, E6. cbn [rbind].
    assert (Sat : forall c, In c r1 -> rsat v c). { intros c Hc. apply H2. rewrite <- HP. cbn [r_constraints]. rewrite !in_app_iff. do 4 right. left. apply Hr, Hr1, Hc. }
    assert (Sh : get (w_short V) d = Ok (RVar (RShort d))) by (unfold get; rewrite VH, rfresh_get; apply mem_In in Hd; now rewrite Hd).
    assert (Sh' : get (w_short V') d = Ok (RCst (v (RShort d)))).
    { unfold get. rewrite VH'. rewrite (dget_map_val (fun q => RCst q)), short_get. apply mem_In in Hd. now rewrite Hd. }
    destruct x5 as [x5|], x6 as [x6|]; try (exists r1; split; [exact Er1|exact Sat]).
    all: destruct (beq loc SUPERSOURCE); [rewrite Sh in Er1; rewrite Sh'; cbn [rbind] in *; injection Er1 as <-; eexists; split; [reflexivity|]; intros c [<-|[]]; exact (Sat _ (or_introl eq_refl))|].
    all: destruct (beq loc d); [rewrite Sh in Er1; rewrite Sh'; cbn [rbind] in *; injection Er1 as <-; eexists; split; [reflexivity|]; intros c [<-|[]]; exact (Sat _ (or_introl eq_refl))|].
    all: exists r1; split; [exact Er1|exact Sat]. }
  destruct Ee as (e & Ee & He). rewrite Ea, Eb, Ec, Ed, Ee, Ef. cbn [rbind]. eexists. split; [reflexivity|]. rewrite <- HP in H1, H2. cbn [r_decls r_constraints] in H1, H2. split; cbn [r_decls r_constraints].
  - intros p Hp. apply H1. rewrite T1, T2, T3 in Hp. rewrite !in_app_iff in Hp. rewrite !in_app_iff. destruct Hp as [Hp|[Hp|[Hp|[]]]]; tauto.
  - intros c Hc. rewrite !in_app_iff in Hc. destruct Hc as [Hc|[Hc|[Hc|[Hc|[Hc|Hc]]]]]; [| | | |exact (He c Hc)|]; apply H2; rewrite !in_app_iff; tauto.
Qed.

(** ** the first solve accepts the base network, with everything short *)
Definition base_answer (x : rvar) : Q :=
  match x with
  | RSite i => if active_site I i then 1 else 0
  | ROdd i => if mem i (r_odd_in R) then 1 else 0
  | RFlow _ _ _ => 0
  | RShort _ => c_sink cs
  end.
Lemma active_iff i : active_site I i = true <-> active_now t i.
Proof.
  unfold active_site, active_now, in_service. rewrite orb_true_iff, !mem_In, (D_ps _ _ _ _ _ D), (D_es _ _ _ _ _ D). split.
  - intros [(s & Es & St)|(s & Es & St)]; exists s; auto.
  - intros (s & Es & [St|St]); [left|right]; exists s; auto.
Qed.
Lemma odd_in_iff i : backhaul_site t i -> active_now t i -> (In i (r_odd_in R) <-> site_odd t i).
Proof.
  intros (s & Es & Ty) (s' & Es' & Ha). rewrite Es in Es'. injection Es' as <-. destruct NF as (_ & Eo & _). rewrite Eo. unfold get_site_polarities. rewrite filter_In, (proj2 (get_site_ids_wf t _ _ Hw)), Es. unfold site_odd, allowed, passes. split.
  - intros (_ & H). apply beq_true in H. exists s. auto.
  - intros (s' & Es' & Hp). rewrite Es in Es'. injection Es' as <-. rewrite Hp. split; [|apply beq_refl]. exists s. split; [auto|]. unfold in_service in Ha. cbn. destruct Ha as [->| ->], Ty as [->| ->]; auto.
Qed.
Theorem first_solve : 0 <= c_pop cs -> 0 <= c_dn cs -> 0 <= c_sink cs -> active_ends t -> one_per_place t -> (p_ignore_polarities ps = true \/ alternating t) ->
  exists P, skeleton R None = Ok P /\ rfeasible P base_answer.
Proof.
  intros Pp Pd Pc AE OP AL. assert (Eps := params_R ps at_ t cs only R Hw Hn HR). fold I in Eps.
  destruct (tables_fields ps at_ t cs only R Hw Hn HR None) as (V & sk & ok & EV & VS & VO & VF & VH & Hsk & Hok). unfold skeleton. rewrite EV. cbn [rbind].
  assert (GS : forall i, In i (r_sites R) -> backhaul_site t i -> get (w_site V) i = Ok (RVar (RSite i))).
  { intros i Hi B. unfold get. rewrite VS, rfresh_get. assert (H : In i sk) by (apply Hsk; auto). apply mem_In in H. now rewrite H. }
  assert (GF : forall e d, In e (r_links R) -> In d (r_dns R) -> get (w_flow V) (e, d) = Ok (RVar (rflow (e, d)))).
  { intros e d He Hd. unfold get. rewrite VF, rfresh_get. assert (H : In (e, d) (r_flow_keys R)) by (apply (flow_keys_iff ps at_ t cs only R Hw Hn HR); auto). apply mem_In in H. now rewrite H. }
  assert (FS : forall d es, In d (r_dns R) -> exists x, r_flow_sum R V d es = Ok x /\ reval base_answer (or_none x) == 0).
  { intros d es Hd. unfold r_flow_sum. assert (M : mapM (fun e => get (w_flow V) (e, d)) (filter (fun e => mem e (r_links R)) es) = Ok (map (fun e => RVar (rflow (e, d))) (filter (fun e => mem e (r_links R)) es))).
    { apply mapM_pure. intros e He. apply filter_In in He. destruct He as (_ & He). apply mem_In in He. now apply GF. }
    rewrite M. cbn [rbind]. eexists. split; [reflexivity|]. set (l := filter _ _). clearbody l. clear M.
    assert (Z : reval base_answer (rsum (map (fun e => RVar (rflow (e, d))) l)) == 0).
    { induction l as [|e l IH]; [reflexivity|]. cbn [map rsum fold_right reval]. change (fold_right RAdd (RCst 0)) with rsum. rewrite IH. cbn. reflexivity. }
    destruct (map (fun e => RVar (rflow (e, d))) l); [reflexivity|exact Z]. }
  assert (In_ : forall loc d, In loc (i_locations I) -> In d (r_dns R) -> exists x, r_incoming R V loc d = Ok x /\ reval base_answer (or_none x) == 0).
  { intros loc d Hl Hd. unfold r_incoming, incoming. fold I. apply mem_In in Hl. rewrite Hl. cbn [rbind]. now apply FS. }
  assert (Out_ : forall loc d, In loc (i_locations I) -> In d (r_dns R) -> exists x, r_outgoing R V loc d = Ok x /\ reval base_answer (or_none x) == 0).
  { intros loc d Hl Hd. unfold r_outgoing, outgoing. fold I. apply mem_In in Hl. rewrite Hl. cbn [rbind]. now apply FS. }
  assert (A : exists a, r_decided_sites R V = Ok a /\ forall c, In c a -> rsat base_answer c).
  { apply concatM_sat. intros loc Hloc. fold I. destruct (mem loc (r_sites R)) eqn:El; cbn [negb]; [|exists []; split; [auto|contradiction]]. apply mem_In in El.
    assert (St : forall x, site_stored t loc -> backhaul_site t loc -> exists r, (do y <- get (w_site V) loc ; Ok [REq y (RCst x)]) = Ok r /\ r = [REq (RVar (RSite loc)) (RCst x)]).
    { intros x _ B. rewrite (GS loc El B). cbn. eauto. }
    assert (BB : site_stored t loc -> backhaul_site t loc).
    { intros Hs. destruct (rsite_kind ps at_ t cs only R Hw Hn HR loc El) as [->|B]; [|exact B]. exfalso. now apply (proj1 Hn). }
    destruct (active_site I loc) eqn:Ea.
    - assert (Hs : site_stored t loc) by (apply active_iff in Ea; destruct Ea as (s & Es & _); now exists s). destruct (St 1 Hs (BB Hs)) as (r & Er & ->). rewrite Er. eexists. split; [reflexivity|].
      intros c [<-|[]]. cbn. rewrite Ea. reflexivity.
    - destruct (mem loc (i_inactive_sites I)) eqn:Ei.
      + apply mem_In, (D_is _ _ _ _ _ D) in Ei. assert (Hs : site_stored t loc) by (destruct Ei as (s & Es & _); now exists s). destruct (St 0 Hs (BB Hs)) as (r & Er & ->). rewrite Er. eexists. split; [reflexivity|].
        intros c [<-|[]]. cbn. rewrite Ea. reflexivity.
      + destruct (mem loc (i_set I (Real POP))) eqn:Ep; [|exists []; split; [auto|contradiction]].
        apply mem_In, (D_rset _ _ _ _ _ D) in Ep. assert (Hs : site_stored t loc) by (destruct Ep as (s & Es & _); now exists s). destruct (St 0 Hs (BB Hs)) as (r & Er & ->). rewrite Er. eexists. split; [reflexivity|].
        intros c [<-|[]]. cbn. rewrite Ea. reflexivity. }
  assert (B : exists b, r_inactive_links R V = Ok b /\ forall c, In c b -> rsat base_answer c).
  { apply concatM_sat. intros e He. destruct (mem e (r_links R)) eqn:Er; cbn [negb]; [|exists []; split; [auto|contradiction]]. apply mem_In in Er.
    destruct (mem e (i_inactive_links (r_inst R))); [|exists []; split; [auto|contradiction]]. apply mapM_sat. intros d Hd. rewrite (GF e d Er Hd). cbn. eexists. split; [reflexivity|]. cbn. reflexivity. }
  assert (C : exists c, r_colocated R V = Ok c /\ forall x, In x c -> rsat base_answer x).
  { apply concatM_sat. intros [g locs] Hin. cbn [snd]. fold I. assert (Eg : dget (i_colocated I) g = Some locs) by (apply In_dget; [exact (D_col_wf _ _ _ _ _ D)|exact Hin]).
    destruct (D_col _ _ _ _ _ D _ _ Eg) as (Nd & Hl).
    destruct (filterM_total' (fun loc => do ty <- get (i_type I) loc ; Ok (dist ty && in_dict loc (w_site V))) locs) as (ls & Els).
    { intros i Hi. apply Hl in Hi. destruct Hi as (s & Es & _). unfold get. rewrite (D_site _ _ _ _ _ D _ _ Es). cbn. eauto. }
    rewrite Els. cbn [rbind]. destruct (filterM_ok _ _ _ Els) as (_ & F2 & F3). specialize (F3 Nd).
    assert (Hls : forall i, In i ls -> In i (r_sites R) /\ backhaul_site t i /\ exists s, dget (t_sites t) i = Some s /\ s_loc s = g).
    { intros i Hi. apply F2 in Hi. destruct Hi as (Hi & Hf). apply Hl in Hi. inv_do. apply andb_true_iff in Hf. destruct Hf as (Hd & Hk).
      unfold in_dict, dmem in Hk. destruct (dget (w_site V) i) as [y|] eqn:Ey; [|now cbn in Hk]. rewrite VS, rfresh_get in Ey. destruct (mem i sk) eqn:Mi; [|discriminate]. apply mem_In, Hsk in Mi. tauto. }
    assert (M : mapM (get (w_site V)) ls = Ok (map (fun i => RVar (RSite i)) ls)) by (apply mapM_pure; intros i Hi; apply GS; now apply Hls).
    destruct ls as [|i0 ls0] eqn:E0; [exists []; split; [auto|contradiction]|]. rewrite <- E0 in *. rewrite M. cbn [rbind]. eexists. split; [reflexivity|]. intros c [<-|[]]. cbn [rsat].
    assert (Sm : reval base_answer (rsum (map (fun i => RVar (RSite i)) ls)) == total (fun i => base_answer (RSite i)) ls).
    { clear. induction ls as [|i l IH]; [reflexivity|]. cbn [map rsum fold_right reval total]. change (fold_right RAdd (RCst 0)) with rsum. rewrite IH. reflexivity. }
    rewrite Sm. cbn [reval]. apply at_most_one; [exact F3| |].
    - intros i _. cbn. destruct (active_site I i); [right|left]; reflexivity.
    - intros i j Hi Hj Ai Aj. cbn in Ai, Aj. destruct (active_site I i) eqn:A1; [|lra]. destruct (active_site I j) eqn:A2; [|lra]. apply active_iff in A1, A2.
      destruct (Hls i Hi) as (_ & B1 & s1 & E1 & G1). destruct (Hls j Hj) as (_ & B2 & s2 & E2 & G2). apply (OP i j B1 B2 A1 A2). exists s1, s2. split; [auto|]. split; [auto|congruence]. }
  assert (Dd : exists d, r_flow_site R V = Ok d /\ forall c, In c d -> rsat base_answer c).
  { apply concatM_sat. intros loc Hloc. destruct (mem loc (r_sites R)) eqn:El; cbn [negb]; [|exists []; split; [auto|contradiction]]. apply mem_In in El.
    apply concatM_sat. intros d Hd. fold I. assert (Hty : exists ty, dget (i_type I) loc = Some ty).
    { assert (H := Hloc). apply (D_locs _ _ _ _ _ D) in H. destruct H as [->|[(s & Es)|Hc]]; [rewrite (D_super _ _ _ _ _ D)|rewrite (D_site _ _ _ _ _ D _ _ Es)|rewrite (D_cons _ _ _ _ _ D _ Hc)]; eauto. }
    destruct Hty as (ty & Ety). unfold get at 1. rewrite Ety. cbn [rbind]. destruct (In_ loc d Hloc Hd) as (x & Ex & Zx). rewrite Ex. cbn [rbind].
    destruct x as [x|]; [|exists []; split; [auto|contradiction]].
    destruct (rsite_kind ps at_ t cs only R Hw Hn HR loc El) as [->|Bl].
    - (* nothing enters the supersource *) exfalso. unfold r_incoming, incoming in Ex. apply mem_In in Hloc. rewrite Hloc in Ex. fold I in Ex. cbn [rbind] in Ex. unfold r_flow_sum in Ex. 
      assert (Nil : filter (fun e => mem e (r_links R)) (filter (fun e : edge => beq (snd e) SUPERSOURCE) (i_links I)) = []).
      { destruct (filter _ (filter _ _)) as [|e l] eqn:Ef; [reflexivity|exfalso]. assert (He : In e (e :: l)) by now left. rewrite <- Ef in He. apply filter_In in He. destruct He as (He & Hr). apply filter_In in He. destruct He as (_ & Hs).
        apply mem_In in Hr. apply beq_true in Hs. destruct (rlink_ends ps at_ t cs only R Hw Hn HR e Hr) as (_ & B2). rewrite Hs in B2. apply (proj1 Hn). now apply backhaul_stored. }
      rewrite Nil in Ex. cbn in Ex. discriminate Ex.
    - rewrite (GS loc El Bl). cbn [rbind]. eexists. split; [reflexivity|]. intros c [<-|[]]. cbn [rsat reval]. cbn [or_none] in Zx. rewrite Zx. destruct NF as (_ & _ & Ecs & _).
      assert (0 <= node_cap R ty loc d) by (unfold node_cap; rewrite Ecs; destruct (beq ty (Real POP)), (beq loc d); auto).
      cbn. destruct (active_site I loc); lra. }
  assert (E : exists e, r_balance R V = Ok e /\ forall c, In c e -> rsat base_answer c).
  { apply concatM_sat. intros loc Hloc. destruct (mem loc (r_sites R)) eqn:El; cbn [negb]; [|exists []; split; [auto|contradiction]]. apply mem_In in El.
    apply concatM_sat. intros d Hd. destruct (In_ loc d Hloc Hd) as (x & Ex & Zx). destruct (Out_ loc d Hloc Hd) as (y & Ey & Zy). rewrite Ex, Ey. cbn [rbind].
    assert (Sh : get (w_short V) d = Ok (RVar (RShort d))) by (unfold get; rewrite VH, rfresh_get; apply mem_In in Hd; now rewrite Hd).
    destruct NF as (_ & _ & Ecs & _).
    assert (G : exists r, (if beq loc SUPERSOURCE then do s <- get (w_short V) d ; Ok [RLe (RSub s (RCst (c_sink (r_caps R)))) (RSub (or_none x) (or_none y))]
        else if beq loc d then do s <- get (w_short V) d ; Ok [RLe (RSub (RCst (c_sink (r_caps R))) s) (RSub (or_none x) (or_none y))]
        else Ok [REq (RSub (or_none x) (or_none y)) (RCst 0)]) = Ok r /\ forall c, In c r -> rsat base_answer c).
    { rewrite Sh, Ecs. cbn [rbind]. destruct (beq loc SUPERSOURCE); [|destruct (beq loc d)]; eexists; (split; [reflexivity|]); intros c [<-|[]]; cbn [rsat reval base_answer]; rewrite Zx, Zy; lra. }
    destruct x, y; try exact G. exists []. split; [auto|contradiction]. }
  assert (F : exists f, r_polarity R V = Ok f /\ forall c, In c f -> rsat base_answer c).
  { unfold r_polarity. fold I. rewrite Eps. destruct (p_ignore_polarities ps) eqn:Ip; cbn [negb]; [exists []; split; [auto|contradiction]|].
    destruct AL as [?|AL]; [discriminate|]. apply concatM_sat. intros e He. destruct (mem e (r_links R)) eqn:Er; cbn [negb]; [|exists []; split; [auto|contradiction]]. apply mem_In in Er.
    destruct (mem e (i_wired I)) eqn:Ew; [exists []; split; [auto|contradiction]|].
    destruct (rlink_kind ps at_ t cs only R Hw Hn HR e Er) as (_ & [(Es & Hp)|(k & l & El & -> & B1 & B2 & _)]).
    { exfalso. apply mem_not_In in Ew. apply Ew. exact (super_wired ps at_ t I e (network_setup _ _ _ _ (proj1 NF)) He Es). }
    destruct (rlink_sites ps at_ t cs only R Hw Hn HR _ Er) as (R1 & R2). cbn [fst snd] in *.
    assert (GO : forall i, In i (r_sites R) -> backhaul_site t i -> get (w_odd V) i = Ok (RVar (ROdd i))).
    { intros i Hi Bi. unfold get. rewrite VO, rfresh_get. assert (H : In i ok) by (apply Hok; auto). apply mem_In in H. now rewrite H. }
    rewrite (GO _ R1 B1), (GO _ R2 B2). cbn [rbind].
    assert (Hwl : l_wireless l = true) by (rewrite (D_wired _ _ _ _ _ D _ _ El) in Ew; now apply negb_false_iff in Ew).
    destruct (mem (l_tx l, l_rx l) (i_proposed_links I) || mem (l_tx l, l_rx l) (i_existing_links I)) eqn:Ea.
    - eexists. split; [reflexivity|]. intros c [<-|[]]. cbn [rsat reval base_answer].
      assert (Act : active_link_of t (l_tx l, l_rx l)) by (apply (D_alinks _ _ _ _ _ D); rewrite in_app_iff; apply orb_true_iff in Ea; rewrite !mem_In in Ea; exact Ea).
      destruct Act as (k' & l' & El' & Ee & Sl'). assert (l' = l) as -> by (injection Ee as Et Er'; exact (link_of_ends t Hw k' l' k l El' El (eq_sym Et) (eq_sym Er'))).
      destruct (AE k l El Sl') as (A1 & A2). assert (O1 := odd_in_iff _ B1 A1). assert (O2 := odd_in_iff _ B2 A2).
      destruct (AL k l El Sl' Hwl B1 B2) as [(H1 & H2)|(H1 & H2)].
      + assert (M1 : mem (l_tx l) (r_odd_in R) = true) by (apply mem_In, O1; auto). assert (M2 : mem (l_rx l) (r_odd_in R) = false) by (apply mem_not_In; rewrite O2; auto). rewrite M1, M2. lra.
      + assert (M1 : mem (l_tx l) (r_odd_in R) = false) by (apply mem_not_In; rewrite O1; auto). assert (M2 : mem (l_rx l) (r_odd_in R) = true) by (apply mem_In, O2; auto). rewrite M1, M2. lra.
    - apply concatM_sat. intros d Hd. rewrite (GF _ d Er Hd). cbn [rbind]. eexists. split; [reflexivity|].
      intros c [<-|[<-|[]]]; cbn [rsat reval base_answer rflow fst snd]; destruct (mem (l_tx l) (r_odd_in R)), (mem (l_rx l) (r_odd_in R)); lra. }
  destruct A as (a & Ea & Ha). destruct B as (b & Eb & Hb). destruct C as (c & Ec & Hc). destruct Dd as (d & Ed & Hd). destruct E as (e & Ee & He). destruct F as (f & Ef & Hf).
  rewrite Ea, Eb, Ec, Ed, Ee, Ef. cbn [rbind]. eexists. split; [reflexivity|]. split; cbn [r_decls r_constraints].
  - intros p Hp. rewrite !in_app_iff in Hp. destruct Hp as [Hp|[Hp|[Hp|Hp]]]; apply in_map_iff in Hp; destruct Hp as (q & <- & Hq); cbn [fst snd].
    + cbn. destruct (active_site I (fst q)); [right|left]; reflexivity.
    + cbn. destruct (mem (fst q) (r_odd_in R)); [right|left]; reflexivity.
    + destruct q as [[e0 d0] x]. cbn. split; [lra|]. destruct NF as (_ & _ & Ecs & _). unfold flow_ub. rewrite Ecs. destruct (beq _ _ || beq _ _); lra.
    + cbn. destruct NF as (_ & _ & Ecs & _). rewrite Ecs. split; lra.
  - intros x Hx. rewrite !in_app_iff in Hx. destruct Hx as [H|[H|[H|[H|[H|H]]]]]; auto.
Qed.
End Solve.
