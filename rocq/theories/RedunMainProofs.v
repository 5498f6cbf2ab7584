(** What a redundant plan withstands. *)
From Coq Require Import QArith Lqa Lia Permutation.
From Verif Require Import Base Dict TopologyModel TopologySpec TopologyLemmas TopologyQueryProofs GraphSpec GraphProofs RfModel SetupModel PruneModel
  IlpModel IlpSpec QLib MonadLib SetupProofs IlpLemmas IlpProofs ExtractModel ExtractSpec ExtractProofs RedunModel RedunSpec FlowCut RedunProofs RedunReadProofs.
Local Open Scope Q_scope.

Lemma tot_cons {A} (f : A -> Q) x l : total f (x :: l) = f x + total f l. Proof. reflexivity. Qed.
Lemma tot_nil {A} (f : A -> Q) : total f [] = 0. Proof. reflexivity. Qed.
Lemma total_filter_le {A} (f : A -> Q) (p : A -> bool) l : (forall x, 0 <= f x) -> total f (filter p l) <= total f l.
Proof.
  intros Hf. induction l as [|x l IH]; [unfold total; cbn; lra|]. cbn [filter]. assert (0 <= f x) by auto.
  destruct (p x); rewrite ?tot_cons; lra.
Qed.

Section Main.
Variables (ps : params) (at_ : attrs) (t : topo) (cs : caps) (only : option (list edge)) (R : rnet).
Hypothesis Hw : well_formed t.
Hypothesis Hn : names_ok at_ t.
Hypothesis SP : sectors_present t.
Hypothesis HR : redundant_network ps at_ t cs only = Ok R.
Let I := r_inst R.
Let D : describes ps at_ t (a_cap at_) I := desc_R ps at_ t cs only R Hw Hn HR.
Let NF := net_fields ps at_ t cs only R Hw Hn HR.
Variables (sh : dict string Q) (P : rproblem) (v : rvar -> Q) (o : rsolution).
Hypothesis HP : skeleton R (Some sh) = Ok P.
Hypothesis Hv : rfeasible P v.
Hypothesis Ho : extract_redundancy R sh v = Ok o.
Let Rd : reading ps at_ t R sh v o := reading_of ps at_ t cs only R Hw Hn HR sh v o Ho.

Lemma on_of i : In i (r_sites R) -> backhaul_site t i -> v (RSite i) == 1 -> r_on o i.
Proof. intros Hi B H. unfold r_on. rewrite (RD_site _ _ _ _ _ _ _ Rd i Hi B). now rewrite (binary_one _ H). Qed.
Lemma polar_of i a : p_ignore_polarities ps = false -> In i (r_sites R) -> backhaul_site t i -> v (RSite i) == 1 -> (a = 0%Z \/ a = 1%Z) -> v (ROdd i) == inject_Z a ->
  dget (n_odd o) i = Some a /\ dget (n_even o) i = Some (1 - a)%Z.
Proof.
  intros Ip Hi B H Ha E. assert (On := on_of i Hi B H). destruct (RD_odd _ _ _ _ _ _ _ Rd Ip i 1%Z B On) as (b & _ & Hb & E1 & E2). cbn in E1, E2.
  assert (a = b). { rewrite (Hb Hi). destruct Ha as [-> | ->]; [now rewrite binary_zero|now rewrite binary_one]. }
  subst b. auto.
Qed.
(** a link that carries something is in the plan *)
Lemma carrier_on k l d : link_stored t k l -> In (l_tx l, l_rx l) (r_links R) -> In d (r_dns R) -> 0 < fl v d (l_tx l, l_rx l) -> r_link_on o l.
Proof.
  intros El He Hd Hf. unfold r_link_on. destruct (RD_link _ _ _ _ _ _ _ Rd k l El) as (z & Ez & _ & Hz). rewrite Ez. f_equal. apply Hz.
  destruct (link_sites t Hw _ _ El) as (S1 & S2). assert (N1 := super_new at_ t Hn _ S1).
  destruct (rlink_kind ps at_ t cs only R Hw Hn HR _ He) as (_ & [(Esup & _)|(k' & l' & El' & Ee & B1 & B2 & Hcap)]); [cbn in Esup; contradiction|].
  injection Ee as Et Er. rewrite <- Et in B1. rewrite <- Er in B2.
  destruct (carrier_selected ps at_ t cs only R Hw Hn HR (Some sh) P v HP Hv d _ He Hd Hf) as (V2 & V1). cbn [fst snd] in *. specialize (V1 N1).
  destruct (rlink_sites ps at_ t cs only R Hw Hn HR _ He) as (R1 & R2). cbn [fst snd] in *.
  split; [|split; [|split; [|split; [|split]]]].
  - intros Hin. change (i_inactive_links (with_channels 1 I)) with (i_inactive_links I) in Hin.
    assert (Z := inactive_flow ps at_ t cs only R Hw Hn HR (Some sh) P v HP Hv _ d He Hin Hd). lra.
  - exact Hcap.
  - exact (on_of _ R1 B1 V1).
  - exact (on_of _ R2 B2 V2).
  - intros Hpol. assert (Eps := params_R ps at_ t cs only R Hw Hn HR). apply negb_true_iff in Hpol. change (p_ignore_polarities (i_params (r_inst R)) = false) in Hpol. rewrite Eps in Hpol.
    change (compatible_polarity I (n_odd o) (l_tx l, l_rx l) = Ok true). unfold compatible_polarity. destruct (mem _ _ || mem _ _) eqn:Em; [auto|]. apply orb_false_iff in Em. destruct Em as (Ea & Ewd).
    assert (Hwl : l_wireless l = true).
    { destruct (l_wireless l) eqn:Ewl; [auto|exfalso]. apply mem_not_In in Ewd. apply Ewd. apply mem_In. change (mem (l_tx l, l_rx l) (i_wired I) = true). rewrite (D_wired _ _ _ _ _ D _ _ El), Ewl. reflexivity. }
    destruct B1 as (s1 & Es1 & Ty1). destruct B2 as (s2 & Es2 & Ty2). unfold get. cbn [fst snd]. rewrite (D_site _ _ _ _ _ D _ _ Es1), (D_site _ _ _ _ _ D _ _ Es2). cbn [rbind].
    assert (Db : dist (Real (s_type s1)) && dist (Real (s_type s2)) = true) by (destruct Ty1 as [-> | ->], Ty2 as [-> | ->]; reflexivity). rewrite Db.
    assert (B1 : backhaul_site t (l_tx l)) by (exists s1; auto). assert (B2 : backhaul_site t (l_rx l)) by (exists s2; auto).
    destruct (polarity_R ps at_ t cs only R Hw Hn HR (Some sh) P v HP Hv k l Hpol El He Hwl (or_intror (ex_intro _ d (conj Hd Hf)))) as [(Q1 & Q2)|(Q1 & Q2)].
    + destruct (polar_of _ 1%Z Hpol R1 B1 V1 (or_intror eq_refl) Q1) as (-> & _). destruct (polar_of _ 0%Z Hpol R2 B2 V2 (or_introl eq_refl) Q2) as (-> & _). reflexivity.
    + destruct (polar_of _ 0%Z Hpol R1 B1 V1 (or_introl eq_refl) Q1) as (-> & _). destruct (polar_of _ 1%Z Hpol R2 B2 V2 (or_intror eq_refl) Q2) as (-> & _). reflexivity.
  - intros Hwl. destruct (l_sectors l) as [[a b]|] eqn:Eab.
    2:{ exfalso. assert (Hin : In (l_tx l, l_rx l) (i_inactive_links I)) by (apply (D_il _ _ _ _ _ D k l El); auto).
        assert (Z := inactive_flow ps at_ t cs only R Hw Hn HR (Some sh) P v HP Hv _ d He Hin Hd). lra. }
    destruct (SP k l a b El Eab) as ((x & Hx & Ex) & (y & Hy & Ey)). exists a, b, x, y. auto.
Qed.

Lemma no_edges_in f i : ~ In i (r_sites R) -> inflow f (used R) i == 0.
Proof.
  intros Hi. unfold inflow. rewrite total_filter, (total_ext _ (fun _ => 0)), total_const0; [reflexivity|]. intros e He. destruct (beq_spec (snd e) i) as [<-|]; [|reflexivity].
  exfalso. apply Hi. apply (rlink_sites ps at_ t cs only R Hw Hn HR). now apply (used_iff ps at_ t cs only R Hw Hn HR).
Qed.
Lemma no_edges_out f i : ~ In i (r_sites R) -> outflow f (used R) i == 0.
Proof.
  intros Hi. unfold outflow. rewrite total_filter, (total_ext _ (fun _ => 0)), total_const0; [reflexivity|]. intros e He. destruct (beq_spec (fst e) i) as [<-|]; [|reflexivity].
  exfalso. apply Hi. apply (rlink_sites ps at_ t cs only R Hw Hn HR). now apply (used_iff ps at_ t cs only R Hw Hn HR).
Qed.

Theorem withstands gone down d q : 0 <= c_pop cs -> 0 <= c_dn cs -> protected t d -> ~ In d gone -> dget sh d = Some q ->
  weight cs t gone down < c_sink cs - q -> served t o gone down d.
Proof.
  intros P1 P2 Hp Hg Hq Hwt. assert (Hd : In d (r_dns R)) by (apply (dns_iff ps at_ t cs only R Hw Hn HR); exact Hp).
  assert (Wpos : forall x, 0 <= site_weight cs t x).
  { intros x. unfold site_weight. destruct (dget (t_sites t) x) as [s|]; [|lra]. destruct (s_type s); auto. }
  set (X := filter (fun x => negb (beq x SUPERSOURCE)) gone).
  assert (HX : forall x, In x X <-> In x gone /\ x <> SUPERSOURCE).
  { intros x. unfold X. rewrite filter_In, negb_true_iff, beq_neq. tauto. }
  assert (Hds : In d (r_sites R)) by (apply NF; exact Hd).
  assert (Hst : site_stored t d) by (destruct Hp as ((s & Es & _) & _); now exists s).
  assert (Hns : d <> SUPERSOURCE) by now apply (super_new at_ t Hn).
  assert (Main : d = SUPERSOURCE \/ served t o gone down d); [|destruct Main; [contradiction|auto]].
  apply (cut_reaches (used R) (fl v d) (i_locations I) X down SUPERSOURCE d (site_weight cs t) (c_sink cs - q) (fun x => x = SUPERSOURCE \/ served t o gone down x)).
  - exact (used_nd ps at_ t cs only R Hw Hn HR).
  - exact (D_locs_nd _ _ _ _ _ D).
  - intros e He. apply (used_iff ps at_ t cs only R Hw Hn HR) in He. destruct (rlink_sites ps at_ t cs only R Hw Hn HR e He) as (A & B). split; apply (rsite_loc ps at_ t cs only R Hw Hn HR); auto.
  - intros e He. apply (used_iff ps at_ t cs only R Hw Hn HR) in He. apply (flow_bounds ps at_ t cs only R Hw Hn HR (Some sh) P v HP Hv e d He Hd).
  - intros e He Hs. apply (used_iff ps at_ t cs only R Hw Hn HR) in He. exact (flow_unit ps at_ t cs only R Hw Hn HR (Some sh) P v HP Hv e d He Hd Hs).
  - apply (rsite_loc ps at_ t cs only R Hw Hn HR). exact Hds.
  - exact Hns.
  - rewrite HX. tauto.
  - intros x _ Hxs Hxd. destruct (mem x (r_sites R)) eqn:Ex.
    + apply mem_In in Ex. exact (balance_R ps at_ t cs only R Hw Hn HR (Some sh) P v HP Hv x d Ex Hd Hxs Hxd).
    + apply mem_not_In in Ex. rewrite no_edges_in, no_edges_out by auto. reflexivity.
  - exact (balance_sink ps at_ t cs only R Hw Hn HR (Some sh) P v HP Hv d q Hd Hq).
  - auto.
  - intros x Hx Hxs. destruct (mem x (r_sites R)) eqn:Ex.
    + apply mem_In in Ex. destruct (rsite_kind ps at_ t cs only R Hw Hn HR x Ex) as [?|B]; [contradiction|]. assert (B' := B). destruct B' as (s & Es & Ty).
      assert (Nd : x <> d) by (intros ->; apply HX in Hx; tauto).
      destruct (flow_site ps at_ t cs only R Hw Hn HR (Some sh) P v HP Hv x d s Ex Es Hd) as [H|H]; [|rewrite H; apply Wpos].
      eapply Qle_trans; [exact H|]. unfold site_weight. rewrite Es. apply beq_neq in Nd. rewrite Nd.
      destruct (site_binary ps at_ t cs only R Hw Hn HR (Some sh) P v HP Hv x Ex B) as [Hb|Hb]; rewrite Hb; destruct (s_type s); lra.
    + apply mem_not_In in Ex. rewrite no_edges_in by auto. apply Wpos.
  - rewrite HX. tauto.
  - eapply Qle_lt_trans; [|exact Hwt]. unfold weight. assert (F := total_filter_le (site_weight cs t) (fun x => negb (beq x SUPERSOURCE)) gone Wpos). fold X in F. lra.
  - now left.
  - intros e He Hf Hx Hdn Hpf. apply (used_iff ps at_ t cs only R Hw Hn HR) in He. right.
    destruct (carrier_selected ps at_ t cs only R Hw Hn HR (Some sh) P v HP Hv d e He Hd Hf) as (V2 & V1).
    destruct (rlink_sites ps at_ t cs only R Hw Hn HR e He) as (R1 & R2). destruct (rlink_ends ps at_ t cs only R Hw Hn HR e He) as (_ & B2).
    assert (Ng : ~ In (snd e) gone).
    { intros Hin. apply Hx, HX. split; [exact Hin|]. apply (super_new at_ t Hn). now apply backhaul_stored. }
    assert (On := on_of _ R2 B2 V2).
    destruct (rlink_kind ps at_ t cs only R Hw Hn HR e He) as (_ & [(Esup & Hpop)|(k & l & El & -> & B1 & _ & _)]).
    + now apply served_pop.
    + cbn [fst snd] in *. destruct (link_sites t Hw _ _ El) as (S1 & _). assert (N1 := super_new at_ t Hn _ S1).
      destruct Hpf as [?|Hs]; [contradiction|]. apply (served_link t o gone down k l); auto.
      * exact (carrier_on k l d El He Hd Hf).
      * destruct Hdn as [?|Hdn]; [contradiction|]. exact Hdn.
Qed.
End Main.

(** the levels *)
Lemma pops_count t : well_formed t -> (1 < active_pops t)%nat <-> several_pops t.
Proof.
  intros Hw. unfold active_pops.
  assert (Nd : NoDup (get_site_ids t (Some [PROPOSED; EXISTING]) (Some [POP]))) by (apply get_site_ids_wf; exact Hw).
  assert (M : forall i, In i (get_site_ids t (Some [PROPOSED; EXISTING]) (Some [POP])) <-> is_pop t i /\ active_now t i).
  { intros i. rewrite (proj2 (get_site_ids_wf t _ _ Hw)). unfold is_pop, active_now, in_service, allowed, passes. split.
    - intros (s & Es & H1 & H2). cbn in H1, H2. split; exists s; (split; [exact Es|]); [destruct H2 as [->|[]]; reflexivity|destruct H1 as [<-|[<-|[]]]; auto].
    - intros ((s & Es & Ht) & (s' & Es' & Hs)). rewrite Es in Es'. injection Es' as <-. exists s. split; [exact Es|]. split; cbn; [destruct Hs as [->| ->]; auto|auto]. }
  set (l := get_site_ids _ _ _) in *. split.
  - intros H. destruct l as [|a [|b r]]; cbn in H; [lia|lia|]. exists a, b. assert (A := proj1 (M a) (or_introl eq_refl)). assert (B := proj1 (M b) (or_intror (or_introl eq_refl))).
    split; [|tauto]. intros ->. inversion Nd as [|? ? Ni _]. apply Ni. now left.
  - intros (i & j & Ne & P1 & P2 & A1 & A2). assert (Hi : In i l) by (apply M; auto). assert (Hj : In j l) by (apply M; auto).
    destruct l as [|a [|b r]]; cbn in *; [contradiction| |lia]. destruct Hi as [<-|[]], Hj as [<-|[]]. congruence.
Qed.
Lemma weight_dns cs t gone : (forall i, In i gone -> is_dn t i) -> total (site_weight cs t) gone == c_dn cs * inject_Z (Z.of_nat (List.length gone)).
Proof.
  induction gone as [|x l IH]; intros H; [unfold total; cbn; ring|]. rewrite tot_cons, IH by (intros; apply H; now right).
  destruct (H x (or_introl eq_refl)) as (s & Es & Ty). unfold site_weight at 1. rewrite Es, Ty. cbn [List.length]. rewrite Nat2Z.inj_succ, <- Z.add_1_l, inject_Z_plus. ring.
Qed.
Lemma level_weight lvl t cs gone down : well_formed t -> level_caps lvl (active_pops t) = Some cs -> promised lvl t gone down ->
  0 <= c_pop cs /\ 0 <= c_dn cs /\ weight cs t gone down < c_sink cs.
Proof.
  intros Hw El Hp. assert (NP := pops_count t Hw). unfold weight.
  assert (Len : forall (A : Type) (l : list A) n, (List.length l <= n)%nat -> inject_Z (Z.of_nat (List.length l)) <= inject_Z (Z.of_nat n)).
  { intros A l n H. rewrite <- Zle_Qle. lia. }
  assert (W1 : forall cs i, is_dn t i -> site_weight cs t i = c_dn cs) by (intros cs' i (s & Es & Ty); unfold site_weight; now rewrite Es, Ty).
  assert (W2 : forall cs i, is_pop t i -> site_weight cs t i = c_pop cs) by (intros cs' i (s & Es & Ty); unfold site_weight; now rewrite Es, Ty).
  destruct lvl; cbn [level_caps promised] in *; [discriminate| | |].
  - injection El as <-. cbn [c_pop c_dn c_sink]. destruct Hp as (-> & Hl). specialize (Len _ down 1%nat Hl). split; [lra|]. split; [lra|]. unfold total. cbn [map fold_right]. change (inject_Z (Z.of_nat 1)) with 1 in Len. cbn in *. lra.
  - destruct Hp as (-> & i & -> & Hi). destruct (Nat.ltb 1 (active_pops t)) eqn:Ep; injection El as <-; cbn [c_pop c_dn c_sink List.length]; change (inject_Z (Z.of_nat 0)) with 0; (split; [lra|]); (split; [lra|]); rewrite tot_cons, tot_nil.
    + destruct Hi as [Hi|(_ & Hi)]; rewrite ?(W1 _ _ Hi), ?(W2 _ _ Hi); cbn; lra.
    + destruct Hi as [Hi|(Hs & _)]; [rewrite (W1 _ _ Hi); cbn; lra|]. apply NP in Hs. apply Nat.ltb_ge in Ep. lia.
  - destruct Hp as (-> & Hp). cbn [List.length]. change (inject_Z (Z.of_nat 0)) with 0. destruct (Nat.ltb 1 (active_pops t)) eqn:Ep; injection El as <-; (split; [cbn; lra|]); (split; [cbn; lra|]).
    + destruct Hp as [(_ & p & i & -> & Hpop & Hdn)|[(_ & Hl & Hd)|(Hl & Hd)]].
      * rewrite !tot_cons, tot_nil, (W1 _ _ Hdn), (W2 _ _ Hpop). cbn. lra.
      * rewrite weight_dns by exact Hd. specialize (Len _ gone 3%nat Hl). change (inject_Z (Z.of_nat 3)) with 3 in Len. cbn [c_dn c_sink]. lra.
      * rewrite weight_dns by exact Hd. specialize (Len _ gone 2%nat Hl). change (inject_Z (Z.of_nat 2)) with 2 in Len. cbn [c_dn c_sink]. lra.
    + apply Nat.ltb_ge in Ep. destruct Hp as [(Hs & _)|[(Hs & _)|(Hl & Hd)]]; [apply NP in Hs; lia|apply NP in Hs; lia|].
      rewrite weight_dns by exact Hd. specialize (Len _ gone 2%nat Hl). change (inject_Z (Z.of_nat 2)) with 2 in Len. cbn [c_dn c_sink]. lra.
Qed.
