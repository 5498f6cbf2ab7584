(** The site-selection problem admits exactly the good plans: every good plan is admitted. *)
From Coq Require Import QArith Lqa Lia.
From Verif Require Import Base Dict TopologyModel TopologySpec TopologyLemmas GraphSpec GraphProofs RfModel RfProofs SetupModel
  IlpModel IlpSpec QLib MonadLib SetupProofs IlpLemmas IlpProofs ExtractModel ExtractSpec ExtractProofs SolveSpec SolveProofs SolveMainProofs FitSpec.
Local Open Scope Q_scope.

Section Fit.
Variables (ps : params) (at_ : attrs) (t : topo) (I0 : inst).
Hypothesis Hw : well_formed t.
Hypothesis Hn : names_ok at_ t.
Hypothesis HI : network ps at_ t = Ok I0.
Let I := with_channels 1 I0.
Variables (adv : list edge) (dem : string -> Q) (all : Q).
Hypothesis Hd : demands ps at_ t dem all.
Lemma DD : describes ps at_ t (a_cap at_) I.
Proof using Hw Hn HI. exact (D ps at_ t I0 Hw Hn HI). Qed.
Lemma all_max : i_max_throughput I == all.
Proof using Hw Hn HI Hd.
  destruct Hd as (H1 & cs & Hcs & ->). unfold I. rewrite (total_demand ps at_ t I0 Hw Hn HI dem H1). exact (lists_total dem _ _ _ (shortage_keys_lists ps at_ t I0 Hw Hn HI) Hcs).
Qed.
Lemma dem_value n q : consumer at_ t n -> dget (i_demand I) n = Some q -> q = dem n.
Proof using Hw Hn HI Hd. intros Hc E. exact (wants_value ps at_ t I0 Hw Hn HI n q (dem n) Hc E (proj1 Hd n Hc)). Qed.
Lemma best_is : best_link ps at_ t (max_link_cap ps at_ t).
Proof using Hw.
  assert (A : forall p, In p (topology_edges t) <-> exists k l, link_stored t k l /\ p = ((l_tx l, l_rx l), l)).
  { intros p. unfold topology_edges. rewrite in_map_iff. split.
    - intros ((k & l) & <- & Hin). exists k, l. split; [|reflexivity]. apply In_dget; [apply Hw|exact Hin].
    - intros (k & l & El & ->). exists (k, l). split; [reflexivity|now apply dget_In]. }
  unfold max_link_cap. destruct (topology_edges t) as [|p r].
  - assert (No : forall k l, ~ link_stored t k l). { intros k l El. apply (A ((l_tx l, l_rx l), l)). eauto. }
    split; [intros k l El; now apply No in El|]. right. split; [exact No|reflexivity].
  - assert (G : forall (r : list (edge * link)) a, (exists q, (q = a \/ In q (map (fun p => a_cap at_ (fst p)) r)) /\ fold_left (fun m q => qmax2 m (a_cap at_ (fst q))) r a == q) /\
      a <= fold_left (fun m q => qmax2 m (a_cap at_ (fst q))) r a /\ forall p, In p r -> a_cap at_ (fst p) <= fold_left (fun m q => qmax2 m (a_cap at_ (fst q))) r a).
    { clear. induction r as [|b r IH]; intros a; cbn [fold_left map].
      - split; [exists a; split; [now left|reflexivity]|]. split; [apply Qle_refl|intros p []].
      - destruct (IH (qmax2 a (a_cap at_ (fst b)))) as ((q & Hq & E) & H1 & H2). assert (M : a <= qmax2 a (a_cap at_ (fst b)) /\ a_cap at_ (fst b) <= qmax2 a (a_cap at_ (fst b)) /\ (qmax2 a (a_cap at_ (fst b)) = a \/ qmax2 a (a_cap at_ (fst b)) = a_cap at_ (fst b))).
        { unfold qmax2. destruct (Qle_bool (a_cap at_ (fst b)) a) eqn:B; [apply Qle_bool_iff in B|apply qle_false in B]; repeat split; auto; lra. }
        destruct M as (M1 & M2 & M3). split; [|split].
        + exists q. split; [|exact E]. destruct Hq as [->|Hq]; [|right; now right]. destruct M3 as [-> | ->]; [now left|right; now left].
        + lra.
        + intros p [<-|Hp]; [lra|auto]. }
    destruct (G r (a_cap at_ (fst p))) as ((q & Hq & E) & H1 & H2). split.
    + intros k l El. assert (Hin : In ((l_tx l, l_rx l), l) (p :: r)) by (apply A; eauto). destruct Hin as [Hin|Hin]; [change (l_tx l, l_rx l) with (fst ((l_tx l, l_rx l), l)); rewrite <- Hin; exact H1|exact (H2 _ Hin)].
    + left. assert (Q : exists p', In p' (p :: r) /\ q = a_cap at_ (fst p')). { destruct Hq as [->|Hq]; [exists p; split; [now left|reflexivity]|]. apply in_map_iff in Hq. destruct Hq as (p' & <- & Hin). exists p'. split; [now right|reflexivity]. }
      destruct Q as (p' & Hin & ->). apply A in Hin. destruct Hin as (k & l & El & ->). exists k, l. split; [exact El|exact E].
Qed.
(** capacities *)
Lemma cap_kinds e q : dget (i_cap I) e = Some q ->
  (exists i, e = (SUPERSOURCE, i) /\ is_pop t i /\ q = p_pop_capacity ps) \/
  (site_stored t (fst e) /\ consumer at_ t (snd e) /\ flow_edge at_ t e /\ q = max_link_cap ps at_ t) \/
  (exists k l, link_stored t k l /\ e = (l_tx l, l_rx l) /\ q = a_cap at_ e).
Proof using Hw Hn HI.
  intros E. assert (He : In e (i_links I)) by (unfold i_links; apply In_dkeys; eauto). destruct (setup_fields ps at_ t I0 (proj1 (network_setup ps at_ t I0 HI))) as (thr & _ & _ & _ & _ & _ & _ & _ & _ & _ & _ & _ & Fcap & _).
  assert (Fl := proj1 (D_links _ _ _ _ _ DD e) He). change (i_cap I) with (i_cap I0) in E. rewrite Fcap in E. apply dict_of_In in E.
  rewrite !in_app_iff, !in_map_iff in E. destruct E as [(i & E & Hi)|[(p & E & Hp)|(p & E & Hin)]].
  - injection E as <- <-. left. exists i. split; [reflexivity|]. split; [|reflexivity]. unfold sites_of_type in Hi. apply in_map_iff in Hi. destruct Hi as ((i' & s) & <- & Hi). apply filter_In in Hi. destruct Hi as (Hi & B). apply beq_true in B. exists s. split; [apply In_dget; [apply Hw|exact Hi]|exact B].
  - injection E as <- <-. right; left. destruct (edge_kinds _ _ _ _ _ DD Hn _ He) as [(k & l & El & X)|[(X & Y)|(X & Y)]].
    + exfalso. unfold demand_edges in Hp. apply in_flat_map in Hp. destruct Hp as ((n & d) & Hin & Hp). apply in_map_iff in Hp. destruct Hp as (s & <- & Hs). cbn [fst snd] in X. injection X as X1 X2.
      assert (Dn : In n (i_set I Demand)). { change (i_set I) with (i_set I0). destruct (setup_fields ps at_ t I0 (proj1 (network_setup ps at_ t I0 HI))) as (thr' & _ & _ & _ & _ & _ & _ & _ & Fset & _). rewrite Fset. cbn [setup_set]. apply in_map_iff. exists (n, d). auto. }
      apply (D_dset _ _ _ _ _ DD) in Dn. apply (proj1 (proj2 (proj2 Hn)) n Dn). rewrite X2. apply (link_sites t Hw k l El).
    + exfalso. unfold demand_edges in Hp. apply in_flat_map in Hp. destruct Hp as ((n & d) & Hin & Hp). apply in_map_iff in Hp. destruct Hp as (s & <- & Hs). cbn [fst snd] in *.
      assert (Dn : In n (i_set I Demand)). { change (i_set I) with (i_set I0). destruct (setup_fields ps at_ t I0 (proj1 (network_setup ps at_ t I0 HI))) as (thr' & _ & _ & _ & _ & _ & _ & _ & Fset & _). rewrite Fset. cbn [setup_set]. apply in_map_iff. exists (n, d). auto. }
      apply (D_dset _ _ _ _ _ DD) in Dn. apply (proj1 (proj2 (proj2 Hn)) n Dn). destruct Y as (s' & Es & _). now exists s'.
    + split; [exact X|]. split; [exact Y|]. split; [exact Fl|reflexivity].
  - injection E as <- <-. right; right. unfold topology_edges in Hin. apply in_map_iff in Hin. destruct Hin as ((k & l) & <- & Hin). cbn [fst snd]. exists k, l. split; [apply In_dget; [apply Hw|exact Hin]|]. split; reflexivity.
Qed.
Lemma inactive_iff e : In e (i_inactive_links I) <-> exists k l, link_stored t k l /\ e = (l_tx l, l_rx l) /\ dead_link l.
Proof using Hw Hn HI.
  split; [|intros (k & l & El & -> & H); exact (D_il _ _ _ _ _ DD k l El H)].
  destruct (setup_fields ps at_ t I0 (proj1 (network_setup ps at_ t I0 HI))) as (thr & _ & _ & _ & _ & _ & _ & _ & _ & _ & _ & _ & _ & _ & _ & _ & _ & _ & _ & _ & _ & _ & Fil & _).
  change (i_inactive_links I) with (i_inactive_links I0). rewrite Fil, in_app_iff. intros [H|H].
  - apply links_by_status in H; [|exact Hw]. destruct H as (k & l & El & -> & S0). exists k, l. split; [exact El|]. split; [reflexivity|]. unfold dead_link. destruct S0 as [S0|[S0|[]]]; auto.
  - unfold get_sectorless_links in H. apply in_map_iff in H. destruct H as ((k & l) & <- & Hin). apply filter_In in Hin. destruct Hin as (Hin & B). cbn [fst snd] in *. exists k, l. split; [apply In_dget; [apply Hw|exact Hin]|]. split; [reflexivity|]. right; right.
    apply andb_true_iff in B. destruct B as (B1 & B2). unfold l_type in B1. unfold is_out_of_sector in B2. destruct (l_sectors l); [discriminate|]. split; [|reflexivity]. destruct (l_wireless l); [reflexivity|discriminate].
Qed.

(** ** the source *)
Section Good.
Variable v : var -> Q.
Hypothesis Hg : good_plan ps at_ t adv dem all v.
Lemma supply es : out_of at_ t SUPERSOURCE es -> total (flow v) es == total (fun n => dem n - v (VShort n)) (shortage_keys I).
Proof using Hw Hn HI Hg.
  intros Hes. set (fin := fun loc => filter (fun e : edge => beq (snd e) loc) (i_links I)). set (fout := fun loc => filter (fun e : edge => beq (fst e) loc) (i_links I)).
  assert (Fin : forall loc, into at_ t loc (fin loc)).
  { intros loc. split; [apply NoDup_filter', (D_links_nd _ _ _ _ _ DD)|]. intros e. unfold fin. rewrite filter_In, (D_links _ _ _ _ _ DD).
    split; intros [? H]; split; auto; [now apply beq_true in H|subst; apply beq_refl]. }
  assert (Fout : forall loc, out_of at_ t loc (fout loc)).
  { intros loc. split; [apply NoDup_filter', (D_links_nd _ _ _ _ _ DD)|]. intros e. unfold fout. rewrite filter_In, (D_links _ _ _ _ _ DD).
    split; intros [? H]; split; auto; [now apply beq_true in H|subst; apply beq_refl]. }
  set (net := fun loc => total (flow v) (fin loc) - total (flow v) (fout loc)).
  assert (Sum : total net (i_locations I) == 0).
  { unfold net. rewrite total_sub. unfold fin, fout. rewrite !sum_by_end; try apply (D_locs_nd _ _ _ _ _ DD); try (intros e He; apply (D_ends _ _ _ _ _ DD e He)). lra. }
  assert (Hk := shortage_keys_lists ps at_ t I0 Hw Hn HI). fold I in Hk.
  assert (Split := total_split (fun loc => mem loc (shortage_keys I)) net (i_locations I)). rewrite Sum in Split.
  assert (P1 : total net (filter (fun loc => mem loc (shortage_keys I)) (i_locations I)) == total (fun n => dem n - v (VShort n)) (shortage_keys I)).
  { rewrite (total_ext net (fun n => dem n - v (VShort n))).
    - apply (lists_total _ _ _ (consumer at_ t)); [|exact Hk]. split; [apply NoDup_filter', (D_locs_nd _ _ _ _ _ DD)|]. intros m. rewrite filter_In, mem_In, (proj2 Hk m), (D_locs _ _ _ _ _ DD). tauto.
    - intros n Hin. apply filter_In in Hin. destruct Hin as (_ & M). apply mem_In, Hk in M. unfold net. rewrite (gp_consumer _ _ _ _ _ _ _ Hg n (fin n) M (Fin n)), (out_consumer at_ t Hw Hn n (fout n) M (Fout n)). cbn [total]. lra. }
  assert (P2 : total net (filter (fun loc => negb (mem loc (shortage_keys I))) (i_locations I)) == net SUPERSOURCE).
  { rewrite (total_ext net (fun loc => if beq SUPERSOURCE loc then net SUPERSOURCE else 0)).
    - apply total_pick; [apply NoDup_filter', (D_locs_nd _ _ _ _ _ DD)|]. apply filter_In. split; [apply (D_locs _ _ _ _ _ DD); now left|]. apply negb_true_iff, mem_not_In. intros Hin. apply Hk in Hin. now apply (proj1 (proj2 Hn)).
    - intros loc Hin. apply filter_In in Hin. destruct Hin as (Hloc & Hm). apply negb_true_iff, mem_not_In in Hm.
      destruct (beq_spec SUPERSOURCE loc) as [<-|Hne]; [reflexivity|]. apply (D_locs _ _ _ _ _ DD) in Hloc. destruct Hloc as [E|[Hs|Hcc]]; [congruence| |].
      + unfold net. destruct (gp_through _ _ _ _ _ _ _ Hg loc (fin loc) (fout loc) Hs (Fin loc) (Fout loc)) as (E & _). rewrite E. lra.
      + exfalso. apply Hm. now apply Hk. }
  rewrite P1, P2 in Split. unfold net in Split. rewrite (into_super at_ t Hw Hn _ (Fin SUPERSOURCE)) in Split. cbn [total] in Split.
  rewrite (lists_total (flow v) es (fout SUPERSOURCE) _ Hes (Fout SUPERSOURCE)). lra.
Qed.
Lemma dem_nonneg n : consumer at_ t n -> 0 <= dem n.
Proof using Hg. intros H. assert (A := gp_short _ _ _ _ _ _ _ Hg n H). lra. Qed.
Lemma served_all : total (fun n => dem n - v (VShort n)) (shortage_keys I) <= all.
Proof using Hw Hn HI Hd Hg.
  rewrite <- all_max. unfold I. rewrite (total_demand ps at_ t I0 Hw Hn HI dem (proj1 Hd)). fold I. apply total_le. intros n Hin. apply (proj2 (shortage_keys_lists ps at_ t I0 Hw Hn HI)) in Hin. assert (A := gp_short _ _ _ _ _ _ _ Hg n Hin). lra.
Qed.
Lemma dem_le_all n : consumer at_ t n -> dem n <= all.
Proof using Hw Hn HI Hd Hg.
  intros H. rewrite <- all_max. unfold I. rewrite (total_demand ps at_ t I0 Hw Hn HI dem (proj1 Hd)). apply (total_member dem); [|now apply (proj2 (shortage_keys_lists ps at_ t I0 Hw Hn HI))]. intros m Hm. apply dem_nonneg. now apply (proj2 (shortage_keys_lists ps at_ t I0 Hw Hn HI)) in Hm.
Qed.
Lemma all_nonneg : 0 <= all.
Proof using Hw Hn HI Hd Hg.
  rewrite <- all_max. unfold I. rewrite (total_demand ps at_ t I0 Hw Hn HI dem (proj1 Hd)). fold I. apply Qle_trans with (total (fun _ : string => 0) (shortage_keys I)); [rewrite total_const0; apply Qle_refl|]. apply total_le. intros n Hin. apply dem_nonneg. now apply (proj2 (shortage_keys_lists ps at_ t I0 Hw Hn HI)) in Hin.
Qed.
(** what passes through a location *)
Lemma through loc ei eo : In loc (i_locations I) -> into at_ t loc ei -> out_of at_ t loc eo ->
  let q := if dmem (t_sites t) loc then v (VSite loc) else 1 in total (flow v) ei <= all * q /\ total (flow v) eo <= all * q.
Proof using Hw Hn HI Hd Hg.
  intros Hl Hi Ho. cbv zeta. apply (D_locs _ _ _ _ _ DD) in Hl. assert (A := all_nonneg). destruct Hl as [->|[Hs|Hc]].
  - assert (M : dmem (t_sites t) SUPERSOURCE = false). { destruct (dmem _ _) eqn:M; [|reflexivity]. exfalso. apply (proj1 Hn). now apply stored_dmem. } rewrite M.
    rewrite (into_super at_ t Hw Hn _ Hi). cbn [total]. split; [lra|]. assert (S1 := supply eo Ho). assert (S2 := served_all). lra.
  - assert (M := Hs). apply stored_dmem in M. rewrite M. destruct (gp_through _ _ _ _ _ _ _ Hg loc ei eo Hs Hi Ho) as (E & L). split; [exact L|]. rewrite <- E. exact L.
  - assert (M : dmem (t_sites t) loc = false). { destruct (dmem _ _) eqn:M; [|reflexivity]. exfalso. apply (proj1 (proj2 (proj2 Hn)) loc Hc). now apply stored_dmem. } rewrite M.
    rewrite (out_consumer at_ t Hw Hn _ _ Hc Ho). cbn [total]. split; [|lra]. rewrite (gp_consumer _ _ _ _ _ _ _ Hg loc ei Hc Hi). assert (X := gp_short _ _ _ _ _ _ _ Hg loc Hc). assert (Y := dem_le_all loc Hc). lra.
Qed.
Lemma edge_le_all e : In e (i_links I) -> flow v e <= all.
Proof using Hw Hn HI Hd Hg.
  intros He. destruct (D_ends _ _ _ _ _ DD e He) as (_ & H2). destruct (lists_in _ _ _ _ _ DD (snd e) H2) as (ei & _ & Hi). destruct (lists_out _ _ _ _ _ DD (snd e) H2) as (eo & _ & Ho).
  destruct (through (snd e) ei eo H2 Hi Ho) as (L & _). assert (B : flow v e <= total (flow v) ei). { apply (total_member (flow v)); [intros y Hy; apply (gp_flow _ _ _ _ _ _ _ Hg); now apply Hi|]. apply Hi. split; [now apply (D_links _ _ _ _ _ DD)|reflexivity]. }
  assert (A := all_nonneg). destruct (dmem (t_sites t) (snd e)) eqn:M; [|lra]. apply stored_dmem in M. destruct (gp_site _ _ _ _ _ _ _ Hg (snd e) M) as [Z|Z]; rewrite Z in L; lra.
Qed.
End Good.
End Fit.
