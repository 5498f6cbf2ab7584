(** Proofs about link statistics, site flows and redundancy flags. *)
From Coq Require Import QArith Qabs Lqa Lia.
From Verif Require Import Base Dict QLib MonadLib SetupModel LosRangeModel TopologyModel TopologySpec GraphSpec RfModel TpcModel CountModel ReportModel ReportSpec ReportProofs.
From Verif Require Import IlpModel IlpSpec PruneModel PruneSpec FlowOptModel FlowOptSpec.
From Verif Require GraphProofs.
From Verif Require SumLib TopologyLemmas FlowOptProofs GraphProofs SetupProofs.
Local Open Scope Q_scope.
Local Open Scope list_scope.

Section Stats.
Variables (t : topo).
Hypothesis W : well_formed t.
Variables (routing : option (dict edge Q * dict edge Q)) (ef : dict edge (list string)).
Lemma fold_other d : forall s k, ~ In k (map fst d) -> fold_left (add_link_stat routing ef) d s k = s k.
Proof.
  induction d as [|[k' l'] d IH]; intros s k N; cbn [fold_left]; [reflexivity|]. cbn in N. rewrite IH by tauto. unfold add_link_stat. cbn [fst snd].
  destruct (active _); [|reflexivity]. destruct (beq_spec k k'); [subst; tauto|reflexivity].
Qed.
Lemma link_stats s k l : link_stored t k l ->
  (planned (l_status l) -> st_flow (add_link_stats t routing ef s k) = (match routing with Some r => flow_of (fst r) (ends l) | None => 0 end) /\
     st_util (add_link_stats t routing ef s k) = (match routing with Some r => flow_of (snd r) (ends l) | None => 0 end) /\
     st_breakdowns (add_link_stats t routing ef s k) = List.length (match dget ef (ends l) with Some x => x | None => [] end)) /\
  (~ planned (l_status l) -> add_link_stats t routing ef s k = s k).
Proof.
  intros El. apply (stored_In t W) in El. assert (N : NoDup (map fst (t_links t))) by (apply W). unfold add_link_stats.
  revert s El N. generalize (t_links t). intros d. induction d as [|[k' l'] d IH]; intros s El N; [destruct El|]. cbn in N. inversion N as [|? ? N1 N2]; subst. cbn [fold_left].
  destruct El as [E|El].
  - injection E as -> ->. rewrite fold_other by exact N1. unfold add_link_stat. cbn [fst snd]. destruct (active (l_status l)) eqn:A.
    + apply act_planned in A. rewrite beq_refl. cbn. split; [auto|tauto].
    + split; [intros P; apply act_planned in P; congruence|auto].
  - destruct (IH (add_link_stat routing ef s (k', l')) El N2) as [X Y]. split; [exact X|]. intros P. rewrite (Y P). unfold add_link_stat. cbn [fst snd].
    destruct (active _); [|reflexivity]. destruct (beq_spec k k') as [->|]; [|reflexivity]. exfalso. apply N1. apply in_map_iff. now exists (k', l).
Qed.

(** Flow of sites *)
Variable s : string -> lstat.
Definition out_keys (d : dict string link) (i : string) : list string := map fst (filter (fun q => active (l_status (snd q)) && beq (l_tx (snd q)) i) d).
Definition in_keys (d : dict string link) (i : string) : list string := map fst (filter (fun q => active (l_status (snd q)) && beq (l_rx (snd q)) i) d).
Notation amount := (fun k => st_flow (s k)).
Lemma flow_fold dm d : (forall k l, In (k, l) d -> ~ In (l_rx l) dm) -> forall f i,
  outgoing (fold_left (fun f q => flow_step dm s q f) d f) i == outgoing f i + IlpSpec.total amount (out_keys d i) /\
  incoming (fold_left (fun f q => flow_step dm s q f) d f) i == incoming f i + IlpSpec.total amount (in_keys d i).
Proof.
  intros Hd. induction d as [|[k l] d IH]; intros f i; cbn [fold_left out_keys in_keys filter map IlpSpec.total]; [split; ring|].
  destruct (IH ltac:(intros k' l' H; apply (Hd k' l'); now right) (flow_step dm s (k, l) f) i) as [A B]. cbn [snd fst]. unfold out_keys, in_keys in *.
  assert (M : mem (l_rx l) dm = false) by (apply mem_not_In, (Hd k l); now left).
  assert (S1 : outgoing (flow_step dm s (k, l) f) i == outgoing f i + (if active (l_status l) && beq (l_tx l) i then st_flow (s k) else 0)).
  { unfold flow_step, outgoing. cbn [fst snd]. rewrite M. destruct (active (l_status l)); cbn [andb]; [|ring]. rewrite dget_set.
    destruct (beq_spec i (l_rx l)) as [->|N1].
    - cbn [fst]. rewrite dget_set. rewrite (beq_sym (l_tx l)). destruct (beq_spec (l_rx l) (l_tx l)) as [<-|]; cbn [fst]; destruct (dget f (l_rx l)); cbn [fst]; ring.
    - rewrite dget_set. rewrite (beq_sym (l_tx l)). destruct (beq_spec i (l_tx l)) as [<-|]; cbn [fst]; [destruct (dget f i); cbn [fst]; ring|ring]. }
  assert (S2 : incoming (flow_step dm s (k, l) f) i == incoming f i + (if active (l_status l) && beq (l_rx l) i then st_flow (s k) else 0)).
  { unfold flow_step, incoming. cbn [fst snd]. rewrite M. destruct (active (l_status l)); cbn [andb]; [|ring]. rewrite dget_set. rewrite (beq_sym (l_rx l)).
    destruct (beq_spec i (l_rx l)) as [->|N1].
    - cbn [snd]. rewrite dget_set. destruct (beq_spec (l_rx l) (l_tx l)) as [<-|]; cbn [snd]; destruct (dget f (l_rx l)); cbn [snd]; ring.
    - rewrite dget_set. destruct (beq_spec i (l_tx l)) as [<-|]; cbn [snd]; [destruct (dget f i); cbn [snd]; ring|ring]. }
  rewrite A, B, S1, S2. split; [destruct (active (l_status l) && beq (l_tx l) i)|destruct (active (l_status l) && beq (l_rx l) i)]; cbn [map IlpSpec.total fst]; ring.
Qed.
Lemma keys_lists (p : link -> bool) : NoDup (map fst (filter (fun q => p (snd q)) (t_links t))) /\
  forall k, In k (map fst (filter (fun q => p (snd q)) (t_links t))) <-> exists l, link_stored t k l /\ p l = true.
Proof.
  assert (N : NoDup (map fst (t_links t))) by (apply W). split.
  - revert N. generalize (t_links t). intros d. induction d as [|q d IH]; intros N; cbn; [constructor|]. inversion N as [|? ? N1 N2]; subst. destruct (p (snd q)); cbn; auto. constructor; auto.
    intros C. apply N1. apply in_map_iff in C. destruct C as (x & E & H). apply filter_In in H. rewrite <- E. apply in_map. tauto.
  - intros k. rewrite in_map_iff. split.
    + intros ([k' l] & <- & H). apply filter_In in H. cbn in *. exists l. split; [apply (stored_In t W); tauto|tauto].
    + intros (l & H & P). exists (k, l). split; [reflexivity|]. apply filter_In. split; [now apply (stored_In t W)|exact P].
Qed.
Lemma total_same {A} (f : A -> Q) l r : NoDup l -> NoDup r -> (forall x, In x l <-> In x r) -> IlpSpec.total f l == IlpSpec.total f r.
Proof. assert (E : forall l, IlpSpec.total f l = SumLib.total f l) by (induction l0 as [|x l0 IH]; cbn; [reflexivity|now rewrite IH]). intros. rewrite !E. now apply SumLib.tot_same. Qed.
Lemma site_flows i os is_ : (forall d, In d (dkeys (t_demands t)) -> ~ site_stored t d) -> lists os (leaving t i) -> lists is_ (entering t i) ->
  outgoing (site_flow t s) i == IlpSpec.total amount os /\ incoming (site_flow t s) i == IlpSpec.total amount is_.
Proof.
  intros Hd [No Ho] [Ni Hi]. unfold site_flow. destruct (flow_fold (dkeys (t_demands t)) (t_links t)) with (f := @nil (string * (Q * Q))) (i := i) as [A B].
  { intros k l H C. apply (stored_In t W) in H. destruct W as (_ & _ & _ & _ & _ & _ & T & _). destruct (T k l H) as (_ & _ & S). exact (Hd _ C S). }
  unfold outgoing at 2 in A. unfold incoming at 2 in B. cbn [dget] in A, B. rewrite A, B. rewrite !Qplus_0_l.
  destruct (keys_lists (fun l => active (l_status l) && beq (l_tx l) i)) as [N1 K1]. destruct (keys_lists (fun l => active (l_status l) && beq (l_rx l) i)) as [N2 K2].
  split; apply total_same; auto.
  - intros k. unfold out_keys. rewrite K1, Ho. unfold leaving. split; intros (l & El & H); exists l; (split; [exact El|]).
    + apply andb_true_iff in H. rewrite act_planned in H. destruct H as [H1 H2]. apply beq_true in H2. auto.
    + destruct H as [H1 H2]. apply act_planned in H1. rewrite H1, H2, beq_refl. reflexivity.
  - intros k. unfold in_keys. rewrite K2, Hi. unfold entering. split; intros (l & El & H); exists l; (split; [exact El|]).
    + apply andb_true_iff in H. rewrite act_planned in H. destruct H as [H1 H2]. apply beq_true in H2. auto.
    + destruct H as [H1 H2]. apply act_planned in H1. rewrite H1, H2, beq_refl. reflexivity.
Qed.

(** Redundancy flags *)
Lemma off_route_dec routes k l : link_stored t k l -> forall r, (forall l', r = Some l' <-> exists k', link_stored t k' l' /\ l_tx l' = l_rx l /\ l_rx l' = l_tx l) ->
  negb (mem k routes) && match r with None => true | Some l' => negb (mem (l_id l') routes) end = true <-> off_route t routes k.
Proof.
  intros El r Hr. destruct W as (_ & _ & _ & _ & _ & _ & T & _). rewrite andb_true_iff, negb_true_iff. split.
  - intros [H1 H2]. apply mem_not_In in H1. exists l. split; [exact El|]. split; [exact H1|]. intros k' l' El' O. assert (E : r = Some l') by (apply Hr; exists k'; destruct O; auto).
    rewrite E in H2. apply negb_true_iff in H2. apply mem_not_In in H2. destruct (T k' l' El') as (-> & _). exact H2.
  - intros (l0 & El0 & H1 & H2). assert (l0 = l) by (unfold link_stored in *; congruence). subst l0. split; [now apply mem_not_In|]. destruct r as [l'|]; [|reflexivity].
    destruct (proj1 (Hr l') eq_refl) as (k' & El' & O). apply negb_true_iff, mem_not_In. destruct (T k' l' El') as (E & _). rewrite <- E. apply (H2 k' l' El'). destruct O; split; auto.
Qed.
Lemma routing_flags routes red : reachable t -> exists red', get_routing_topology t routes red = Ok red' /\
  forall k, red' k = true <-> red k = true \/ off_route t routes k.
Proof.
  intros R. unfold get_routing_topology.
  assert (G : forall d, (forall k l, In (k, l) d -> link_stored t k l) -> forall red, exists red', foldM (redundant_step t routes) red d = Ok red' /\
     forall k, red' k = true <-> red k = true \/ (In k (map fst d) /\ off_route t routes k)).
  { induction d as [|[k l] d IH]; intros Hd red0; cbn [foldM]; [exists red0; split; [reflexivity|]; intros k; cbn; tauto|].
    assert (El : link_stored t k l) by (apply Hd; now left). destruct (TopologyLemmas.get_reverse_exact t l k R El) as (r & Er & Hr). unfold get_reverse_link in Er.
    unfold redundant_step at 1. cbn [fst snd]. rewrite Er. cbn [rbind]. assert (D := off_route_dec routes k l El r Hr).
    destruct (_ && _) in D |- *.
    - destruct (IH ltac:(intros; apply Hd; now right) (fun k0 => if beq k0 k then true else red0 k0)) as (red' & E' & H'). exists red'. split; [exact E'|]. intros k0. rewrite H'. cbn [map fst In].
      destruct (beq_spec k0 k) as [->|N]; [|intuition congruence]. split; [intros _; right; split; [now left|]; now apply D|auto].
    - destruct (IH ltac:(intros; apply Hd; now right) red0) as (red' & E' & H'). exists red'. split; [exact E'|]. intros k0. rewrite H'. cbn [map fst In].
      split; [tauto|]. intros [H|[[<-|H] O]]; auto. apply D in O. discriminate. }
  destruct (G (t_links t) (fun k l H => proj2 (stored_In t W k l) H) red) as (red' & E & H). exists red'. split; [exact E|]. intros k. rewrite H. split; [tauto|].
  intros [Hr|O]; [auto|]. right. split; [|exact O]. destruct O as (l & El & _). apply (stored_In t W) in El. apply in_map_iff. now exists (k, l).
Qed.
End Stats.

(** Flows of sites and the flow that was found *)
Section Balance.
Variables (ps : params) (at_ : attrs) (t : topo) (I0 : inst) (red : edge -> bool) (con : list string) (P : problem) (v : var -> Q) (o : flow_solution).
Hypothesis Hw : well_formed t.
Hypothesis Hn : names_ok at_ t.
Hypothesis HI : network ps at_ t = Ok I0.
Hypothesis HP : flow_problem red con t I0 = Ok P.
Hypothesis Hv : feasible P v.
Hypothesis Ho : extract_flow_solution red con t I0 v = Ok o.
Hypothesis Hd : forall d, In d (dkeys (t_demands t)) -> ~ site_stored t d.
Variables (util : dict edge Q) (ef : dict edge (list string)) (s0 : string -> lstat).
Notation s := (add_link_stats t (Some (fs_flow o, util)) ef s0).
(** all links of the topology that leave, or enter, a site *)
Definition links_from (i : string) := filter (fun l => beq (l_tx l) i) (dvals (t_links t)).
Definition links_to (i : string) := filter (fun l => beq (l_rx l) i) (dvals (t_links t)).
Lemma flow_by_key (p : link -> bool) :
  IlpSpec.total (fun k => st_flow (s k)) (map fst (filter (fun q => active (l_status (snd q)) && p (snd q)) (t_links t))) ==
  IlpSpec.total (carried o) (map ends (filter p (dvals (t_links t)))).
Proof.
  assert (H : forall k l, In (k, l) (t_links t) -> link_stored t k l) by (intros; now apply (stored_In t Hw)). unfold dvals. revert H. generalize (t_links t). intros d H.
  induction d as [|[k l] d IH]; cbn [map filter fst snd]; [reflexivity|]. assert (El : link_stored t k l) by (apply H; now left).
  specialize (IH (fun k' l' Hl => H k' l' (or_intror Hl))). destruct (link_stats t Hw (Some (fs_flow o, util)) ef s0 k l El) as [A _].
  destruct (active (l_status l)) eqn:E; cbn [andb].
  - apply act_planned in E. destruct (A E) as (F & _). destruct (p l); cbn [map IlpSpec.total fst]; [|exact IH]. rewrite IH, F. unfold carried, flow_of. cbn [fst]. reflexivity.
  - destruct (p l); cbn [map IlpSpec.total]; [|exact IH]. assert (Z : carried o (ends l) == 0).
    { eapply (FlowOptProofs.r_unused ps at_ t I0 red con P v); eauto. left. intros C. assert (X : active (l_status l) = true) by (apply act_planned; exact C). congruence. }
    rewrite Z, IH. ring.
Qed.
Lemma outgoing_carried i : outgoing (site_flow t s) i == IlpSpec.total (carried o) (map ends (links_from i)) /\ incoming (site_flow t s) i == IlpSpec.total (carried o) (map ends (links_to i)).
Proof.
  destruct (keys_lists t Hw s0 (fun l => active (l_status l) && beq (l_tx l) i)) as [N1 K1]. destruct (keys_lists t Hw s0 (fun l => active (l_status l) && beq (l_rx l) i)) as [N2 K2].
  destruct (site_flows t Hw s i) with (os := map fst (filter (fun q => active (l_status (snd q)) && beq (l_tx (snd q)) i) (t_links t)))
     (is_ := map fst (filter (fun q => active (l_status (snd q)) && beq (l_rx (snd q)) i) (t_links t))) as [A B]; [exact Hd| | |].
  - split; [exact N1|]. intros k. rewrite K1. unfold leaving. split; intros (l & El & H); exists l; (split; [exact El|]).
    + apply andb_true_iff in H. rewrite act_planned in H. destruct H as [H1 H2]. apply beq_true in H2. auto.
    + destruct H as [H1 H2]. apply act_planned in H1. rewrite H1, H2, beq_refl. reflexivity.
  - split; [exact N2|]. intros k. rewrite K2. unfold entering. split; intros (l & El & H); exists l; (split; [exact El|]).
    + apply andb_true_iff in H. rewrite act_planned in H. destruct H as [H1 H2]. apply beq_true in H2. auto.
    + destruct H as [H1 H2]. apply act_planned in H1. rewrite H1, H2, beq_refl. reflexivity.
  - rewrite A, B. split; [apply (flow_by_key (fun l => beq (l_tx l) i))|apply (flow_by_key (fun l => beq (l_rx l) i))].
Qed.
Lemma total_app {A} (f : A -> Q) l r : IlpSpec.total f (l ++ r) == IlpSpec.total f l + IlpSpec.total f r.
Proof. induction l as [|x l IH]; cbn; [ring|]. rewrite IH. ring. Qed.
Lemma ends_sub (p : link -> bool) : NoDup (map ends (filter p (dvals (t_links t)))) /\ forall e, In e (map ends (filter p (dvals (t_links t)))) <-> exists k l, link_stored t k l /\ p l = true /\ e = (l_tx l, l_rx l).
Proof.
  split.
  - assert (N := ends_nodup t Hw). revert N. generalize (dvals (t_links t)). intros d. induction d as [|x d IH]; intros N; cbn; [constructor|]. cbn in N. inversion N as [|? ? N1 N2]; subst.
    destruct (p x); [|auto]. cbn. constructor; [|auto]. intros C. apply N1. apply in_map_iff in C. destruct C as (y & E & H). apply filter_In in H. rewrite <- E. apply in_map. tauto.
  - intros e. rewrite in_map_iff. split.
    + intros (l & <- & H). apply filter_In in H. destruct H as [H Pl]. apply (vals_stored t Hw) in H. destruct H as [k H]. exists k, l. auto.
    + intros (k & l & H & Pl & ->). exists l. split; [reflexivity|]. apply filter_In. split; [apply (vals_stored t Hw); eauto|exact Pl].
Qed.
Lemma site_balance i ci : site_stored t i -> lists ci (serves at_ t i) ->
  (~ is_pop t i -> incoming (site_flow t s) i == outgoing (site_flow t s) i + IlpSpec.total (carried o) ci) /\
  (is_pop t i -> incoming (site_flow t s) i + carried o (SUPERSOURCE, i) == outgoing (site_flow t s) i + IlpSpec.total (carried o) ci).
Proof.
  intros Hs [Nc Hc]. destruct (outgoing_carried i) as [-> ->]. destruct (ends_sub (fun l => beq (l_tx l) i)) as [N1 E1]. destruct (ends_sub (fun l => beq (l_rx l) i)) as [N2 E2].
  destruct Hn as (Ns & Ncs & Nn & _ & Nd). assert (T : forall k l, link_stored t k l -> site_stored t (l_tx l) /\ site_stored t (l_rx l)) by (intros k l El; destruct Hw as (_ & _ & _ & _ & _ & _ & T & _); now destruct (T k l El) as (_ & A & B)).
  assert (Out : out_of at_ t i (map ends (links_from i) ++ ci)).
  { split.
    - assert (Dj : forall e, In e (map ends (links_from i)) -> ~ In e ci).
      { intros e H C. apply Hc in C. destruct C as [_ (k & d & Ed & _ & Cn)]. apply E1 in H. destruct H as (k' & l & El & _ & ->). cbn in Cn. apply (Nn (l_rx l)); [exists k, d; auto|]. now apply (T k' l). }
      clear - N1 Nc Dj. unfold links_from in *. induction (map ends _) as [|e es IH]; [exact Nc|]. cbn. inversion N1 as [|? ? A B]; subst. constructor.
      + rewrite in_app_iff. intros [H|H]; [contradiction|]. apply (Dj e); auto. now left.
      + apply IH; auto. intros e' H'. apply Dj. now right.
    - intros e. rewrite in_app_iff. unfold links_from. rewrite E1, Hc. unfold serves, flow_edge. split.
      + intros [(k & l & El & Pl & ->)|[E (k & d & Ed & Hi & Cn)]].
        * apply beq_true in Pl. split; [right; right; eauto|exact Pl].
        * split; [|exact E]. right; left. exists k, d. rewrite E. auto.
      + intros [[[C _]|[(k & d & Ed & Hi & Cn)|(k & l & El & ->)]] E].
        * exfalso. apply Ns. rewrite <- C, E. exact Hs.
        * right. split; [exact E|]. exists k, d. rewrite <- E. auto.
        * left. exists k, l. cbn in E. rewrite E, beq_refl. rewrite <- E. auto. }
  assert (Inn : forall ext, NoDup ext -> (forall e, In e ext <-> e = (SUPERSOURCE, i) /\ is_pop t i) -> into at_ t i (map ends (links_to i) ++ ext)).
  { intros ext Next Hext. split.
    - assert (Dj : forall e, In e (map ends (links_to i)) -> ~ In e ext).
      { intros e H C. apply Hext in C. destruct C as [-> _]. apply E2 in H. destruct H as (k' & l & El & _ & E). injection E as E _. apply Ns. rewrite E. now apply (T k' l). }
      clear - N2 Next Dj. unfold links_to in *. induction (map ends _) as [|e es IH]; [exact Next|]. cbn. inversion N2 as [|? ? A B]; subst. constructor.
      + rewrite in_app_iff. intros [H|H]; [contradiction|]. apply (Dj e); auto. now left.
      + apply IH; auto. intros e' H'. apply Dj. now right.
    - intros e. rewrite in_app_iff. unfold links_to. rewrite E2, Hext. unfold flow_edge. split.
      + intros [(k & l & El & Pl & ->)|[-> Pp]].
        * apply beq_true in Pl. split; [right; right; eauto|exact Pl].
        * split; [left; auto|reflexivity].
      + intros [[[C Pp]|[(k & d & Ed & Hi & Cn)|(k & l & El & ->)]] E].
        * right. destruct e as [a b]. cbn in *. subst. auto.
        * exfalso. apply (Nn (snd e)); [exists k, d; auto|]. rewrite E. exact Hs.
        * left. exists k, l. cbn in E. rewrite E, beq_refl. rewrite <- E. auto. }
  split; intros Pp.
  - assert (B := FlowOptProofs.r_conserves ps at_ t I0 red con P v Hw Hn HI HP Hv o Ho i _ _ Hs (Inn [] ltac:(constructor) ltac:(intros e; cbn; tauto)) Out).
    rewrite !total_app in B. cbn [IlpSpec.total] in B. unfold links_from, links_to in *. lra.
  - assert (B := FlowOptProofs.r_conserves ps at_ t I0 red con P v Hw Hn HI HP Hv o Ho i _ _ Hs (Inn [(SUPERSOURCE, i)] ltac:(repeat constructor; intros []) ltac:(intros e; cbn; intuition congruence)) Out).
    rewrite !total_app in B. cbn [IlpSpec.total] in B. unfold links_from, links_to in *. lra.
Qed.
End Balance.

(** What a link reports *)
Lemma link_report t flow cap ef s k l : well_formed t -> no_self_links t -> (forall l', plan_link t l' -> 0 <= assigned flow l') -> link_stored t k l ->
  let s' := add_link_stats t (Some (flow, active_link_utilization flow cap (dvals (t_links t)))) ef s in
  (planned (l_status l) -> st_flow (s' k) = assigned flow l /\
     (exists u, uses flow cap l u /\ (st_util (s' k) == u \/ (st_util (s' k) == 0 /\ 0 <= u <= tolerance))) /\
     (assigned flow l <= cap l -> 0 <= st_util (s' k) <= 100) /\
     st_breakdowns (s' k) = List.length (match dget ef (l_tx l, l_rx l) with Some x => x | None => [] end)) /\
  (~ planned (l_status l) -> s' k = s k).
Proof.
  intros W NS NN El s'. destruct (link_stats t W (Some (flow, active_link_utilization flow cap (dvals (t_links t)))) ef s k l El) as [A B]. split; [|exact B].
  intros P. destruct (A P) as (A1 & A2 & A3). fold s' in A1, A2, A3. cbn [fst snd] in *. split; [rewrite A1; reflexivity|].
  assert (Pl : plan_link t l) by (exists k; auto). assert (R := reported t W flow cap NS l _ Pl NN (percent_uses flow cap l)). rewrite <- A2 in R.
  split; [exists (percent flow cap l); split; [apply percent_uses|exact R]|]. split; [|exact A3].
  intros Hc. assert (N := NN l Pl). assert (N1 := percent_nonneg flow cap l N). assert (N2 := percent_le flow cap l (conj N Hc)). destruct R as [R|[R _]]; lra.
Qed.

Lemma routing_marks t routes red : reachable t -> exists red', get_routing_topology t routes red = Ok red' /\ forall k, red' k = true <-> red k = true \/ off_route t routes k.
Proof. intros R. exact (routing_flags t (GraphProofs.wf_reachable t R) (fun _ => mkLstat 0 0 0) routes red R). Qed.
