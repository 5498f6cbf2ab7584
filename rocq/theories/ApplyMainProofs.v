(** Proofs for C39, continued. *)
From Verif Require Import Base Dict TopologyModel TopologySpec TopologyProofs StatusModel GraphModel GraphSpec GraphProofs ApplyModel ApplySpec ApplyProofs.
Local Open Scope string_scope.
Local Open Scope list_scope.

Ltac ev := repeat match goal with
  | |- context [sector_compat ?a ?b] => let v := eval vm_compute in (sector_compat a b) in change (sector_compat a b) with v
  | |- context [link_compat ?a ?b ?c] => let v := eval vm_compute in (link_compat a b c) in change (link_compat a b c) with v
  | H : context [sector_compat ?a ?b] |- _ => let v := eval vm_compute in (sector_compat a b) in change (sector_compat a b) with v in H
  | H : context [link_compat ?a ?b ?c] |- _ => let v := eval vm_compute in (link_compat a b c) in change (link_compat a b c) with v in H
  end.
Lemma picked_iff {K} `{EqB K} (d : dict K Z) k : Z.eqb (decision d k) 1 = true <-> picked d k.
Proof. unfold decision, picked. destruct (dget d k) as [v|]; [rewrite Z.eqb_eq; split; congruence|]. split; discriminate. Qed.
Lemma picked_dec {K} `{EqB K} (d : dict K Z) k : picked d k \/ ~ picked d k.
Proof. rewrite <- picked_iff. destruct (Z.eqb (decision d k) 1); [left|right]; congruence. Qed.
Lemma new_status_planned {K} `{EqB K} st (d : dict K Z) k : planned_status st (picked d k) (new_status st (decision d k)).
Proof.
  pose proof (picked_iff d k) as Q. unfold new_status, planned_status, chosen. destruct st; cbn; try reflexivity; destruct (Z.eqb (decision d k) 1); split; intros X; try reflexivity; exfalso; [apply X; now apply Q|apply Q in X; discriminate|apply X; now apply Q|apply Q in X; discriminate].
Qed.
Lemma planned_fun st b n : (b \/ ~ b) -> planned_status st b n -> forall n', planned_status st b n' -> n = n'.
Proof. intros D. destruct st; cbn; try congruence; intros [A B] n' [A' B']; destruct D as [D|D]; [rewrite A, A'|rewrite B, B'|rewrite A, A'|rewrite B, B']; auto. Qed.

Section Main.
Variables (p : plan) (t : topo).
Hypothesis Wf : well_formed t.
Definition t_planned : topo := stopo t (new_site p) (new_sector p) (new_link p).
Lemma keeps_new_s : keeps_s (new_site p). Proof. intros i s. repeat split. Qed.
Lemma keeps_new_x : keeps_x (new_sector p). Proof. intros i s. repeat split. Qed.
Lemma keeps_new_l : keeps_l (new_link p). Proof. intros i s. repeat split. Qed.
Lemma keeps_id_s : keeps_s (fun _ s => s). Proof. intros i s. repeat split. Qed.
Lemma keeps_id_x : keeps_x (fun _ s => s). Proof. intros i s. repeat split. Qed.
Lemma keeps_id_l : keeps_l (fun _ s => s). Proof. intros i s. repeat split. Qed.
Lemma sited_eq : sited p t = stopo t (new_site p) (fun _ x => x) (fun _ l => l).
Proof. unfold sited, stopo, set_sites. f_equal; symmetry; (apply mapk_id; [reflexivity|apply Wf]). Qed.
Lemma sectored_eq : sectored p (sited p t) = stopo t (new_site p) (new_sector p) (fun _ l => l).
Proof. unfold sectored, sited, stopo, set_sites, set_sectors. cbn [t_sites t_links t_sectors t_demands t_secidx t_conn t_rconn]. f_equal. symmetry; (apply mapk_id; [reflexivity|apply Wf]). Qed.
Lemma linked_eq : linked p (sectored p (sited p t)) = t_planned. Proof. reflexivity. Qed.
Lemma wf_sited : well_formed (sited p t).
Proof. rewrite sited_eq. eapply shape_wf; [|exact Wf]. apply stopo_shape; [apply keeps_new_s|apply keeps_id_x|apply keeps_id_l]. Qed.
Lemma wf_sectored : well_formed (sectored p (sited p t)).
Proof. rewrite sectored_eq. eapply shape_wf; [|exact Wf]. apply stopo_shape; [apply keeps_new_s|apply keeps_new_x|apply keeps_id_l]. Qed.
Lemma planned_shape : same_shape t t_planned.
Proof. apply stopo_shape; [apply keeps_new_s|apply keeps_new_x|apply keeps_new_l]. Qed.
Lemma wf_planned : well_formed t_planned.
Proof. eapply shape_wf; [apply planned_shape|exact Wf]. Qed.
Lemma planned_get_site i : dget (t_sites t_planned) i = option_map (new_site p i) (dget (t_sites t) i).
Proof. unfold t_planned, stopo. cbn [t_sites]. apply mapk_get. Qed.
Lemma planned_get_sector i : dget (t_sectors t_planned) i = option_map (new_sector p i) (dget (t_sectors t) i).
Proof. unfold t_planned, stopo. cbn [t_sectors]. apply mapk_get. Qed.
Lemma planned_get_link i : dget (t_links t_planned) i = option_map (new_link p i) (dget (t_links t) i).
Proof. unfold t_planned, stopo. cbn [t_links]. apply mapk_get. Qed.
Lemma as_planned_ok : as_planned p t t_planned.
Proof.
  split; [apply planned_shape|]. split; [|split].
  - intros i s s1 E. rewrite planned_get_site, E. cbn. intros E1. injection E1 as <-. split; [apply new_status_planned|]. unfold planned_polarity. cbn. rewrite <- !picked_iff. destruct (Z.eqb (decision (p_odd p) i) 1), (Z.eqb (decision (p_even p) i) 1); intuition congruence.
  - intros k x x1 E. rewrite planned_get_sector, E. cbn. intros E1. injection E1 as <-. apply (new_status_planned _ (p_sectors p)).
  - intros k l l1 E. rewrite planned_get_link, E. cbn. intros E1. injection E1 as <-. apply (new_status_planned _ (p_links p)).
Qed.

(** ** when it returns *)
Definition all_fit : bool :=
  forallb (goodb t_sites (good_site p) t) (dkeys (t_sites t)) &&
  forallb (goodb t_sectors (good_sector p (sited p t)) (sited p t)) (dkeys (t_sectors t)) &&
  forallb (goodb t_links (good_link p (sectored p (sited p t))) (sectored p (sited p t))) (dkeys (t_links t)).
Lemma goodb_all {V} (get : topo -> dict string V) good u : forallb (goodb get good u) (dkeys (get u)) = true <-> forall k v, dget (get u) k = Some v -> good k v = true.
Proof.
  rewrite forallb_forall. split.
  - intros F k v E. assert (In k (dkeys (get u))) as Hk by (apply In_dkeys; eauto). specialize (F k Hk). unfold goodb in F. now rewrite E in F.
  - intros F k _. unfold goodb. destruct (dget (get u) k) as [v|] eqn:E; [eauto|reflexivity].
Qed.
Lemma can_frozen st : can_decide st <-> frozen st = false.
Proof. unfold can_decide. destruct st; split; intros X; auto; try discriminate; destruct X; discriminate. Qed.
Lemma get_sited i : dget (t_sites (sited p t)) i = option_map (new_site p i) (dget (t_sites t) i).
Proof. unfold sited. cbn [t_sites set_sites]. apply mapk_get. Qed.
Lemma usable_compat i s need d : dget (t_sites t) i = Some s -> (Z.eqb d 1 = true <-> need) ->
  (usable_site p t i need <-> sector_compat (new_status (s_status s) (decision (p_sites p) i)) (chosen d) = true).
Proof.
  intros Es Hd. unfold usable_site, site_status_of. rewrite Es. cbn.
  assert (X : forall Q : status -> Prop, (forall st, Some (s_status s) = Some st -> Q st) <-> Q (s_status s)) by (intros Q; split; [auto|intros q st E; injection E as <-; exact q]). rewrite X. pose proof (picked_iff (p_sites p) i) as Q. unfold new_status, chosen.
  change (frozen CANDIDATE) with false. destruct (s_status s); [change (frozen CANDIDATE) with false|change (frozen PROPOSED) with false|change (frozen EXISTING) with true|change (frozen UNAVAILABLE) with true|change (frozen UNREACHABLE) with true]; cbv iota;
  destruct (Z.eqb d 1), (Z.eqb (decision (p_sites p) i) 1); ev; intuition congruence.
Qed.
Lemma compat_two a b d : link_compat a b (chosen d) = true <-> (sector_compat a (chosen d) = true /\ sector_compat b (chosen d) = true).
Proof. unfold chosen. destruct (Z.eqb d 1), a, b; ev; intuition congruence. Qed.
Lemma all_fit_iff : all_fit = true <-> fits p t.
Proof.
  unfold all_fit. rewrite !andb_true_iff. change (dkeys (t_sectors t)) with (dkeys (t_sectors (sited p t))). assert (Kl : dkeys (t_links t) = dkeys (t_links (sectored p (sited p t)))) by reflexivity. rewrite Kl. rewrite !goodb_all. unfold fits.
  assert (A1 : (forall k v, dget (t_sites t) k = Some v -> good_site p k v = true) <-> forall i, site_stored t i -> ~ (picked (p_odd p) i /\ picked (p_even p) i)).
  { unfold good_site, site_stored. split.
    - intros F i [s Es]. specialize (F i s Es). apply negb_true_iff in F. rewrite <- !picked_iff. rewrite <- andb_true_iff. congruence.
    - intros F i s Es. apply negb_true_iff. specialize (F i (ex_intro _ s Es)). rewrite <- !picked_iff, <- andb_true_iff in F. now apply not_true_iff_false. }
  assert (A2 : (forall k v, dget (t_sectors (sited p t)) k = Some v -> good_sector p (sited p t) k v = true) <-> forall k x, sector_stored t k x -> can_decide (x_status x) -> usable_site p t (x_site x) (picked (p_sectors p) (x_site x, k))).
  { change (t_sectors (sited p t)) with (t_sectors t). unfold sector_stored, good_sector. split.
    - intros F k x Ex Hc. specialize (F k x Ex). apply can_frozen in Hc. rewrite Hc in F. cbn [orb] in F. destruct (wf_sector _ _ _ Wf Ex) as [s Es]. rewrite get_sited, Es in F. cbn [option_map] in F. eapply usable_compat; [exact Es|apply picked_iff|]. exact F.
    - intros F k x Ex. destruct (frozen (x_status x)) eqn:Fz; [reflexivity|]. cbn [orb]. destruct (wf_sector _ _ _ Wf Ex) as [s Es]. rewrite get_sited, Es. cbn [option_map]. specialize (F k x Ex (proj2 (can_frozen _) Fz)). apply (usable_compat _ s _ (decision (p_sectors p) (x_site x, k)) Es) in F; [exact F|apply picked_iff]. }
  assert (A3 : (forall k v, dget (t_links (sectored p (sited p t))) k = Some v -> good_link p (sectored p (sited p t)) k v = true) <-> forall k l, link_stored t k l -> can_decide (l_status l) ->
     usable_site p t (l_tx l) (picked (p_links p) (l_tx l, l_rx l)) /\ usable_site p t (l_rx l) (picked (p_links p) (l_tx l, l_rx l))).
  { change (t_links (sectored p (sited p t))) with (t_links t). unfold link_stored, good_link. change (t_sites (sectored p (sited p t))) with (t_sites (sited p t)). split.
    - intros F k l El Hc. specialize (F k l El). apply can_frozen in Hc. rewrite Hc in F. cbn [orb] in F. destruct (wf_link _ _ _ Wf El) as (a & b & Ea & Eb). rewrite !get_sited, Ea, Eb in F. cbn [option_map] in F. apply compat_two in F. destruct F as [F1 F2].
      split; (eapply usable_compat; [eassumption|apply picked_iff|assumption]).
    - intros F k l El. destruct (frozen (l_status l)) eqn:Fz; [reflexivity|]. cbn [orb]. destruct (wf_link _ _ _ Wf El) as (a & b & Ea & Eb). rewrite !get_sited, Ea, Eb. cbn [option_map]. destruct (F k l El (proj2 (can_frozen _) Fz)) as [F1 F2]. apply compat_two. split.
      + apply (usable_compat _ a _ (decision (p_links p) (l_tx l, l_rx l)) Ea) in F1; [exact F1|apply picked_iff].
      + apply (usable_compat _ b _ (decision (p_links p) (l_tx l, l_rx l)) Eb) in F2; [exact F2|apply picked_iff]. }
  rewrite A1, A2, A3. tauto.
Qed.
Lemma compat_dem a d : sector_compat a (chosen d) = true -> sector_compat (dem a) CANDIDATE = true.
Proof. unfold chosen. destruct (Z.eqb d 1), a; try (vm_compute; congruence). Qed.
Lemma compat_link a b d a' b' : link_compat a b (chosen d) = true -> (a' = a \/ a' = dem a) -> (b' = b \/ b' = dem b) -> link_compat a' b' CANDIDATE = true.
Proof. unfold chosen. intros E [->| ->] [->| ->]; destruct (Z.eqb d 1), a, b; vm_compute in E; try discriminate; vm_compute; reflexivity. Qed.

Lemma update_spec : if all_fit
  then exists h, hops_from_pops t_planned in_use = Ok h /\ (forall i, dmem h i = false <-> disconnected t_planned i) /\
       let t2 := dropped_topo t_planned h in update_topology_with_solution p t = ok (set_links t2 (mapk (dlink t2) (t_links t2)))
  else exists e, fst (update_topology_with_solution p t) = Err e /\ (e = OptExn \/ e = TopologyExn).
Proof.
  unfold all_fit, update_topology_with_solution. pose proof (sites_loop p t (proj1 Wf)) as L1. destruct (forallb (goodb t_sites (good_site p) t) (dkeys (t_sites t))); cbn [andb]; [|exists OptExn; split; [now apply andthen_err|now left]]. rewrite L1, andthen_ok.
  pose proof (sectors_loop p (sited p t) wf_sited) as L2. change (dkeys (t_sectors t)) with (dkeys (t_sectors (sited p t))). destruct (forallb (goodb t_sectors (good_sector p (sited p t)) (sited p t)) (dkeys (t_sectors (sited p t)))) eqn:G2; cbn [andb]; [|exists TopologyExn; split; [now apply andthen_err|now right]]. rewrite L2, andthen_ok.
  pose proof (links_loop p _ wf_sectored) as L3. assert (Kl : dkeys (t_links t) = dkeys (t_links (sectored p (sited p t)))) by reflexivity. rewrite Kl. destruct (forallb (goodb t_links _ _) _) eqn:G3; [|exists TopologyExn; split; [now apply andthen_err|now right]]. rewrite L3, andthen_ok, linked_eq.
  pose proof (proj1 (goodb_all t_sectors _ (sited p t)) G2) as G2'. pose proof (proj1 (goodb_all t_links _ (sectored p (sited p t))) G3) as G3'. clear G2 G3. rename G2' into G2. rename G3' into G3. change (t_sectors (sited p t)) with (t_sectors t) in G2. change (t_links (sectored p (sited p t))) with (t_links t) in G3.
  destruct (hops_exact_none t_planned in_use wf_planned) as (h & Eh & _ & Hn). exists h. split; [exact Eh|].
  assert (Hd : forall i, dmem h i = false <-> disconnected t_planned i). { intros i. unfold disconnected. specialize (Hn i). pose proof (dmem_None h i) as X. tauto. } split; [exact Hd|].
  unfold remove_disconnected. unfold in_use in Eh. rewrite Eh. rewrite (drop_all t_planned h wf_planned).
  - rewrite andthen_ok. assert (W2 : well_formed (dropped_topo t_planned h)) by (eapply shape_wf; [apply dropped_shape|apply wf_planned]).
    assert (Lk : t_links (dropped_topo t_planned h) = t_links t_planned). { unfold dropped_topo, dropping, stopo. cbn [t_links]. apply mapk_id; [reflexivity|apply wf_planned]. }
    apply (drop_links _ W2). intros k l a b. rewrite Lk, planned_get_link. destruct (dget (t_links t) k) as [l0|] eqn:El0; [|discriminate]. cbn [option_map]. intros El. injection El as <-. cbn [l_status l_tx l_rx new_link with_link_status]. intros Hst Ea Eb.
    destruct (wf_link _ _ _ Wf El0) as (a0 & b0 & Ea0 & Eb0).
    assert (Fz : frozen (l_status l0) = false). { unfold new_status in Hst. destruct (frozen (l_status l0)) eqn:F; [|reflexivity]. rewrite Hst in F. discriminate. }
    specialize (G3 k l0 El0). unfold good_link in G3. rewrite Fz in G3. cbn [orb] in G3. change (t_sites (sectored p (sited p t))) with (t_sites (sited p t)) in G3. rewrite !get_sited, Ea0, Eb0 in G3. cbn [option_map] in G3.
    assert (St : forall i s0 s, dget (t_sites t) i = Some s0 -> dget (t_sites (dropped_topo t_planned h)) i = Some s -> s_status s = s_status (new_site p i s0) \/ s_status s = dem (s_status (new_site p i s0))).
    { intros i s0 s E0 E. destruct (dropped_site t_planned h i (new_site p i s0)) as (s' & E' & _ & H1 & H2); [rewrite planned_get_site, E0; reflexivity|]. rewrite E in E'. injection E' as <-. destruct (dmem h i) eqn:Em.
      - left. apply H2. intros [_ X]. congruence.
      - unfold dropped_topo, dropping, stopo in E. cbn [t_sites] in E. rewrite mapk_get, planned_get_site, E0 in E. cbn [option_map] in E. injection E as <-. unfold dsite. destruct (existsb _ _); [right|left]; reflexivity. }
    eapply compat_link; [exact G3|eapply St; eassumption|eapply St; eassumption].
  - intros k x s. rewrite planned_get_sector. destruct (dget (t_sectors t) k) as [x0|] eqn:Ex0; [|discriminate]. cbn [option_map]. intros Ex. injection Ex as <-. cbn [x_status new_sector with_sector_status]. change (x_site (new_sector p k x0)) with (x_site x0). intros Hst. rewrite planned_get_site.
    destruct (dget (t_sites t) (x_site x0)) as [s0|] eqn:Es0; [|discriminate]. cbn [option_map]. intros Es. injection Es as <-.
    assert (Fz : frozen (x_status x0) = false). { unfold new_status in Hst. destruct (frozen (x_status x0)) eqn:F; [congruence|reflexivity]. }
    specialize (G2 k x0 Ex0). unfold good_sector in G2. rewrite Fz in G2. cbn [orb] in G2. rewrite get_sited, Es0 in G2. cbn [option_map] in G2. eapply compat_dem. exact G2.
Qed.
Lemma returns_iff : (fst (update_topology_with_solution p t) = Ok tt <-> fits p t) /\
  (~ fits p t -> fst (update_topology_with_solution p t) = Err OptExn \/ fst (update_topology_with_solution p t) = Err TopologyExn).
Proof.
  pose proof update_spec as U. rewrite <- all_fit_iff. destruct all_fit.
  - destruct U as (h & _ & _ & U). cbv zeta in U. rewrite U. split; [split; reflexivity|congruence].
  - destruct U as (e & U & He). rewrite U. split; [split; [discriminate|congruence]|]. intros _. destruct He as [->| ->]; auto.
Qed.
Lemma dem_drop st : dem st = match st with PROPOSED => CANDIDATE | s => s end. Proof. now destruct st. Qed.
Lemma applied t' : update_topology_with_solution p t = (Ok tt, t') -> exists t1, as_planned p t t1 /\ trimmed t1 t'.
Proof.
  intros E. pose proof update_spec as U. destruct all_fit; [|destruct U as (e & U & _); rewrite E in U; discriminate]. destruct U as (h & _ & Hd & U). cbv zeta in U. rewrite E in U. pose proof (f_equal snd U : t' = set_links (dropped_topo t_planned h) (mapk (dlink (dropped_topo t_planned h)) (t_links (dropped_topo t_planned h)))) as U'. clear U. rewrite U'. clear U' E t'.
  exists t_planned. split; [apply as_planned_ok|]. remember (dropped_topo t_planned h) as t2 eqn:Et2 in *. pose proof wf_planned as W1.
  assert (Lk : t_links t2 = t_links t_planned). { rewrite Et2. unfold dropped_topo, dropping, stopo. cbn [t_links]. apply mapk_id; [reflexivity|apply W1]. }
  assert (S2 : same_shape t_planned t2) by (rewrite Et2; apply dropped_shape).
  split; [|split; [|split]].
  - destruct S2 as (K1 & K2 & K3 & K4 & K5 & K6 & K7 & F1 & F2 & F3). assert (K2' : dkeys (t_links (set_links t2 (mapk (dlink t2) (t_links t2)))) = dkeys (t_links t_planned)) by (cbn [t_links set_links]; rewrite mapk_keys; exact K2).
    unfold same_shape. split; [exact K1|]. split; [exact K2'|]. split; [exact K3|]. split; [exact K4|]. split; [exact K5|]. split; [exact K6|]. split; [exact K7|]. split; [exact F1|]. split; [|exact F3].
    intros k l El. change (t_links (set_links t2 (mapk (dlink t2) (t_links t2)))) with (mapk (dlink t2) (t_links t2)). destruct (F2 k l El) as (l2 & E2 & A). rewrite mapk_get, E2. cbn [option_map]. eexists. split; [reflexivity|]. unfold dlink. destruct (_ && _); exact A.
  - intros i s s' Es. cbn [t_sites set_links]. destruct (dropped_site t_planned h i s Es) as (s2 & E2 & Hp & H1 & H2). rewrite <- Et2 in E2. rewrite E2. intros E3. injection E3 as <-. split; [|exact Hp]. rewrite Hd in H1, H2. rewrite dem_drop in H1. split.
    + intros [Q [R1 R2]]. rewrite H1 by (split; assumption). now rewrite Q.
    + intros N. destruct (dmem h i) eqn:Em; [apply H2; intros [_ X]; apply Hd in X; congruence|]. destruct (s_status s) eqn:Est; try (rewrite Et2 in E2; unfold dropped_topo, dropping, stopo in E2; cbn [t_sites] in E2; rewrite mapk_get, Es in E2; cbn [option_map] in E2; injection E2 as <-; unfold dsite; destruct (existsb _ _); cbn; rewrite ?Est; reflexivity).
      apply H2. intros [X1 X2]. apply N. split; [reflexivity|]. now split.
  - intros k x x' Ex. cbn [t_sectors set_links]. destruct (dropped_sector t_planned h k x Ex) as (x2 & E2 & Hx). rewrite <- Et2 in E2. rewrite E2. intros E3. injection E3 as <-. rewrite Hx, dem_drop. destruct (dmem h (x_site x)) eqn:Em.
    + split; [intros [_ X]; apply Hd in X; congruence|reflexivity].
    + apply Hd in Em. split; [intros [-> _]; reflexivity|]. intros N. destruct (x_status x) eqn:Est; try reflexivity. exfalso. apply N. now split.
  - intros k l l' El. cbn [t_links set_links]. rewrite mapk_get, Lk, El. cbn [option_map]. intros E3. injection E3 as <-. unfold dlink, site_status_of. cbn [t_sites set_links].
    assert (Cd : forall i, cand t2 i = true <-> option_map s_status (dget (t_sites t2) i) = Some CANDIDATE). { intros i. unfold cand. destruct (dget (t_sites t2) i) as [s|]; cbn; [|split; discriminate]. destruct (beq_spec (s_status s) CANDIDATE); split; congruence. }
    pose proof (Cd (l_tx l)) as Ca. pose proof (Cd (l_rx l)) as Cb. unfold drop_if. destruct (cand t2 (l_tx l)), (cand t2 (l_rx l)), (l_status l) eqn:Est; cbn; rewrite ?Est; cbn; intuition congruence.
Qed.
End Main.

(** ** consequences *)
Lemma route_dec t sf i : well_formed t -> (exists n, route t sf i n) \/ forall n, ~ route t sf i n.
Proof.
  intros W. destruct (hops_exact_none t sf W) as (h & _ & H1 & H2). destruct (dget h i) as [n|] eqn:E; [left; exists n; apply H1 in E; apply E|right; now apply H2].
Qed.
Lemma shape_site t t' i s : same_shape t t' -> dget (t_sites t) i = Some s -> exists s', dget (t_sites t') i = Some s' /\ s_type s' = s_type s.
Proof. intros (_ & _ & _ & _ & _ & _ & _ & F & _) E. destruct (F i s E) as (s' & E' & _ & A & _). now exists s'. Qed.
Lemma shape_link t t' k l : same_shape t t' -> dget (t_links t) k = Some l -> exists l', dget (t_links t') k = Some l' /\ l_tx l' = l_tx l /\ l_rx l' = l_rx l.
Proof. intros (_ & _ & _ & _ & _ & _ & _ & _ & F & _) E. destruct (F k l E) as (s' & E' & A & B & _). now exists s'. Qed.
Lemma shape_sector t t' k x : same_shape t t' -> dget (t_sectors t) k = Some x -> exists x', dget (t_sectors t') k = Some x' /\ x_key x' = x_key x.
Proof. intros (_ & _ & _ & _ & _ & _ & _ & _ & _ & F) E. destruct (F k x E) as (s' & E' & A). now exists s'. Qed.
Lemma shape_sym t t' : same_shape t t' -> same_shape t' t.
Proof.
  intros (K1 & K2 & K3 & K4 & K5 & K6 & K7 & F1 & F2 & F3). unfold same_shape. rewrite K1, K2, K3, K4, K5, K6, K7. repeat match goal with |- _ /\ _ => split end; try reflexivity.
  - intros i s' E. assert (X : In i (dkeys (t_sites t))) by (rewrite <- K1; apply In_dkeys; eauto). apply In_dkeys in X. destruct X as [s Es]. exists s. split; [exact Es|]. destruct (F1 i s Es) as (s2 & E2 & A). rewrite E in E2. injection E2 as <-. intuition congruence.
  - intros i s' E. assert (X : In i (dkeys (t_links t))) by (rewrite <- K2; apply In_dkeys; eauto). apply In_dkeys in X. destruct X as [s Es]. exists s. split; [exact Es|]. destruct (F2 i s Es) as (s2 & E2 & A). rewrite E in E2. injection E2 as <-. intuition congruence.
  - intros i s' E. assert (X : In i (dkeys (t_sectors t))) by (rewrite <- K3; apply In_dkeys; eauto). apply In_dkeys in X. destruct X as [s Es]. exists s. split; [exact Es|]. destruct (F3 i s Es) as (s2 & E2 & A). rewrite E in E2. injection E2 as <-. congruence.
Qed.
Lemma drop_active b st st' : drop_if b st st' -> (~ b) -> st' = st.
Proof. intros [_ D] N. apply D. tauto. Qed.
Lemma allowed_active st : allowed in_use st <-> is_active st.
Proof. unfold allowed, in_use, is_active. cbn. intuition congruence. Qed.
Lemma routes_kept t1 t' i n : trimmed t1 t' -> route t1 in_use i n -> route t' in_use i n.
Proof.
  intros (Sh & Ts & Tx & Tl) R.
  assert (Site : forall i n s, route t1 in_use i n -> dget (t_sites t1) i = Some s -> exists s', dget (t_sites t') i = Some s' /\ s_type s' = s_type s /\ s_status s' = s_status s).
  { intros j m s Rj Es. destruct (shape_site _ _ _ _ Sh Es) as (s' & Es' & Ty). exists s'. split; [exact Es'|]. split; [exact Ty|]. destruct (Ts j s s' Es Es') as [D _]. eapply drop_active; [exact D|]. intros [Dc _]. exact (Dc m Rj). }
  induction R as [i s Es Ty Al|i n k l s R IH El Tx0 Al Es Al2].
  - destruct (Site i 0 s (route_pop _ _ _ _ Es Ty Al) Es) as (s' & Es' & Ty' & St'). eapply route_pop; [exact Es'|congruence|congruence].
  - assert (Rr : route t1 in_use (l_rx l) (S n)) by (eapply route_link; eauto).
    destruct (Site _ _ s Rr Es) as (s' & Es' & _ & St'). destruct (route_site _ _ _ _ R) as (a & Ea & Aa). destruct (Site _ _ a R Ea) as (a' & Ea' & _ & Sa').
    destruct (shape_link _ _ _ _ Sh El) as (l' & El' & A & B). assert (Sl : l_status l' = l_status l).
    { eapply drop_active; [exact (Tl k l l' El El')|]. unfold site_status_of. rewrite Tx0, Ea', Es'. cbn. rewrite Sa', St'. apply allowed_active in Aa, Al2. destruct Aa as [-> | ->], Al2 as [-> | ->]; intuition congruence. }
    rewrite <- B. eapply route_link; [exact IH|exact El'|congruence|congruence|rewrite B; exact Es'|congruence].
Qed.
Lemma connected p t t' i s : well_formed t -> update_topology_with_solution p t = (Ok tt, t') ->
  dget (t_sites t') i = Some s -> s_status s = PROPOSED -> has_sectors t' i -> exists n, route t' in_use i n.
Proof.
  intros W E Es Hp (k & x & Ex & Hx). destruct (applied p t W t' E) as (t1 & (S1 & _) & T). pose proof T as (S & Ts & _ & _). assert (W1 : well_formed t1) by (eapply shape_wf; eauto).
  destruct (shape_site _ _ _ _ (shape_sym _ _ S) Es) as (s1 & Es1 & _). destruct (Ts i s1 s Es1 Es) as [[D1 D2] _].
  destruct (route_dec t1 in_use i W1) as [[n R]|N]; [exists n; eapply routes_kept; eauto|]. exfalso.
  assert (Hs : has_sectors t1 i). { destruct (shape_sector _ _ _ _ (shape_sym _ _ S) Ex) as (x1 & Ex1 & Kx). exists k, x1. split; [exact Ex1|]. unfold x_site in *. congruence. }
  destruct (s_status s1) eqn:Est; try (assert (X : s_status s = s_status s1) by (rewrite Est; apply D2; intros [Q _]; congruence); congruence).
  rewrite D1 in Hp; [discriminate|]. split; [reflexivity|]. now split.
Qed.
Lemma consistent_after p t t' : well_formed t -> existing_supported t -> update_topology_with_solution p t = (Ok tt, t') -> consistent t'.
Proof.
  intros W [X1 X2] E. assert (F : fits p t) by (apply (returns_iff p t W); now rewrite E). destruct F as (_ & F2 & F3). destruct (applied p t W t' E) as (t1 & (S1 & P1 & P2 & P3) & (S & Ts & Tx & Tl)). assert (W1 : well_formed t1) by (eapply shape_wf; eauto).
  assert (Ex : forall i, site_status_of t i = Some EXISTING -> site_status_of t' i = Some EXISTING).
  { intros i. unfold site_status_of. destruct (dget (t_sites t) i) as [s|] eqn:Es; [|discriminate]. cbn. intros Q. injection Q as Q. destruct (shape_site _ _ _ _ S1 Es) as (s1 & Es1 & _). destruct (shape_site _ _ _ _ S Es1) as (s' & Es' & _). rewrite Es'. cbn. f_equal.
    destruct (P1 i s s1 Es Es1) as [A _]. rewrite Q in A. cbn in A. destruct (Ts i s1 s' Es1 Es') as [[_ D] _]. rewrite D; [exact A|]. intros [Y _]. congruence. }
  assert (Us : forall i (need : Prop), usable_site p t i need -> need -> (exists s, dget (t_sites t) i = Some s) -> exists s1 s', dget (t_sites t1) i = Some s1 /\ dget (t_sites t') i = Some s' /\ is_active (s_status s1) /\ drop_if (disconnected t1 i /\ has_sectors t1 i) (s_status s1) (s_status s')).
  { intros i need U Hn [s Es]. unfold usable_site, site_status_of in U. rewrite Es in U. specialize (U _ eq_refl). destruct (shape_site _ _ _ _ S1 Es) as (s1 & Es1 & _). destruct (shape_site _ _ _ _ S Es1) as (s' & Es' & _). exists s1, s'. split; [exact Es1|]. split; [exact Es'|]. destruct (Ts i s1 s' Es1 Es') as [D _]. split; [|exact D].
    destruct (P1 i s s1 Es Es1) as [A _]. unfold is_active. destruct (s_status s); cbn in A; try contradiction; [left; apply A; auto|right; exact A|left; apply A; auto]. }
  split.
  - intros k l' El' Ha. destruct (shape_link _ _ _ _ (shape_sym _ _ S) El') as (l1 & El1 & A1 & B1). destruct (shape_link _ _ _ _ (shape_sym _ _ S1) El1) as (l & El & A & B). destruct (Tl k l1 l' El1 El') as [D1 D2]. pose proof (P3 k l l1 El El1) as Pl.
    rewrite <- A1, <- B1, <- A, <- B. destruct Ha as [Hp|Hx].
    + assert (L1 : l_status l1 = PROPOSED /\ ~ (site_status_of t' (l_tx l1) = Some CANDIDATE \/ site_status_of t' (l_rx l1) = Some CANDIDATE)).
      { destruct (l_status l1) eqn:Q; try (exfalso; assert (Z : l_status l' = l_status l1) by (rewrite Q; apply D2; intros [? _]; congruence); congruence). split; [reflexivity|]. intros C. rewrite D1 in Hp by now split. discriminate. }
      destruct L1 as [L1 NC]. rewrite L1 in Pl.
      assert (Cd : can_decide (l_status l) /\ picked (p_links p) (l_tx l, l_rx l)). { unfold can_decide. destruct (l_status l); cbn in Pl; try discriminate; (split; [auto|]); destruct (picked_dec (p_links p) (l_tx l, l_rx l)) as [|N]; auto; destruct Pl as [_ Pl]; specialize (Pl N); discriminate. }
      destruct Cd as [Cd Pk]. destruct (F3 k l El Cd) as [Ua Ub]. destruct (wf_link _ _ _ W El) as (a & b & Ea & Eb).
      destruct (Us _ _ Ua Pk (ex_intro _ a Ea)) as (a1 & a' & Ea1 & Ea' & Aa & Da). destruct (Us _ _ Ub Pk (ex_intro _ b Eb)) as (b1 & b' & Eb1 & Eb' & Ab & Db).
      unfold site_status_of. rewrite Ea', Eb'. exists (s_status a'), (s_status b'). split; [reflexivity|]. split; [reflexivity|]. unfold site_status_of in NC. rewrite <- A, <- B, Ea', Eb' in NC. cbn in NC.
      assert (G : forall b0 st st', drop_if b0 st st' -> is_active st -> st' <> CANDIDATE -> is_active st').
      { intros b0 st st' [G1 G2] Hs Hc. destruct Hs as [->| ->]; [|right; apply G2; intros [? _]; discriminate]. left. apply G2. intros G. apply Hc. now apply G1. }
      split; eapply G; eauto; intros Q; apply NC; rewrite Q; auto.
    + assert (L1 : l_status l1 = EXISTING). { destruct (l_status l1) eqn:Q; try (assert (Z : l_status l' = l_status l1) by (rewrite Q; apply D2; intros [? _]; congruence); congruence). destruct (Tl k l1 l' El1 El') as [_ _]. exfalso.
        assert (Z : l_status l' = CANDIDATE \/ l_status l' = PROPOSED). { destruct (beq_spec (l_status l') CANDIDATE) as [|Nc]; [now left|right]. apply D2. intros C. apply Nc. now apply D1. } destruct Z; congruence. }
      rewrite L1 in Pl. assert (L0 : l_status l = EXISTING). { destruct (l_status l); cbn in Pl; try congruence; destruct (picked_dec (p_links p) (l_tx l, l_rx l)) as [P|P]; destruct Pl as [Q1 Q2]; first [specialize (Q1 P); discriminate|specialize (Q2 P); discriminate]. }
      destruct (X1 k l El L0) as [Xa Xb]. exists EXISTING, EXISTING. split; [now apply Ex|]. split; [now apply Ex|]. split; now right.
  - intros k x' Ex' Ha. destruct (shape_sector _ _ _ _ (shape_sym _ _ S) Ex') as (x1 & Ex1 & A1). destruct (shape_sector _ _ _ _ (shape_sym _ _ S1) Ex1) as (x & Ex0 & A). destruct (Tx k x1 x' Ex1 Ex') as [D1 D2]. pose proof (P2 k x x1 Ex0 Ex1) as Px.
    assert (Sx : x_site x' = x_site x) by (unfold x_site; congruence). assert (Sx1 : x_site x1 = x_site x) by (unfold x_site; congruence). rewrite Sx. rewrite Sx1 in D1, D2. destruct Ha as [Hp|Hx].
    + assert (L1 : x_status x1 = PROPOSED /\ ~ disconnected t1 (x_site x)).
      { destruct (x_status x1) eqn:Q; try (exfalso; assert (Z : x_status x' = x_status x1) by (rewrite Q; apply D2; intros [? _]; congruence); congruence). split; [reflexivity|]. intros C. rewrite D1 in Hp by now split. discriminate. }
      destruct L1 as [L1 NC]. rewrite L1 in Px.
      assert (Cd : can_decide (x_status x) /\ picked (p_sectors p) (x_site x, k)). { unfold can_decide. destruct (x_status x); cbn in Px; try discriminate; (split; [auto|]); destruct (picked_dec (p_sectors p) (x_site x, k)) as [|N]; auto; destruct Px as [_ Px]; specialize (Px N); discriminate. }
      destruct Cd as [Cd Pk]. pose proof (F2 k x Ex0 Cd) as U. destruct (wf_sector _ _ _ W Ex0) as [s Es]. destruct (Us _ _ U Pk (ex_intro _ s Es)) as (s1 & s' & Es1 & Es' & As & Ds). unfold site_status_of. rewrite Es'. exists (s_status s'). split; [reflexivity|].
      rewrite (drop_active _ _ _ Ds); [exact As|]. intros [C _]. contradiction.
    + assert (L1 : x_status x1 = EXISTING). { destruct (x_status x1) eqn:Q; try (assert (Z : x_status x' = x_status x1) by (rewrite Q; apply D2; intros [? _]; congruence); congruence). exfalso.
        assert (Z : x_status x' = CANDIDATE \/ x_status x' = PROPOSED). { destruct (beq_spec (x_status x') CANDIDATE) as [|Nc]; [now left|right]. apply D2. intros C. apply Nc. now apply D1. } destruct Z; congruence. }
      rewrite L1 in Px. assert (L0 : x_status x = EXISTING). { destruct (x_status x); cbn in Px; try congruence; destruct (picked_dec (p_sectors p) (x_site x, k)) as [P|P]; destruct Px as [Q1 Q2]; first [specialize (Q1 P); discriminate|specialize (Q2 P); discriminate]. }
      exists EXISTING. split; [apply Ex; now apply X2 with k|now right].
Qed.
Lemma channels_exact p t k : dget (channels p t) k = match dget (t_sectors t) k with
  | Some x => Some (match dget (p_channels p) (x_site x, k) with Some c => c | None => (-1)%Z end) | None => None end.
Proof.
  unfold channels. induction (t_sectors t) as [|[j x] r IH]; cbn; [reflexivity|]. destruct (beq_spec k j) as [->|]; [reflexivity|exact IH].
Qed.
