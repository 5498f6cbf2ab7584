(** The links and demands of the new POPs. *)
From Coq Require Import ZArith QArith.
From Verif Require Import Base Dict TopologyModel TopologySpec StatusModel SetupModel ExtractModel ExtractProofs MonadLib GraphSpec PopModel DupModel DupSpec DupProofs.
From Verif Require TopologyProofs TopologyLemmas GraphProofs DemandModel DemandSpec DemandFinalProofs.
Local Open Scope list_scope.

Section Links.
Variable pop_id : string -> string.
Hypothesis dashless : forall i, no_dash (pop_id i).
Variable t0 : topo.
Hypothesis Hr : reachable t0.
Variable dec : dict string Z.
Let chosen := chosen t0 dec.
Variable t1 : topo.
Variable new : dict string site.
Variable X : dict string seckey.
Hypothesis Hs : site_inv pop_id t0 dec (dkeys (t_sites t0)) (t1, new, X).

Lemma chosen_key d s : chosen d s -> In d (dkeys (t_sites t0)).
Proof using. intros (E & _). apply In_dkeys. eauto. Qed.
Lemma s_reach : reachable t1. Proof using Hs. apply Hs. Qed.
Lemma s_fresh d s : chosen d s -> dget (t_sites t0) (pop_id d) = None.
Proof using Hs. intros C. destruct Hs as (_ & _ & F & _). eapply F; [eapply chosen_key|]; exact C. Qed.
Lemma s_apart d e sd se : chosen d sd -> chosen e se -> pop_id d = pop_id e -> d = e.
Proof using Hs. intros C D. destruct Hs as (_ & _ & _ & F & _). eapply F; eauto using chosen_key. Qed.
Lemma s_sites i s : dget (t_sites t1) i = Some s <-> dget (t_sites t0) i = Some s \/ exists d sd, chosen d sd /\ i = pop_id d /\ s = pop_for pop_id sd.
Proof using Hs. destruct Hs as (_ & _ & _ & _ & F & _). rewrite F. split; (intros [H|(d & sd & H)]; [auto|]; right; exists d, sd); [tauto|]. destruct H as (C & H). split; [eapply chosen_key; exact C|auto]. Qed.
Lemma s_sectors k x : dget (t_sectors t1) k = Some x <-> dget (t_sectors t0) k = Some x \/
  exists d sd k0 y, chosen d sd /\ sector_stored t0 k0 y /\ x_site y = d /\ x = mkSector (sector_for pop_id d (x_key y)) CANDIDATE /\ k = x_id x.
Proof using Hs Hr.
  destruct Hs as (_ & _ & _ & _ & _ & F & _). rewrite F. split; (intros [H|H]; [auto|right]).
  - destruct H as (d & sd & y & _ & C & Ey & H). exists d, sd, (x_id y), y. auto.
  - destruct H as (d & sd & k0 & y & C & Ey & H). exists d, sd, y. split; [eapply chosen_key; exact C|]. split; [exact C|]. split; [|exact H].
    unfold sector_stored in Ey. pose proof Ey as E'. apply (TopologyProofs.i_sectors _ (TopologyProofs.inv_reachable _ Hr)) in E'. destruct E' as (-> & _). exact Ey.
Qed.
Lemma s_new d s : dget new d = Some s <-> exists sd, chosen d sd /\ s = pop_for pop_id sd.
Proof using Hs. destruct Hs as (_ & _ & _ & _ & _ & _ & _ & F & _). rewrite F. split; [tauto|]. intros (sd & C & H). split; [eapply chosen_key; exact C|eauto]. Qed.
Lemma s_keys a c : no_dash (k_site a) -> dget X (key_id a) = Some c -> c = sector_for pop_id (k_site a) a.
Proof using Hs Hr.
  intros Na H. destruct Hs as (_ & _ & _ & _ & _ & _ & _ & _ & F & _). destruct (F _ _ H) as (d & sd & y & _ & C & Ey & Sy & Ek & ->).
  assert (Ny : no_dash (k_site (x_key y))). { change (no_dash (x_site y)). rewrite Sy. destruct C as (E & _). now apply (TopologyProofs.i_sites _ (TopologyProofs.inv_reachable _ Hr)) in E. }
  pose proof (TopologyProofs.key_id_inj _ _ Na Ny Ek) as ->. change (sector_for pop_id d (x_key y) = sector_for pop_id (x_site y) (x_key y)). now rewrite Sy.
Qed.
Lemma s_links0 : t_links t1 = t_links t0 /\ t_demands t1 = t_demands t0.
Proof using Hs. destruct Hs as (_ & (A & _ & _ & B) & _). auto. Qed.
Lemma old_of_not_pop i s : dget (t_sites t1) i = Some s -> s_type s <> POP -> dget (t_sites t0) i = Some s.
Proof using Hs. intros E N. apply s_sites in E. destruct E as [E|(d & sd & _ & _ & ->)]; [exact E|]. now destruct N. Qed.
Lemma inv0 : TopologyProofs.Inv t0. Proof using Hr. now apply TopologyProofs.inv_reachable. Qed.

Definition holds (C : link -> Prop) (t : topo) : Prop :=
  reachable t /\ t_sites t = t_sites t1 /\ t_sectors t = t_sectors t1 /\ t_demands t = t_demands t0 /\
  (forall k l, dget (t_links t) k = Some l <-> dget (t_links t0) k = Some l \/ (k = l_id l /\ C l)) /\
  (forall l, C l -> dget (t_sites t0) (l_tx l) = None \/ dget (t_sites t0) (l_rx l) = None).
Lemma holds_ext C D t : (forall l, C l <-> D l) -> holds C t -> holds D t.
Proof using. intros E (R & A1 & A2 & A3 & A4 & A5). repeat (split; [assumption|]). split; [|intros l H; apply A5, E, H]. intros k l. now rewrite A4, E. Qed.
Lemma holds_add (C : link -> Prop) t l t' : holds C t -> add_link l t = (Ok tt, t') -> link_args_ok l -> dget (t_sites t0) (l_tx l) = None \/ dget (t_sites t0) (l_rx l) = None ->
  (forall l', C l' -> l_tx l' = l_tx l -> l_rx l' = l_rx l -> False) -> holds (fun l' => C l' \/ l' = l) t'.
Proof using Hr.
  intros (R & A1 & A2 & A3 & A4 & A5) E Ha Ho Hn.
  assert (R' : reachable t') by (apply (reachable_op (AddLink l) _ _ R); [exact Ha|exact E]).
  unfold add_link in E. destruct (dmem (t_sites t) (l_tx l) && dmem (t_sites t) (l_rx l)) eqn:Em; [|discriminate]. unfold ok in E. injection E as <-.
  apply andb_true_iff in Em. destruct Em as (M1 & M2). pose proof (TopologyProofs.inv_reachable _ R) as HI.
  assert (Ids : forall k l', dget (t_links t) k = Some l' -> k = l_id l -> l_tx l' = l_tx l /\ l_rx l' = l_rx l).
  { intros k l' H ->. apply (TopologyLemmas.ends_of_id t (l_tx l) (l_rx l) l' HI M1 H). }
  split; [exact R'|]. cbn [set_links set_conn set_rconn t_sites t_sectors t_demands t_links]. split; [exact A1|]. split; [exact A2|]. split; [exact A3|].
  split; [|intros l' [H| ->]; auto]. intros k l'. rewrite dget_set. destruct (beq k (l_id l)) eqn:Ek.
  - apply beq_true in Ek. subst k. split.
    + intros H. injection H as <-. auto.
    + intros [H|(Ei & [H|H])]; [exfalso| |now subst].
      * assert (H' : dget (t_links t) (l_id l) = Some l') by (apply A4; auto). destruct (Ids _ _ H' eq_refl) as (E1 & E2).
        apply (TopologyProofs.i_links _ inv0) in H. destruct H as (_ & D1 & D2 & _). rewrite E1 in D1. rewrite E2 in D2. apply dmem_Some in D1, D2. destruct D1 as (? & D1), D2 as (? & D2). destruct Ho; congruence.
      * exfalso. assert (H' : dget (t_links t) (l_id l) = Some l') by (apply A4; auto). destruct (Ids _ _ H' eq_refl) as (E1 & E2). now apply (Hn l').
  - rewrite A4. split; [intros [H|(Ei & H)]; auto|]. intros [H|(Ei & [H| ->])]; auto. subst k. rewrite beq_refl in Ek. discriminate.
Qed.
(** a link between two old sites is an old link *)
Lemma holds_between (C : link -> Prop) t a b l : holds C t -> site_stored t0 a -> site_stored t0 b -> link_between t a b = Ok l -> dget (t_links t0) (link_id_of a b) = Some l /\ l_tx l = a /\ l_rx l = b.
Proof using Hr Hs.
  intros (R & A1 & A2 & A3 & A4 & A5) (sa & Ea) (sb & Eb) E. unfold link_between in E. pose proof (TopologyProofs.inv_reachable _ R) as HI.
  assert (Ma : dmem (t_sites t) a = true) by (rewrite A1; apply dmem_Some; exists sa; apply s_sites; auto).
  assert (Mb : dmem (t_sites t) b = true) by (rewrite A1; apply dmem_Some; exists sb; apply s_sites; auto).
  rewrite (TopologyLemmas.get_link_value _ _ _ HI Ma Mb) in E. cbn [rbind] in E. destruct (dget (t_links t) (link_id_of a b)) as [l'|] eqn:El; [|discriminate]. injection E as ->.
  pose proof (TopologyLemmas.ends_of_id _ _ _ _ HI Ma El) as (<- & <-). split; [|auto]. apply A4 in El. destruct El as [El|(_ & El)]; [exact El|]. apply A5 in El. destruct El; congruence.
Qed.
Lemma candidate_link_ok a b ka kb w l : candidate_link a b ka kb w = Ok l ->
  s_type a <> CN /\ k_site ka = s_id a /\ k_site kb = s_id b /\ l = mkLink (s_id a) (s_id b) w (beq (s_type b) CN) (Some (ka, kb)) CANDIDATE.
Proof using.
  unfold candidate_link. intros E. apply rbind_ok in E. destruct E as ([] & E1 & E). apply guard_iff in E1. apply rbind_ok in E. destruct E as ([] & E2 & E). apply guard_iff in E2.
  apply rbind_ok in E. destruct E as ([] & _ & E). injection E as <-. apply andb_true_iff in E2. destruct E2 as (E2 & E3). apply beq_true in E2, E3.
  split; [|auto]. intros Ec. rewrite Ec in E1. discriminate.
Qed.

(** ** links out of one DN *)
Section One.
Variable d : string.
Variable sd : site.
Hypothesis Hc : chosen d sd.
Let p := pop_for pop_id sd.
Lemma p_id : s_id p = pop_id d. Proof using Hc Hr. unfold p. cbn. now rewrite (chosen_id _ Hr _ _ _ Hc). Qed.
Lemma d_old : site_stored t0 d. Proof using Hc. destruct Hc as (E & _). now exists sd. Qed.

Definition outs (ns : list site) (l : link) : Prop :=
  exists n l0, In n ns /\ s_type n <> POP /\ dget (t_links t0) (link_id_of d (s_id n)) = Some l0 /\ copy_of_out pop_id t0 d l0 l.
Definition ins (w : bool) (ns : list site) (l : link) : Prop :=
  exists n l0, In n ns /\ s_type n <> POP /\ dget (t_links t0) (link_id_of (s_id n) d) = Some l0 /\ copy_of_in pop_id d w l0 l.
Definition stored_all (ns : list site) : Prop := NoDup ns /\ forall n, In n ns -> dget (t_sites t1) (s_id n) = Some n.
Definition out_state (C : link -> Prop) (tx0 : option link) (done : list site) (st : topo * option link) : Prop :=
  holds (fun l => C l \/ outs done l) (fst st) /\
  (snd st = tx0 \/ exists l0, snd st = Some l0 /\ out_link t0 d l0) /\
  (forall n, In n done -> s_type n <> POP -> snd st <> None).
Lemma ends_old a b l0 : dget (t_links t0) (link_id_of a b) = Some l0 -> site_stored t0 a -> l_tx l0 = a /\ l_rx l0 = b.
Proof using Hr. intros E S. apply (TopologyLemmas.ends_of_id t0); [apply inv0|now apply TopologyLemmas.stored_dmem|exact E]. Qed.
Lemma out_step (C : link -> Prop) tx0 ns done n rest st st' : stored_all ns -> ns = done ++ n :: rest -> (forall l, C l -> l_tx l <> pop_id d) ->
  out_state C tx0 done st -> copy_out X d p st n = Ok st' -> out_state C tx0 (done ++ [n]) st'.
Proof using Hr Hs Hc.
  intros (Nd & Sn) En Hf (Hh & Ht & Hb) E. unfold copy_out in E.
  assert (In_n : In n ns) by (rewrite En; apply in_or_app; right; now left). pose proof (Sn _ In_n) as E1.
  destruct (beq (s_type n) POP) eqn:Ep.
  { injection E as <-. apply beq_true in Ep. split; [|split; [exact Ht|]].
    - apply (holds_ext (fun l => C l \/ outs done l)); [|exact Hh]. intros l. split; (intros [H|(m & l0 & Hm & H)]; [auto|right; exists m, l0; split; [|exact H]]); [apply in_or_app; now left|].
      apply in_app_or in Hm. destruct Hm as [Hm|[<-|[]]]; [exact Hm|]. now destruct H.
    - intros m Hm Np. apply in_app_or in Hm. destruct Hm as [Hm|[<-|[]]]; [now apply (Hb m)|now destruct Np]. }
  apply beq_false in Ep. pose proof (old_of_not_pop _ _ E1 Ep) as E0. assert (So : site_stored t0 (s_id n)) by now exists n.
  apply rbind_ok in E. destruct E as (l0 & El & E). apply (holds_between _ _ _ _ _ Hh d_old So) in El. destruct El as (El & Etx & Erx).
  assert (Ol : out_link t0 d l0) by (split; [now exists (link_id_of d (s_id n))|split; [exact Etx|exists n; rewrite Erx; auto]]).
  destruct (l_sectors l0) as [(a, b)|] eqn:Es.
  2:{ injection E as <-. split; [|split; [right; exists l0; split; [reflexivity|exact Ol]|discriminate]]. apply (holds_ext (fun l => C l \/ outs done l)); [|exact Hh]. intros l.
      split; (intros [H|(m & l1 & Hm & Np & Em & H)]; [auto|right; exists m, l1; split; [|split; [exact Np|split; [exact Em|exact H]]]]); [apply in_or_app; now left|].
      apply in_app_or in Hm. destruct Hm as [Hm|[<-|[]]]; [exact Hm|]. rewrite El in Em. injection Em as <-. destruct H as (a & b & k & Es' & _). congruence. }
  apply rbind_ok in E. destruct E as (a' & Ea & E). apply get_ok in Ea. apply rbind_ok in E. destruct E as (l' & El' & E). apply rbind_ok in E. destruct E as (t & Et & E). injection E as <-. apply after_ok in Et.
  apply candidate_link_ok in El'. destruct El' as (_ & Ka & Kb & ->). rewrite p_id in *.
  assert (Args : k_site a = d /\ k_site b = s_id n). { pose proof (TopologyProofs.i_links _ inv0 _ _ El) as (_ & _ & _ & A). unfold link_args_ok in A. rewrite Es in A. destruct A. split; congruence. }
  assert (Nda : no_dash (k_site a)). { rewrite (proj1 Args). destruct Hc as (E & _). now apply (TopologyProofs.i_sites _ inv0) in E. }
  pose proof (s_keys _ _ Nda Ea) as ->. rewrite (proj1 Args) in *.
  set (l' := mkLink (pop_id d) (s_id n) (l_wireless l0) (beq (s_type n) CN) (Some (sector_for pop_id d a, b)) CANDIDATE) in *.
  assert (Cp : copy_of_out pop_id t0 d l0 l') by (exists a, b, n; rewrite Erx; auto).
  split; [|split; [right; exists l0; split; [reflexivity|exact Ol]|discriminate]]. cbn [fst].
  apply (holds_ext (fun l => (C l \/ outs done l) \/ l = l')).
  { intros l. split.
    - intros [[H|(m & l1 & Hm & H)]| ->]; [auto|right; exists m, l1; split; [apply in_or_app; now left|exact H]|]. right. exists n, l0. split; [apply in_or_app; right; now left|auto].
    - intros [H|(m & l1 & Hm & Np & Em & H)]; [auto|]. apply in_app_or in Hm. destruct Hm as [Hm|[<-|[]]]; [left; right; exists m, l1; auto|]. right. rewrite El in Em. injection Em as <-.
      destruct H as (a2 & b2 & n2 & Es2 & En2 & ->). rewrite Es in Es2. injection Es2 as <- <-. rewrite Erx in En2. rewrite E0 in En2. injection En2 as <-. unfold l'. now rewrite Erx. }
  apply (holds_add _ _ l' t Hh Et).
  - split; [exact Ka|exact Kb].
  - left. cbn. apply (s_fresh _ _ Hc).
  - intros l [H|(m & l1 & Hm & Np & Em & H)] Etl Erl; [now apply (Hf l)|]. cbn in Erl. destruct H as (a2 & b2 & n2 & _ & _ & ->). cbn in Erl. destruct (ends_old _ _ _ Em d_old) as (_ & Er1).
    assert (m = n). { assert (Em1 : dget (t_sites t1) (s_id m) = Some m) by (apply Sn; rewrite En; apply in_or_app; now left). assert (s_id m = s_id n) by congruence. congruence. }
    subst m. rewrite En in Nd. apply NoDup_remove_2 in Nd. apply Nd, in_or_app. now left.
Qed.
Lemma out_loop (C : link -> Prop) t tx ns st : stored_all ns -> (forall l, C l -> l_tx l <> pop_id d) -> holds C t -> foldM (copy_out X d p) ns (t, tx) = Ok st -> out_state C tx ns st.
Proof using Hr Hs Hc.
  intros Sn Hf Hh E. apply (foldM_prefix (copy_out X d p) (out_state C tx) ns [] (t, tx) st); [| |exact E].
  - intros done n rest s s' En H0 H1. cbn [app] in En. now apply (out_step C tx ns done n rest s).
  - split; [|split; [now left|intros n []]]. cbn [fst]. apply (holds_ext C); [|exact Hh]. intros l. split; [auto|]. intros [H|(n & l0 & [] & _)]. exact H.
Qed.

(** ** links into one DN *)
Definition in_state (C : link -> Prop) (tx0 : option link) (done : list site) (st : topo * option link) : Prop :=
  holds (fun l => C l \/ exists w, (forall l1, tx0 = Some l1 -> w = l_wireless l1) /\ ins w done l) (fst st) /\ snd st = tx0 /\
  (forall n l0, In n done -> s_type n <> POP -> dget (t_links t0) (link_id_of (s_id n) d) = Some l0 -> l_sectors l0 <> None -> tx0 <> None).
Lemma in_step (C : link -> Prop) tx0 ns done n rest st st' : stored_all ns -> ns = done ++ n :: rest -> (forall l, C l -> l_rx l <> pop_id d) ->
  in_state C tx0 done st -> copy_in X d p st n = Ok st' -> in_state C tx0 (done ++ [n]) st'.
Proof using Hr Hs Hc.
  intros (Nd & Sn) En Hf (Hh & Ht & Hb) E. unfold copy_in in E.
  assert (In_n : In n ns) by (rewrite En; apply in_or_app; right; now left). pose proof (Sn _ In_n) as E1.
  destruct (beq (s_type n) POP) eqn:Ep.
  { injection E as <-. apply beq_true in Ep. split; [|split; [exact Ht|]].
    - apply (holds_ext _ _ _) with (2 := Hh). intros l. split; (intros [H|(w & Hw & m & l0 & Hm & H)]; [auto|right; exists w; split; [exact Hw|]; exists m, l0; split; [|exact H]]); [apply in_or_app; now left|].
      apply in_app_or in Hm. destruct Hm as [Hm|[<-|[]]]; [exact Hm|]. now destruct H.
    - intros m l0 Hm Np. apply in_app_or in Hm. destruct Hm as [Hm|[<-|[]]]; [now apply (Hb m)|now destruct Np]. }
  apply beq_false in Ep. pose proof (old_of_not_pop _ _ E1 Ep) as E0. assert (So : site_stored t0 (s_id n)) by now exists n.
  apply rbind_ok in E. destruct E as (l0 & El & E). apply (holds_between _ _ _ _ _ Hh So d_old) in El. destruct El as (El & Etx & Erx).
  destruct (l_sectors l0) as [(a, b)|] eqn:Es.
  2:{ injection E as <-. split; [|split; [exact Ht|]].
      - apply (holds_ext _ _ _) with (2 := Hh). intros l.
        split; (intros [H|(w & Hw & m & l1 & Hm & Np & Em & H)]; [auto|right; exists w; split; [exact Hw|]; exists m, l1; split; [|split; [exact Np|split; [exact Em|exact H]]]]); [apply in_or_app; now left|].
        apply in_app_or in Hm. destruct Hm as [Hm|[<-|[]]]; [exact Hm|]. rewrite El in Em. injection Em as <-. destruct H as (a & b & Es' & _). congruence.
      - intros m l1 Hm Np Em. apply in_app_or in Hm. destruct Hm as [Hm|[<-|[]]]; [now apply (Hb m)|]. rewrite El in Em. injection Em as <-. congruence. }
  apply rbind_ok in E. destruct E as (b' & Ea & E). apply get_ok in Ea. apply rbind_ok in E. destruct E as (w & Ew & E). apply rbind_ok in E. destruct E as (l' & El' & E). apply rbind_ok in E. destruct E as (t & Et & E). injection E as <-. apply after_ok in Et.
  apply candidate_link_ok in El'. destruct El' as (_ & Ka & Kb & ->). rewrite p_id in *. rewrite Ht in Ew. destruct tx0 as [l1|]; [|discriminate]. injection Ew as <-.
  assert (Args : k_site a = s_id n /\ k_site b = d). { pose proof (TopologyProofs.i_links _ inv0 _ _ El) as (_ & _ & _ & A). unfold link_args_ok in A. rewrite Es in A. destruct A. split; congruence. }
  assert (Nda : no_dash (k_site b)). { rewrite (proj2 Args). destruct Hc as (E & _). now apply (TopologyProofs.i_sites _ inv0) in E. }
  pose proof (s_keys _ _ Nda Ea) as ->. rewrite (proj2 Args) in *.
  assert (Tp : beq (s_type p) CN = false) by reflexivity. rewrite Tp in Et.
  set (l' := mkLink (s_id n) (pop_id d) (l_wireless l1) false (Some (a, sector_for pop_id d b)) CANDIDATE) in *.
  split; [|split; [exact Ht|discriminate]]. cbn [fst].
  apply (holds_ext (fun l => (C l \/ exists w, (forall l2, Some l1 = Some l2 -> w = l_wireless l2) /\ ins w done l) \/ l = l')).
  { intros l. split.
    - intros [[H|(w & Hw & m & l2 & Hm & H)]| ->]; [auto|right; exists w; split; [exact Hw|]; exists m, l2; split; [apply in_or_app; now left|exact H]|].
      right. exists (l_wireless l1). split; [intros l2 H; now injection H as <-|]. exists n, l0. split; [apply in_or_app; right; now left|]. split; [exact Ep|]. split; [exact El|]. exists a, b. rewrite Etx. auto.
    - intros [H|(w & Hw & m & l2 & Hm & Np & Em & H)]; [auto|]. apply in_app_or in Hm. destruct Hm as [Hm|[<-|[]]]; [left; right; exists w; split; [exact Hw|]; exists m, l2; auto|]. right. rewrite El in Em. injection Em as <-.
      destruct H as (a2 & b2 & Es2 & ->). rewrite Es in Es2. injection Es2 as <- <-. unfold l'. now rewrite Etx, (Hw l1 eq_refl). }
  apply (holds_add _ _ l' t Hh Et).
  - split; [exact Ka|exact Kb].
  - right. cbn. apply (s_fresh _ _ Hc).
  - intros l [H|(w & Hw & m & l2 & Hm & Np & Em & H)] Etl Erl; [now apply (Hf l)|]. cbn in Etl. destruct H as (a2 & b2 & _ & ->). cbn in Etl.
    assert (Em1 : dget (t_sites t1) (s_id m) = Some m) by (apply Sn; rewrite En; apply in_or_app; now left).
    destruct (ends_old _ _ _ Em ltac:(exists m; now apply old_of_not_pop)) as (Et1 & _).
    assert (m = n) by (assert (s_id m = s_id n) by congruence; congruence).
    subst m. rewrite En in Nd. apply NoDup_remove_2 in Nd. apply Nd, in_or_app. now left.
Qed.
Lemma in_loop (C : link -> Prop) t tx ns st : stored_all ns -> (forall l, C l -> l_rx l <> pop_id d) -> holds C t -> foldM (copy_in X d p) ns (t, tx) = Ok st -> in_state C tx ns st.
Proof using Hr Hs Hc.
  intros Sn Hf Hh E. apply (foldM_prefix (copy_in X d p) (in_state C tx) ns [] (t, tx) st); [| |exact E].
  - intros done n rest s s' En H0 H1. cbn [app] in En. now apply (in_step C tx ns done n rest s).
  - split; [|split; [reflexivity|intros n l0 []]]. cbn [fst]. apply (holds_ext C); [|exact Hh]. intros l. split; [auto|]. intros [H|(w & _ & n & l0 & [] & _)]. exact H.
Qed.

(** ** both loops of one DN *)
Lemma copy_links_one (C : link -> Prop) t tx st : (forall l, C l -> l_tx l <> pop_id d /\ l_rx l <> pop_id d) -> holds C t -> copy_links X (t, tx) (d, p) = Ok st ->
  exists w, holds (fun l => C l \/ (exists l0, out_link t0 d l0 /\ copy_of_out pop_id t0 d l0 l) \/ exists l0, in_link t0 d l0 /\ copy_of_in pop_id d w l0 l) (fst st) /\
    (snd st = tx \/ exists l0, snd st = Some l0 /\ out_link t0 d l0) /\
    (forall l1, snd st = Some l1 -> w = l_wireless l1) /\
    ((exists l0, in_link t0 d l0 /\ l_sectors l0 <> None) -> snd st <> None).
Proof using Hr Hs Hc.
  intros Hf Hh E. unfold copy_links in E. cbn [fst snd] in E. apply rbind_ok in E. destruct E as (succ & Es & E). apply rbind_ok in E. destruct E as ((t2 & tx2) & E1 & E). apply rbind_ok in E. destruct E as (pred & Ep & E). cbn [fst] in Ep.
  assert (Sd : forall t (C : link -> Prop), holds C t -> site_stored t d). { intros t' C' (_ & A1 & _). unfold site_stored. rewrite A1. exists sd. apply s_sites. left. apply Hc. }
  assert (Sall : forall t (C : link -> Prop) l, holds C t -> (NoDup l /\ forall n, In n l -> exists i, dget (t_sites t) i = Some n) -> stored_all l).
  { intros t' C' l (R' & A1 & _) (Nl & Sl). split; [exact Nl|]. intros n Hn. destruct (Sl _ Hn) as (i & Ei). pose proof Ei as Ei'. apply (TopologyProofs.i_sites _ (TopologyProofs.inv_reachable _ R')) in Ei. destruct Ei as (-> & _). now rewrite <- A1. }
  destruct (TopologyLemmas.successors_exact t d (proj1 Hh) (Sd _ _ Hh)) as (l & El & Nl & Il). rewrite Es in El. injection El as <-.
  apply (out_loop C) in E1; [|apply (Sall t C _ Hh); split; [exact Nl|]; intros n Hn; apply Il in Hn; destruct Hn as (k & lk & _ & _ & H & _); eauto|intros l Hl; now apply Hf|exact Hh].
  destruct E1 as (H2 & T2 & B2). cbn [fst snd] in *.
  destruct (TopologyLemmas.predecessors_exact t2 d (proj1 H2) (Sd _ _ H2)) as (l & El & Np & Ip). rewrite Ep in El. injection El as <-.
  assert (Outs : forall l, outs succ l <-> exists l0, out_link t0 d l0 /\ copy_of_out pop_id t0 d l0 l).
  { intros l. split.
    - intros (n & l0 & Hn & Npo & El & Cp). exists l0. split; [|exact Cp]. destruct (ends_old _ _ _ El d_old) as (Ea & Eb). split; [now exists (link_id_of d (s_id n))|]. split; [exact Ea|].
      exists n. split; [|exact Npo]. rewrite Eb. apply old_of_not_pop; [|exact Npo]. apply Il in Hn. destruct Hn as (k & lk & _ & _ & H & _). pose proof H as H'. apply (TopologyProofs.i_sites _ (TopologyProofs.inv_reachable _ (proj1 Hh))) in H'. destruct H' as (-> & _). destruct Hh as (_ & A1 & _). now rewrite <- A1.
    - intros (l0 & ((k & Ek) & Ea & n & En & Npo) & Cp). exists n, l0. pose proof En as En'. apply (TopologyProofs.i_sites _ inv0) in En'. destruct En' as (Eid & _). split; [|split; [exact Npo|split; [|exact Cp]]].
      + apply Il. exists k, l0. destruct Hh as (_ & A1 & _ & _ & A4 & _). split; [apply A4; auto|]. split; [exact Ea|]. split; [|discriminate]. rewrite A1. apply s_sites. auto.
      + rewrite Eid, <- Ea. apply (TopologyLemmas.link_by_ends t0 k l0 inv0 Ek). }
  assert (Ins : forall w l, ins w pred l <-> exists l0, in_link t0 d l0 /\ copy_of_in pop_id d w l0 l).
  { intros w l. split.
    - intros (n & l0 & Hn & Npo & El & Cp). exists l0. split; [|exact Cp].
      assert (En : dget (t_sites t0) (s_id n) = Some n). { apply old_of_not_pop; [|exact Npo]. apply Ip in Hn. destruct Hn as (k & lk & _ & _ & H & _). pose proof H as H'. apply (TopologyProofs.i_sites _ (TopologyProofs.inv_reachable _ (proj1 H2))) in H'. destruct H' as (-> & _). destruct H2 as (_ & A1 & _). now rewrite <- A1. }
      destruct (ends_old _ _ _ El ltac:(now exists n)) as (Ea & Eb). split; [now exists (link_id_of (s_id n) d)|]. split; [exact Eb|]. exists n. now rewrite Ea.
    - intros (l0 & ((k & Ek) & Ea & n & En & Npo) & Cp). exists n, l0. pose proof En as En'. apply (TopologyProofs.i_sites _ inv0) in En'. destruct En' as (Eid & _). split; [|split; [exact Npo|split; [|exact Cp]]].
      + apply Ip. exists k, l0. destruct H2 as (_ & A1 & _ & _ & A4 & _). split; [apply A4; auto|]. split; [exact Ea|]. split; [|discriminate]. rewrite A1. apply s_sites. auto.
      + rewrite Eid, <- Ea. apply (TopologyLemmas.link_by_ends t0 k l0 inv0 Ek). }
  apply (in_loop (fun l => C l \/ outs succ l)) in E; [|apply (Sall t2 _ _ H2); split; [exact Np|]; intros n Hn; apply Ip in Hn; destruct Hn as (k & lk & _ & _ & H & _); eauto| |exact H2].
  2:{ intros l [H|H]; [now apply Hf|]. apply Outs in H. destruct H as (l0 & (_ & _ & n & En & _) & a & b & n' & _ & _ & ->). cbn. intros Eq. rewrite Eq in En. rewrite (s_fresh _ _ Hc) in En. discriminate. }
  destruct E as (H3 & T3 & B3). exists (match tx2 with Some l1 => l_wireless l1 | None => true end). rewrite T3. split; [|split; [exact T2|split]].
  - apply (holds_ext _ _ _) with (2 := H3). intros l. rewrite Outs. split.
    + intros [[H|H]|(w & Hw & H)]; [auto|auto|]. right. right. apply Ins in H. destruct H as (l0 & Hi & Cp). exists l0. split; [exact Hi|]. destruct tx2 as [l1|]; [now rewrite <- (Hw l1 eq_refl)|].
      exfalso. destruct Cp as (a & b & Eb & _). destruct Hi as ((k & Ek) & Ea & n & En & Npo). pose proof En as En'. apply (TopologyProofs.i_sites _ inv0) in En'. destruct En' as (Eid & _).
      apply (B3 n l0); [|exact Npo| |congruence|reflexivity].
      * apply Ip. exists k, l0. destruct H2 as (_ & A1 & _ & _ & A4 & _). split; [apply A4; auto|]. split; [exact Ea|]. split; [|discriminate]. rewrite A1. apply s_sites. auto.
      * rewrite Eid, <- Ea. apply (TopologyLemmas.link_by_ends t0 k l0 inv0 Ek).
    + intros [H|[H|H]]; [auto|auto|]. right. apply Ins in H. eexists. split; [|exact H]. intros l1 ->. reflexivity.
  - intros l1 ->. reflexivity.
  - intros (l0 & ((k & Ek) & Ea & n & En & Npo) & Ns). pose proof En as En'. apply (TopologyProofs.i_sites _ inv0) in En'. destruct En' as (Eid & _). apply (B3 n l0); [|exact Npo| |exact Ns].
    + apply Ip. exists k, l0. destruct H2 as (_ & A1 & _ & _ & A4 & _). split; [apply A4; auto|]. split; [exact Ea|]. split; [|discriminate]. rewrite A1. apply s_sites. auto.
    + rewrite Eid, <- Ea. apply (TopologyLemmas.link_by_ends t0 k l0 inv0 Ek).
Qed.
End One.
End Links.
