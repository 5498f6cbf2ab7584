(** When the new POPs can be added. *)
From Coq Require Import ZArith QArith.
From Verif Require Import Base Dict TopologyModel TopologySpec StatusModel SetupModel ExtractModel ExtractProofs MonadLib GraphSpec PopModel DupModel DupSpec DupProofs DupLinkProofs DupMainProofs.
From Verif Require TopologyProofs TopologyLemmas GraphProofs DemandModel DemandSpec DemandFinalProofs.
Local Open Scope list_scope.

Section Returns.
Variable pop_id : string -> string.
Hypothesis dashless : forall i, no_dash (pop_id i).
Variable t0 : topo.
Hypothesis Hr : reachable t0.
Variable dec : dict string Z.
Let chosen := chosen t0 dec.
Hypothesis Hfree : new_ids_free pop_id t0 dec.
Hypothesis Hsound : sectors_sound t0.
Hypothesis Husable : neighbours_usable t0 dec.
Hypothesis Hway : has_way_out t0 dec.

Lemma sectors_of_nodup i : NoDup (sectors_of t0 i).
Proof using Hr.
  pose proof (TopologyProofs.inv_reachable _ Hr) as HI. unfold sectors_of. apply NoDup_filter. apply (NoDup_map_inv x_id). unfold dvals. rewrite map_map.
  rewrite (map_ext_in (fun p => x_id (snd p)) fst); [apply HI|]. intros (k & x) H. cbn. apply (In_dget _ _ _ (TopologyProofs.iw_sectors _ HI)) in H. apply (TopologyProofs.i_sectors _ HI) in H. now destruct H.
Qed.
Lemma copy_site_total done i st : In i (dkeys (t_sites t0)) -> ~ In i done -> site_inv pop_id t0 dec done st -> exists st', copy_site pop_id t0 dec st i = Ok st'.
Proof using Hr dashless Hfree Hsound.
  destruct st as ((t, new), X). intros Hi Nd (R & _ & Fr & Ap & Si & Se & _). cbn [copy_site].
  apply In_dkeys in Hi. destruct Hi as (s & E0). assert (Et : dget (t_sites t) i = Some s) by (apply Si; auto). unfold lookup_site. rewrite Et. cbn [rbind].
  destruct (copied dec i s) eqn:Ec; [|eauto]. pose proof (proj1 (copied_iff _ _ _ _ E0) Ec) as C. pose proof (chosen_id _ Hr _ _ _ C) as Id.
  assert (Fi : dget (t_sites t) (pop_id i) = None).
  { destruct (dget (t_sites t) (pop_id i)) as [s'|] eqn:E; [|reflexivity]. exfalso. apply Si in E. destruct E as [E|(d & sd & Hd & Cd & Eq & _)].
    - rewrite (proj1 Hfree _ _ C) in E. discriminate. - apply (proj2 Hfree _ _ _ _ C Cd) in Eq. congruence. }
  assert (Ea : add_site (new_pop pop_id s) t = (Ok tt, set_sites t (dset (t_sites t) (pop_id i) (new_pop pop_id s)))).
  { unfold add_site. cbn [new_pop s_detected s_id]. rewrite Id. rewrite (proj2 (dmem_none _ _) Fi). reflexivity. }
  rewrite Ea. cbn [after rbind]. set (ta := set_sites _ _) in *. assert (Ra : reachable ta) by (apply (reachable_op (AddSite (new_pop pop_id s)) _ _ R); [apply dashless|exact Ea]). rewrite Id.
  assert (T : exists r, foldM (copy_sector (pop_id i)) (sectors_of t0 i) (ta, X) = Ok r).
  2:{ destruct T as (r & ->). cbn [rbind]. eauto. }
  apply (foldM_prefix_total _ (sec_inv (pop_id i) ta X) _ [] _).
  2:{ split; [exact Ra|]. split; [repeat split|]. split; [reflexivity|]. cbn [fst snd]. split; [|split; [auto|split; [intros y []|auto]]]. intros k x. split; [auto|]. intros [H|(y & [] & _)]. exact H. }
  intros dn x rest st En Hi. cbn [app] in En.
  assert (T : exists st', copy_sector (pop_id i) st x = Ok st'). 2:{ destruct T as (st' & T). exists st'. split; [exact T|]. exact (sec_step _ _ _ _ _ _ _ Hi T). }
  destruct Hi as (R1 & _ & Si1 & Sx1 & _). assert (Hx : In x (sectors_of t0 i)) by (rewrite En; apply in_or_app; right; now left). pose proof (proj1 (in_sectors_of _ Hr _ _) Hx) as (Ex & Sx).
  unfold copy_sector. set (y := mkSector (copy_key (pop_id i) (x_key x)) CANDIDATE). unfold add_sector.
  assert (Np : no_dash (k_site (x_key y))) by apply dashless.
  assert (M1 : dmem (t_sectors (fst st)) (x_id y) = false).
  { apply dmem_none. destruct (dget (t_sectors (fst st)) (x_id y)) as [z|] eqn:Ez; [|reflexivity]. exfalso. apply Sx1 in Ez. destruct Ez as [Ez|(y' & Hy & -> & Ek)].
    - cbn [ta set_sites t_sectors] in Ez. apply Se in Ez. destruct Ez as [Ez|(d & sd & y' & Hd & Cd & Ey & Sy & -> & Ek)].
      + pose proof Ez as Ez'. apply (TopologyProofs.i_sectors _ (TopologyProofs.inv_reachable _ Hr)) in Ez'. destruct Ez' as (Ek & Ms & _).
        assert (Nz : no_dash (k_site (x_key z))) by (apply (TopologyProofs.site_no_dash t0); [now apply TopologyProofs.inv_reachable|exact Ms]).
        apply (TopologyProofs.key_id_inj _ _ Np Nz) in Ek. unfold x_site in Ms. rewrite <- Ek in Ms. cbn in Ms. apply dmem_Some in Ms. destruct Ms as (? & Ms). rewrite (proj1 Hfree _ _ C) in Ms. discriminate.
      + apply (TopologyProofs.key_id_inj _ _ Np) in Ek; [|apply dashless]. cbn in Ek. injection Ek as Eq _ _. apply (proj2 Hfree _ _ _ _ C Cd) in Eq. congruence.
    - apply (TopologyProofs.key_id_inj _ _ Np) in Ek; [|apply dashless]. cbn in Ek. injection Ek as E1 E2.
      assert (Hy' : In y' (sectors_of t0 i)) by (rewrite En; apply in_or_app; now left). pose proof (proj1 (in_sectors_of _ Hr _ _) Hy') as (Ey & Sy).
      assert (Kx : k_cn (x_key x) = false) by (apply (proj1 Hsound _ _ s Ex); [rewrite Sx; exact E0|apply C]). assert (Ky : k_cn (x_key y') = false) by (apply (proj1 Hsound _ _ s Ey); [rewrite Sy; exact E0|apply C]).
      assert (x_key x = x_key y'). { unfold x_site in Sx, Sy. destruct (x_key x), (x_key y'). cbn in *. congruence. }
      assert (x = y') by (unfold x_id in Ex, Ey; congruence). subst y'. pose proof (sectors_of_nodup i) as N. rewrite En in N. apply NoDup_remove_2 in N. apply N, in_or_app. now left. }
  rewrite M1. assert (M2 : dmem (t_sites (fst st)) (x_site y) = true) by (rewrite Si1; cbn [ta set_sites t_sites]; rewrite TopologyProofs.dmem_set; unfold y, x_site, copy_key; cbn; now rewrite beq_refl).
  rewrite M2. cbn [negb ok after rbind]. eauto.
Qed.
Lemma copy_sites_total : exists st, copy_sites pop_id t0 dec = Ok st.
Proof using Hr dashless Hfree Hsound.
  pose proof (TopologyProofs.inv_reachable _ Hr) as HI. unfold copy_sites. apply (foldM_prefix_total _ (site_inv pop_id t0 dec) _ [] _).
  - intros done x rest s En Hi. cbn [app] in En. assert (Hx : In x (dkeys (t_sites t0))) by (rewrite En; apply in_or_app; right; now left).
    assert (Nd : ~ In x done) by (intros H; pose proof (TopologyProofs.iw_sites _ HI) as W; unfold dwf in W; rewrite En in W; apply NoDup_remove_2 in W; apply W, in_or_app; now left).
    destruct (copy_site_total done x s Hx Nd Hi) as (s' & E). exists s'. split; [exact E|]. apply (site_step _ dashless _ Hr _ _ _ s); auto. now apply dmem_keys.
  - split; [exact Hr|]. split; [repeat split|]. split; [intros ? ? []|]. split; [intros ? ? ? ? []|]. split; [intros i s; split; [auto|intros [H|(d & sd & [] & _)]; exact H]|].
    split; [intros k x; split; [auto|intros [H|(d & sd & y & [] & _)]; exact H]|]. split; [constructor|]. split; [intros d s; split; [discriminate|intros ([] & _)]|]. split; [discriminate|intros ? ? ? []].
Qed.

Section Links.
Variable t1 : topo.
Variable new : dict string site.
Variable X : dict string seckey.
Hypothesis Hs : site_inv pop_id t0 dec (dkeys (t_sites t0)) (t1, new, X).
Lemma key_known d sd a : chosen d sd -> k_site a = d -> (exists x, sector_stored t0 (key_id a) x) -> exists c, get X (key_id a) = Ok c.
Proof using Hs Hr.
  intros C Ka (x & Ex). pose proof (TopologyProofs.inv_reachable _ Hr) as HI. pose proof Ex as Ex'. unfold sector_stored in Ex'. apply (TopologyProofs.i_sectors _ HI) in Ex'. destruct Ex' as (Ek & Ms & _).
  assert (Nd : no_dash (k_site a)) by (rewrite Ka; destruct C as (E & _); now apply (TopologyProofs.i_sites _ HI) in E).
  apply (TopologyProofs.key_id_site_inj _ _ Nd) in Ek as Es; [|now apply (TopologyProofs.site_no_dash t0)].
  assert (M : dmem X (key_id a) = true). { destruct Hs as (_ & _ & _ & _ & _ & _ & _ & _ & _ & F). unfold sector_stored in Ex. rewrite Ek in *. apply (F d sd x); [eapply chosen_key; exact C|exact C|exact Ex|]. unfold x_site. congruence. }
  apply dmem_Some in M. destruct M as (c & M). exists c. unfold get. now rewrite M.
Qed.
Lemma between_ok (C : link -> Prop) t a b l : holds t0 t1 C t -> link_stored t0 (link_id_of a b) l -> site_stored t0 a -> site_stored t0 b -> link_between t a b = Ok l.
Proof using Hs.
  intros (R & A1 & _ & _ & A4 & _) El (sa & Ea) (sb & Eb). unfold link_between, get_link_by_site_ids. rewrite A1.
  assert (Ma : dmem (t_sites t1) a = true) by (apply dmem_Some; exists sa; apply (s_sites _ _ _ _ _ _ Hs); auto). assert (Mb : dmem (t_sites t1) b = true) by (apply dmem_Some; exists sb; apply (s_sites _ _ _ _ _ _ Hs); auto).
  rewrite Ma, Mb. cbn [andb rbind]. assert (Y : dget (t_links t) (link_id_of a b) = Some l) by (apply A4; auto). now rewrite Y.
Qed.
Lemma compat_candidate a b : a <> UNAVAILABLE -> a <> UNREACHABLE -> b <> UNAVAILABLE -> b <> UNREACHABLE -> link_compat a b CANDIDATE = true.
Proof using. destruct a, b; try congruence; reflexivity. Qed.
Lemma add_ok (C : link -> Prop) t l : holds t0 t1 C t -> site_stored t1 (l_tx l) -> site_stored t1 (l_rx l) -> exists t', after (add_link l t) = Ok t'.
Proof using.
  intros (_ & A1 & _) (sa & Ea) (sb & Eb). unfold add_link. rewrite A1. assert (Ma : dmem (t_sites t1) (l_tx l) = true) by (apply dmem_Some; eauto). assert (Mb : dmem (t_sites t1) (l_rx l) = true) by (apply dmem_Some; eauto).
  rewrite Ma, Mb. cbn [andb ok after]. eauto.
Qed.
Section One.
Variable d : string.
Variable sd : site.
Hypothesis Hc : chosen d sd.
Let p := pop_for pop_id sd.
Lemma p_stored : site_stored t1 (pop_id d).
Proof using Hs Hc. exists p. apply (s_sites _ _ _ _ _ _ Hs). right. exists d, sd. auto. Qed.
Lemma copy_out_total (C : link -> Prop) t tx n l0 : holds t0 t1 C t -> dget (t_sites t1) (s_id n) = Some n -> (s_type n <> POP -> link_stored t0 (link_id_of d (s_id n)) l0) -> exists st', copy_out X d p (t, tx) n = Ok st'.
Proof using Hs Hc Hr Hsound Husable.
  intros Hh E1 Hl. unfold copy_out. cbn [fst]. destruct (beq (s_type n) POP) eqn:Ep; [eauto|]. apply beq_false in Ep. specialize (Hl Ep).
  pose proof (old_of_not_pop _ _ _ _ _ _ Hs _ _ E1 Ep) as E0. assert (Sn : site_stored t0 (s_id n)) by now exists n. assert (Sd : site_stored t0 d) by (exists sd; apply Hc).
  rewrite (between_ok _ _ _ _ _ Hh Hl Sd Sn). cbn [rbind]. destruct (ends_old _ Hr _ _ _ Hl Sd) as (Ea & Eb).
  destruct (l_sectors l0) as [(a, b)|] eqn:Es; [|eauto]. pose proof (TopologyProofs.i_links _ (TopologyProofs.inv_reachable _ Hr) _ _ Hl) as (_ & _ & _ & Ar). unfold link_args_ok in Ar. rewrite Es in Ar. destruct Ar as (Ka & Kb).
  destruct (key_known d sd a Hc ltac:(congruence) (proj1 (proj2 (proj2 Hsound) _ _ _ _ Hl Es))) as (a' & Ga). rewrite Ga. cbn [rbind].
  apply get_ok in Ga. assert (Nda : no_dash (k_site a)) by (rewrite Ka, Ea; destruct Hc as (E & _); now apply (TopologyProofs.i_sites _ (TopologyProofs.inv_reachable _ Hr)) in E).
  pose proof (s_keys _ _ Hr _ _ _ _ Hs _ _ Nda Ga) as ->. unfold candidate_link. pose proof (p_id pop_id _ Hr _ _ _ Hc) as Pid. fold p in Pid. rewrite Pid.
  destruct (Husable d sd _ l0 n Hc Hl ltac:(congruence) ltac:(left; split; [exact Ea|now rewrite Eb])) as [H|(U1 & U2)]; [congruence|].
  assert (K1 : beq (k_site (sector_for pop_id (k_site a) a)) (pop_id d) = true) by (cbn; rewrite Ka, Ea; apply beq_refl). assert (K2 : beq (k_site b) (s_id n) = true) by (rewrite Kb, Eb; apply beq_refl).
  rewrite K1, K2. rewrite compat_candidate; [|discriminate|discriminate|exact U1|exact U2]. cbn [p pop_for s_type negb guard rbind andb]. change (beq POP CN) with false. cbn [negb guard rbind].
  match goal with |- context [add_link ?l t] => destruct (add_ok C t l Hh) as (t' & ->) end; [apply p_stored|exists n; exact E1|]. cbn [rbind]. eauto.
Qed.
Lemma copy_in_total (C : link -> Prop) t l1 n l0 : holds t0 t1 C t -> dget (t_sites t1) (s_id n) = Some n -> (s_type n <> POP -> link_stored t0 (link_id_of (s_id n) d) l0) ->
  (s_type n <> POP -> l_sectors l0 <> None -> l1 <> None) -> exists st', copy_in X d p (t, l1) n = Ok st'.
Proof using Hs Hc Hr Hsound Husable.
  intros Hh E1 Hl Htx. unfold copy_in. cbn [fst snd]. destruct (beq (s_type n) POP) eqn:Ep; [eauto|]. apply beq_false in Ep. specialize (Hl Ep). specialize (Htx Ep).
  pose proof (old_of_not_pop _ _ _ _ _ _ Hs _ _ E1 Ep) as E0. assert (Sn : site_stored t0 (s_id n)) by now exists n. assert (Sd : site_stored t0 d) by (exists sd; apply Hc).
  rewrite (between_ok _ _ _ _ _ Hh Hl Sn Sd). cbn [rbind]. destruct (ends_old _ Hr _ _ _ Hl Sn) as (Ea & Eb).
  destruct (l_sectors l0) as [(a, b)|] eqn:Es; [|eauto]. pose proof (TopologyProofs.i_links _ (TopologyProofs.inv_reachable _ Hr) _ _ Hl) as (_ & _ & _ & Ar). unfold link_args_ok in Ar. rewrite Es in Ar. destruct Ar as (Ka & Kb).
  destruct (key_known d sd b Hc ltac:(congruence) (proj2 (proj2 (proj2 Hsound) _ _ _ _ Hl Es))) as (b' & Ga). rewrite Ga. cbn [rbind].
  apply get_ok in Ga. assert (Nda : no_dash (k_site b)) by (rewrite Kb, Eb; destruct Hc as (E & _); now apply (TopologyProofs.i_sites _ (TopologyProofs.inv_reachable _ Hr)) in E).
  pose proof (s_keys _ _ Hr _ _ _ _ Hs _ _ Nda Ga) as ->. destruct l1 as [l1|]; [|now destruct Htx]. cbn [rbind]. unfold candidate_link. pose proof (p_id pop_id _ Hr _ _ _ Hc) as Pid. fold p in Pid. rewrite Pid.
  destruct (Husable d sd _ l0 n Hc Hl ltac:(congruence) ltac:(right; split; [exact Eb|now rewrite Ea])) as [H|(U1 & U2)]; [congruence|].
  assert (K1 : beq (k_site (sector_for pop_id (k_site b) b)) (pop_id d) = true) by (cbn; rewrite Kb, Eb; apply beq_refl). assert (K2 : beq (k_site a) (s_id n) = true) by (rewrite Ka, Ea; apply beq_refl).
  assert (Cn : beq (s_type n) CN = false). { apply beq_neq. apply (proj1 (proj2 Hsound) _ _ _ Hl). now rewrite Ea. }
  rewrite K1, K2, Cn. rewrite compat_candidate; [|exact U1|exact U2|discriminate|discriminate]. cbn [negb guard rbind andb].
  match goal with |- context [add_link ?l t] => destruct (add_ok C t l Hh) as (t' & ->) end; [exists n; exact E1|apply p_stored|]. cbn [rbind]. eauto.
Qed.
Lemma copy_links_total (C : link -> Prop) t tx : (forall l, C l -> l_tx l <> pop_id d /\ l_rx l <> pop_id d) -> holds t0 t1 C t -> exists st, copy_links X (t, tx) (d, p) = Ok st.
Proof using Hs Hc Hr Hsound Husable Hway Hfree.
  intros Hf Hh. unfold copy_links. cbn [fst snd].
  assert (Sd : forall t (C : link -> Prop), holds t0 t1 C t -> site_stored t d). { intros t' C' (_ & A1 & _). unfold site_stored. rewrite A1. exists sd. apply (s_sites _ _ _ _ _ _ Hs). left. apply Hc. }
  assert (Sall : forall t (C : link -> Prop) l, holds t0 t1 C t -> (NoDup l /\ forall n, In n l -> exists i, dget (t_sites t) i = Some n) -> stored_all t1 l).
  { intros t' C' l (R' & A1 & _) (Nl & Sl). split; [exact Nl|]. intros n Hn. destruct (Sl _ Hn) as (i & Ei). pose proof Ei as Ei'. apply (TopologyProofs.i_sites _ (TopologyProofs.inv_reachable _ R')) in Ei. destruct Ei as (-> & _). now rewrite <- A1. }
  assert (Old : forall t (C : link -> Prop) k l, holds t0 t1 C t -> link_stored t k l -> site_stored t0 (l_tx l) -> site_stored t0 (l_rx l) -> link_stored t0 (link_id_of (l_tx l) (l_rx l)) l).
  { intros t' C' k l (R' & A1 & _ & _ & A4 & A5) Ek (sa & Ea) (sb & Eb). apply A4 in Ek. destruct Ek as [Ek|(_ & Ek)]; [|apply A5 in Ek; destruct Ek; congruence]. apply (TopologyLemmas.link_by_ends t0 k l (TopologyProofs.inv_reachable _ Hr) Ek). }
  assert (Od : site_stored t0 d) by (exists sd; apply Hc).
  destruct (TopologyLemmas.successors_exact t d (proj1 Hh) (Sd _ _ Hh)) as (succ & Es & Nl & Il). rewrite Es. cbn [rbind].
  assert (Ss : stored_all t1 succ) by (apply (Sall t C _ Hh); split; [exact Nl|]; intros n Hn; apply Il in Hn; destruct Hn as (k & lk & _ & _ & H & _); eauto).
  assert (T1 : exists st, foldM (copy_out X d p) succ (t, tx) = Ok st).
  { apply (foldM_prefix_total _ (out_state pop_id t0 t1 d C tx) _ [] _).
    - intros done n rest (tc & txc) En Ho. cbn [app] in En. assert (Hn : In n succ) by (rewrite En; apply in_or_app; right; now left).
      assert (T : exists st', copy_out X d p (tc, txc) n = Ok st').
      { pose proof (proj2 Ss _ Hn) as En1. apply Il in Hn. destruct Hn as (k & lk & Ek & Etx & Erx & _). apply (copy_out_total _ tc txc n lk (proj1 Ho) En1).
        intros Np. pose proof (old_of_not_pop _ _ _ _ _ _ Hs _ _ En1 Np) as En0. assert (Eid : l_rx lk = s_id n) by (apply (TopologyProofs.i_sites _ (TopologyProofs.inv_reachable _ (proj1 Hh))) in Erx; symmetry; apply Erx).
        rewrite <- Etx at 1. rewrite <- Eid. apply (Old t C k lk Hh Ek); [now rewrite Etx|exists n; now rewrite Eid]. }
      destruct T as (st' & T). exists st'. split; [exact T|]. apply (out_step _ _ Hr _ _ _ _ Hs _ _ Hc C tx succ done n rest (tc, txc) st' Ss En); [intros l Hl; now apply Hf|exact Ho|exact T].
    - split; [|split; [now left|intros n []]]. cbn [fst]. apply (holds_ext _ _ C); [|exact Hh]. intros l. split; [auto|]. intros [H|(n & l0 & [] & _)]. exact H. }
  destruct T1 as ((t2 & tx2) & E1). rewrite E1. cbn [rbind]. apply (out_loop _ _ Hr _ _ _ _ Hs _ _ Hc C) in E1; [|exact Ss|intros l Hl; now apply Hf|exact Hh]. destruct E1 as (H2 & T2 & B2). cbn [fst snd] in *.
  destruct (TopologyLemmas.predecessors_exact t2 d (proj1 H2) (Sd _ _ H2)) as (pred & Ep & Np' & Ip). rewrite Ep. cbn [rbind].
  assert (Sp : stored_all t1 pred) by (apply (Sall t2 _ _ H2); split; [exact Np'|]; intros n Hn; apply Ip in Hn; destruct Hn as (k & lk & _ & _ & H & _); eauto).
  assert (Hf2 : forall l, C l \/ outs pop_id t0 d succ l -> l_rx l <> pop_id d).
  { intros l [H|(n & l0 & Hn & Npo & El & a & b & n' & _ & En & ->)]; [now apply Hf|]. cbn. intros Eq. rewrite Eq in En. rewrite (proj1 Hfree _ _ Hc) in En. discriminate. }
  apply (foldM_prefix_total _ (in_state pop_id t0 t1 d (fun l => C l \/ outs pop_id t0 d succ l) tx2) _ [] _).
  - intros done n rest (tc & txc) En Ho. cbn [app] in En. assert (Hn : In n pred) by (rewrite En; apply in_or_app; right; now left).
    assert (T : exists st', copy_in X d p (tc, txc) n = Ok st').
    { pose proof (proj2 Sp _ Hn) as En1. apply Ip in Hn. destruct Hn as (k & lk & Ek & Erx & Etx & _). assert (Eid : l_tx lk = s_id n) by (apply (TopologyProofs.i_sites _ (TopologyProofs.inv_reachable _ (proj1 H2))) in Etx; symmetry; apply Etx).
      assert (Lk : s_type n <> POP -> link_stored t0 (link_id_of (s_id n) d) lk).
      { intros Np. pose proof (old_of_not_pop _ _ _ _ _ _ Hs _ _ En1 Np) as En0. rewrite <- Erx at 1. rewrite <- Eid. apply (Old t2 _ k lk H2 Ek); [exists n; now rewrite Eid|now rewrite Erx]. }
      apply (copy_in_total _ tc txc n lk (proj1 Ho) En1 Lk). intros Np Ns. destruct Ho as (_ & Ht & _). cbn in Ht. rewrite Ht.
      assert (Il0 : in_link t0 d lk). { split; [eexists; apply Lk, Np|]. split; [exact Erx|]. exists n. split; [rewrite Eid; apply (old_of_not_pop _ _ _ _ _ _ Hs _ _ En1 Np)|exact Np]. }
      destruct (Hway d sd lk Hc Il0 Ns) as (lo & (ko & Eo) & Eto & m & Em & Nm). apply (B2 m); [|exact Nm]. apply Il. exists ko, lo. destruct Hh as (_ & A1 & _ & _ & A4 & _). split; [apply A4; auto|]. split; [exact Eto|]. split; [|discriminate]. rewrite A1. apply (s_sites _ _ _ _ _ _ Hs). auto. }
    destruct T as (st' & T). exists st'. split; [exact T|]. apply (in_step _ _ Hr _ _ _ _ Hs _ _ Hc _ tx2 pred done n rest (tc, txc) st' Sp En Hf2 Ho T).
  - split; [|split; [reflexivity|intros n l0 []]]. cbn [fst]. apply (holds_ext _ _ (fun l => C l \/ outs pop_id t0 d succ l)); [|exact H2]. intros l. split; [auto|]. intros [H|(w & _ & n & l0 & [] & _)]. exact H.
Qed.
End One.
End Links.

Lemma dup_returns : exists t', add_duplicate_pops pop_id t0 dec = Ok t'.
Proof using Hr dashless Hfree Hsound Husable Hway.
  unfold add_duplicate_pops. destruct copy_sites_total as (((t1 & new) & X) & E1). rewrite E1. cbn [rbind]. pose proof (copy_sites_ok _ dashless _ Hr _ _ E1) as Hs.
  assert (T : exists st, foldM (copy_links X) new (t1, None) = Ok st).
  { apply (foldM_prefix_total _ (all_state pop_id t0 dec t1) _ [] _); [|exact (all_start _ _ _ _ _ _ Hs)]. intros done (d & s) rest (t & tx) En Ha. cbn [app] in En.
    assert (T : exists st', copy_links X (t, tx) (d, s) = Ok st').
    { assert (Wn : dwf new) by apply Hs. assert (Ed : dget new d = Some s) by (apply (In_dget _ _ _ Wn); rewrite En; apply in_or_app; right; now left).
      apply (s_new _ _ _ _ _ _ Hs) in Ed. destruct Ed as (sd & C & ->). assert (Nd : ~ In d (map fst done)). { intros H. unfold dwf, dkeys in Wn. rewrite En, map_app in Wn. cbn in Wn. apply NoDup_remove_2 in Wn. apply Wn, in_or_app. now left. }
      destruct Ha as (w & Hh & _). apply (copy_links_total _ _ _ Hs d sd C _ t tx (fun l => copies_elsewhere _ _ _ _ _ _ Hs w _ d sd l C Nd) Hh). }
    destruct T as (st' & T). exists st'. split; [exact T|]. apply (all_step _ _ Hr _ _ _ _ Hs done (d, s) rest _ _ En Ha T). }
  destruct T as (st & E2). rewrite E2. cbn [rbind]. unfold connect_demands. destruct (all_ok _ _ Hr _ _ _ _ Hs _ E2) as (w & (R & A1 & _) & _).
  match goal with |- context [DemandModel.connect_demand_to_colocated_sites ?a ?b ?c] => destruct (DemandFinalProofs.colocated_total a b c) as (D & ->) end; [|cbn [rbind]; eauto].
  intros i l j El Hj. fold (pairs new) in El. apply (pairs_get _ _ Hr _ _ _ _ Hs) in El. destruct El as (sd & C & ->). destruct Hj as [<-|[]]. rewrite A1. apply dmem_Some. exists (pop_for pop_id sd). apply (s_sites _ _ _ _ _ _ Hs). right. exists i, sd. auto.
Qed.
End Returns.
