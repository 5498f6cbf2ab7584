(** The access network of the POP proposal. *)
From Coq Require Import QArith ZArith Lia Permutation.
From Verif Require Import Base Dict TopologyModel TopologySpec StatusModel GraphModel GraphSpec GraphProofs SetupModel IlpModel IlpSpec.
From Verif Require TopologyProofs TopologyLemmas TopologyQueryProofs OpsColocProofs ApplyProofs.
From Verif Require Import MonadLib PopModel PopSpec.
Local Open Scope list_scope.

Lemma has_type_iff t ty i : has_type t ty i = true <-> exists s, dget (t_sites t) i = Some s /\ s_type s = ty.
Proof.
  unfold has_type. destruct (dget (t_sites t) i) as [s|].
  - split; [intros H; apply beq_true in H; exists s; now split|intros (s' & E & H); injection E as <-; now apply beq_eq].
  - split; [discriminate|intros (s' & E & _); discriminate].
Qed.
Lemma at_loc_In t c i : well_formed t -> (In i (TopologyQueryProofs.at_loc c (t_sites t)) <-> exists s, dget (t_sites t) i = Some s /\ s_loc s = c).
Proof.
  intros W. unfold TopologyQueryProofs.at_loc. rewrite in_map_iff. destruct W as (W1 & _). split.
  - intros ([k s] & <- & H). apply filter_In in H. destruct H as (H & E). apply beq_true in E. exists s. split; [now apply In_dget|exact E].
  - intros (s & E & L). exists (i, s). split; [reflexivity|]. apply filter_In. split; [now apply dget_In|]. cbn. now apply beq_eq.
Qed.
Lemma dns_on_pops_iff t i : well_formed t -> (In i (dns_on_pops t) <-> exists s, dget (t_sites t) i = Some s /\ s_type s = DN /\ pop_at t s).
Proof.
  intros W. unfold dns_on_pops. rewrite in_flat_map. split.
  - intros (ids & Hg & Hi). apply (OpsColocProofs.groups_In t) in Hg. destruct Hg as (c & -> & _).
    destruct (existsb _ _) eqn:E; [|destruct Hi]. apply existsb_exists in E. destruct E as (j & Hj & Tj). apply has_type_iff in Tj. destruct Tj as (sj & Ej & Tj).
    apply filter_In in Hi. destruct Hi as (Hi & Ti). apply has_type_iff in Ti. destruct Ti as (s & Es & Ts). exists s. split; [exact Es|]. split; [exact Ts|].
    apply (at_loc_In t c _ W) in Hi, Hj. destruct Hi as (s1 & E1 & L1), Hj as (s2 & E2 & L2). exists j, sj. unfold same_place. split; [exact Ej|]. split; [exact Tj|congruence].
  - intros (s & Es & Ts & j & sj & Ej & Tj & L). assert (Hi : In i (TopologyQueryProofs.at_loc (s_loc s) (t_sites t))) by (apply (at_loc_In t _ _ W); eauto).
    exists (TopologyQueryProofs.at_loc (s_loc s) (t_sites t)). split.
    + apply (OpsColocProofs.groups_In t). exists (s_loc s). split; [reflexivity|]. intros N. rewrite N in Hi. exact Hi.
    + replace (existsb _ _) with true; [apply filter_In; split; [exact Hi|apply has_type_iff; eauto]|]. symmetry. apply existsb_exists. exists j.
      split; [apply (at_loc_In t _ _ W); eauto|apply has_type_iff; eauto].
Qed.

Lemma access_site_keeps on s : s_id (access_site on s) = s_id s /\ s_status (access_site on s) = s_status s /\ s_loc (access_site on s) = s_loc s /\
  s_polarity (access_site on s) = s_polarity s /\ s_detected (access_site on s) = s_detected s.
Proof. unfold access_site. destruct (_ && _); repeat split. Qed.
Lemma access_sites_get t i : dget (access_sites t) i = option_map (access_site (dns_on_pops t)) (dget (t_sites t) i).
Proof. unfold access_sites. induction (t_sites t) as [|[k s] r IH]; cbn; [reflexivity|]. now destruct (beq i k). Qed.
Lemma access_sites_keys t : dkeys (access_sites t) = dkeys (t_sites t).
Proof. unfold access_sites, dkeys. rewrite map_map. reflexivity. Qed.
Lemma access_site_type t i s : well_formed t -> dget (t_sites t) i = Some s ->
  (eligible t i -> s_type (access_site (dns_on_pops t) s) = POP) /\ (~ eligible t i -> s_type (access_site (dns_on_pops t) s) = s_type s).
Proof.
  intros W Es. assert (Ei : s_id s = i) by (destruct W as (_ & _ & _ & _ & _ & (C1 & _)); now apply C1 in Es). unfold access_site. rewrite Ei. split.
  - intros (s' & Es' & Ts & N). rewrite Es in Es'. injection Es' as <-. rewrite Ts. destruct (mem i (dns_on_pops t)) eqn:M; [|reflexivity].
    exfalso. apply mem_In, (dns_on_pops_iff t i W) in M. destruct M as (s' & Es' & _ & Hp). rewrite Es in Es'. injection Es' as <-. now apply N.
  - intros N. destruct (beq (s_type s) DN) eqn:B; [|reflexivity]. apply beq_true in B. destruct (mem i (dns_on_pops t)) eqn:M; [reflexivity|]. exfalso. apply N.
    exists s. split; [exact Es|]. split; [exact B|]. intros Hp. apply mem_not_In in M. apply M. apply (dns_on_pops_iff t i W). eauto.
Qed.

(** changing what a site is, not its name, keeps the tables in order *)
Lemma inv_sites t f : (forall s, s_id (f s) = s_id s) -> TopologyProofs.Inv t ->
  TopologyProofs.Inv (set_sites t (map (fun p => (fst p, f (snd p))) (t_sites t))).
Proof.
  intros F H. assert (G : forall i, dget (map (fun p => (fst p, f (snd p))) (t_sites t)) i = option_map f (dget (t_sites t) i)).
  { intros i. induction (t_sites t) as [|[k s] r IH]; cbn; [reflexivity|]. now destruct (beq i k). }
  assert (M : forall i, dmem (map (fun p => (fst p, f (snd p))) (t_sites t)) i = dmem (t_sites t) i).
  { intros i. unfold dmem. rewrite G. now destruct (dget (t_sites t) i). }
  destruct H; constructor; cbn [set_sites t_sites t_demands t_sectors t_links t_secidx t_conn t_rconn]; auto.
  - unfold dwf, dkeys. rewrite map_map. exact iw_sites.
  - intros i s. rewrite G. destruct (dget (t_sites t) i) as [s0|] eqn:E; [|discriminate]. intros E'. injection E' as <-. rewrite F. now apply i_sites.
  - intros k l El. rewrite !M. now apply i_links.
  - intros i x Ex. rewrite M. now apply i_sectors.
Qed.

Lemma backhaul_view t : reachable t -> exists t0, backhaul_removed t = Ok t0 /\ TopologyProofs.Inv t0 /\ access_view t t0.
Proof.
  intros R. pose proof (TopologyProofs.inv_reachable t R) as HI. pose proof (wf_reachable t R) as W.
  unfold backhaul_removed. set (t1 := set_sites t (access_sites t)).
  assert (I1 : TopologyProofs.Inv t1). { unfold t1, access_sites. apply inv_sites; [|exact HI]. intros s. apply access_site_keeps. }
  assert (W1 : well_formed t1) by now apply wf_inv.
  assert (T1 : forall i, dget (t_sites t1) i = option_map (access_site (dns_on_pops t)) (dget (t_sites t) i)) by (intros i; apply access_sites_get).
  assert (RX : forall k l, dget (t_links t) k = Some l -> exists s, dget (t_sites t) (l_rx l) = Some s).
  { intros k l El. destruct W as (_ & _ & _ & _ & _ & (_ & C2 & _)). destruct (C2 k l El) as (_ & _ & H). exact H. }
  assert (CNs : forall i s, dget (t_sites t) i = Some s -> (s_type (access_site (dns_on_pops t) s) = CN <-> s_type s = CN)).
  { intros i s Es. unfold access_site. destruct (beq (s_type s) DN) eqn:B; [|reflexivity]. apply beq_true in B. destruct (negb _); cbn; [|reflexivity]. rewrite B. split; discriminate. }
  assert (FM : exists ls, filterM (fun p : string * link => do s <- lookup_site t1 (l_rx (snd p)) ; Ok (negb (beq (s_type s) CN))) (t_links t) = Ok ls).
  { assert (X : forall p, In p (t_links t) -> exists b, (do s <- lookup_site t1 (l_rx (snd p)) ; Ok (negb (beq (s_type s) CN))) = Ok b).
    { intros [k l] Hp. destruct W as (_ & W2 & _). apply In_dget in Hp; [|exact W2]. destruct (RX k l Hp) as [s Es]. cbn. unfold lookup_site. rewrite T1, Es. cbn. eauto. }
    revert X. generalize (t_links t). intros ls. induction ls as [|p r IH]; intros X; cbn; [eauto|]. destruct (X p (or_introl eq_refl)) as [b Eb]. rewrite Eb. cbn [rbind].
    destruct IH as [r' Er]; [intros q Hq; apply X; now right|]. rewrite Er. cbn. eauto. }
  unfold links_to_delete. change (t_links t1) with (t_links t). destruct FM as [ls Els]. rewrite Els. cbn [rbind].
  destruct (filterM_ok _ _ _ Els) as (Fnd & FIn & Fall).
  assert (KL : forall k l, In (k, l) ls -> k = l_id l /\ dget (t_links t) k = Some l).
  { intros k l H. apply FIn in H. destruct H as (H & _). destruct W as (_ & W2 & _). apply In_dget in H; [|exact W2]. split; [|exact H]. now destruct (TopologyProofs.i_links t HI k l H) as (E & _). }
  assert (Del : forall k, In k (map (fun p : string * link => l_id (snd p)) ls) <-> exists l s, dget (t_links t) k = Some l /\ dget (t_sites t) (l_rx l) = Some s /\ s_type s <> CN).
  { intros k. rewrite in_map_iff. split.
    - intros ([k' l] & <- & H). pose proof (KL k' l H) as (Ek & El). cbn. rewrite <- Ek. apply FIn in H. destruct H as (_ & H). cbn in H. destruct (RX k' l El) as [s Es]. exists l, s. split; [exact El|]. split; [exact Es|].
      unfold lookup_site in H. rewrite T1, Es in H. cbn in H. injection H as H. intros N. apply (CNs _ _ Es) in N. rewrite N in H. discriminate.
    - intros (l & s & El & Es & N). exists (k, l). split; [symmetry; cbn; now destruct (TopologyProofs.i_links t HI k l El)|]. apply FIn. split; [now apply dget_In|]. cbn. unfold lookup_site. rewrite T1, Es. cbn. f_equal.
      destruct (beq_spec (s_type (access_site (dns_on_pops t) s)) CN) as [E|E]; [|reflexivity]. exfalso. apply N. now apply (CNs _ _ Es). }
  set (ks := map (fun p : string * link => l_id (snd p)) ls) in *.
  assert (ND : NoDup ks).
  { assert (L : NoDup (map fst ls)).
    { assert (G : forall (f : string * link -> result bool) a b, filterM f a = Ok b -> NoDup (map fst a) -> NoDup (map fst b)).
      { intros f. induction a as [|p r IH]; intros b E; cbn in E; [injection E as <-; auto|]. destruct (f p) as [x|]; [|discriminate]. cbn in E. destruct (filterM f r) as [r'|] eqn:Er; [|discriminate]. cbn in E. injection E as <-.
        intros N. inversion_clear N as [|? ? N1 N2]. specialize (IH r' eq_refl N2). destruct x; [|exact IH]. cbn. constructor; [|exact IH]. intros Hin. apply N1. apply in_map_iff in Hin. destruct Hin as (q & Eq & Hq). apply in_map_iff. exists q. split; [exact Eq|]. now apply (filterM_ok _ _ _ Er). }
      eapply G; [exact Els|]. apply W. }
    replace ks with (map fst ls); [exact L|]. unfold ks. apply map_ext_in. intros [k l] H. cbn. now apply KL in H. }
  destruct (TopologyProofs.remove_links_ok ks t1 I1) as (HO & HG). destruct (TopologyProofs.remove_links_inv ks t1 I1) as (I2 & Same).
  assert (HOk : fst (remove_links ks t1) = Ok tt).
  { apply HO. split; [exact ND|]. intros k Hk. apply Del in Hk. destruct Hk as (l & _ & El & _). unfold dmem. change (t_links t1) with (t_links t). now rewrite El. }
  specialize (HG HOk). destruct (remove_links ks t1) as [r t2] eqn:Er. cbn [fst snd] in *. subst r. cbn [after].
  exists t2. split; [reflexivity|]. split; [exact I2|]. destruct Same as (S1 & S2 & S3 & S4). split; [|split; [|split; [|split]]].
  - rewrite S1. apply access_sites_keys.
  - first [exact S2|exact S3|exact S4].
  - first [exact S2|exact S3|exact S4].
  - intros i s Es. exists (access_site (dns_on_pops t) s). rewrite S1. change (t_sites t1) with (access_sites t). rewrite access_sites_get, Es. split; [reflexivity|].
    destruct (access_site_keeps (dns_on_pops t) s) as (A1 & A2 & A3 & A4 & A5). rewrite A1, A2, A3, A4, A5. do 5 (split; [reflexivity|]). now apply access_site_type.
  - intros k l. unfold link_stored. rewrite HG. change (t_links t1) with (t_links t). destruct (mem k ks) eqn:M.
    + split; [discriminate|]. intros (El & s & Es & Ts). exfalso. apply mem_In, Del in M. destruct M as (l' & s' & El' & Es' & Ts'). congruence.
    + split; [|tauto]. intros El. split; [exact El|]. destruct (RX k l El) as [s Es]. exists s. split; [exact Es|]. destruct (eqb_dec (s_type s) CN) as [E|E]; [exact E|]. exfalso. apply mem_not_In in M. apply M, Del. exists l, s. auto.
Qed.

Lemma access_ok t : reachable t -> exists t0, access_view t t0 /\ well_formed t0 /\
  ((exists ta, access_topology t = Ok ta /\ marked_exactly None t0 ta /\ markable None t0) \/ (access_topology t = Err TopologyExn /\ ~ markable None t0)).
Proof.
  intros R. destruct (backhaul_view t R) as (t0 & E & I0 & V). assert (W0 := wf_inv t0 I0). exists t0. split; [exact V|]. split; [exact W0|].
  unfold access_topology. rewrite E. cbn [rbind]. destruct (mark_returns_iff None t0 W0) as (M1 & M2). pose proof (mark_exact None t0 W0) as M3.
  destruct (mark_unreachable_components None t0) as [[[]|e] ta] eqn:Em; cbn [fst after] in *.
  - left. exists ta. split; [reflexivity|]. split; [now apply M3|now apply M1].
  - right. assert (N : ~ markable None t0) by (intros X; apply M1 in X; discriminate). split; [|exact N]. apply M2 in N. congruence.
Qed.
