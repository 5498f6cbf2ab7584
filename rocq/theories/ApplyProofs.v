(** Proofs for C39. *)
From Verif Require Import Base Dict TopologyModel TopologySpec TopologyProofs StatusModel GraphModel GraphSpec GraphProofs ApplyModel ApplySpec.
Local Open Scope string_scope.
Local Open Scope list_scope.

Definition mapk {V} (f : string -> V -> V) (d : dict string V) : dict string V := map (fun p => (fst p, f (fst p) (snd p))) d.
Definition upd {V} (D : list string) (f : string -> V -> V) : string -> V -> V := fun j u => if mem j D then f j u else u.
Lemma mapk_get {V} (f : string -> V -> V) d i : dget (mapk f d) i = option_map (f i) (dget d i).
Proof. apply dget_mapk. Qed.
Lemma mapk_keys {V} (f : string -> V -> V) d : dkeys (mapk f d) = dkeys d.
Proof. apply dkeys_mapk. Qed.
Lemma mapk_id {V} (f : string -> V -> V) d : (forall k v, dget d k = Some v -> f k v = v) -> dwf d -> mapk f d = d.
Proof.
  intros Hf W. unfold mapk. rewrite <- (map_id d) at 2. apply map_ext_in. intros [k v] Hin. cbn. f_equal. apply Hf. now apply In_dget.
Qed.
Lemma mapk_ext {V} (f g : string -> V -> V) d : dwf d -> (forall k v, dget d k = Some v -> f k v = g k v) -> mapk f d = mapk g d.
Proof. intros W Hf. unfold mapk. apply map_ext_in. intros [k v] Hin. cbn. f_equal. apply Hf. now apply In_dget. Qed.
Lemma mapk_mapk {V} (f g : string -> V -> V) d : mapk f (mapk g d) = mapk (fun k v => f k (g k v)) d.
Proof. unfold mapk. rewrite map_map. reflexivity. Qed.

Section Loop.
Context {V : Type}.
Variables (get : topo -> dict string V) (put : topo -> dict string V -> topo) (step : string -> topo -> outcome) (f : string -> V -> V) (good : string -> V -> bool) (t : topo) (e : exn).
Hypothesis W : dwf (get t).
Hypothesis yes : forall d k v, dget (get t) k = Some v -> dget d k = Some v -> good k v = true -> step k (put t d) = ok (put t (dset d k (f k v))).
Hypothesis no : forall d k v, dget (get t) k = Some v -> dget d k = Some v -> good k v = false -> fst (step k (put t d)) = Err e.
Definition goodb (k : string) : bool := match dget (get t) k with Some v => good k v | None => true end.
Lemma loop ks : forall D, NoDup ks -> (forall k, In k ks -> ~ In k D) -> (forall k, In k ks -> In k (dkeys (get t))) ->
  if forallb goodb ks then for_each step ks (put t (mapk (upd D f) (get t))) = ok (put t (mapk (upd (D ++ ks) f) (get t)))
  else fst (for_each step ks (put t (mapk (upd D f) (get t)))) = Err e.
Proof.
  induction ks as [|k ks IH]; intros D N HD Hin; cbn [forallb for_each]; [now rewrite app_nil_r|]. inversion N as [|? ? Nk N']; subst.
  assert (Hk : In k (dkeys (get t))) by (apply Hin; now left). apply dmem_keys, dmem_Some in Hk. destruct Hk as [v Ev].
  assert (Ed : dget (mapk (upd D f) (get t)) k = Some v). { rewrite mapk_get, Ev. cbn. unfold upd. rewrite (proj2 (mem_not_In _ _)); [reflexivity|]. apply HD. now left. }
  unfold goodb at 1. rewrite Ev. destruct (good k v) eqn:Eg; cbn [andb].
  - rewrite (yes _ _ _ Ev Ed Eg), andthen_ok.
    assert (Es : dset (mapk (upd D f) (get t)) k (f k v) = mapk (upd (D ++ [k]) f) (get t)).
    { unfold mapk. eapply (dset_mapk _ (upd (D ++ [k]) f)); [exact W|exact Ev| |].
      - unfold upd. rewrite mem_app. cbn. rewrite beq_refl. now rewrite orb_true_r.
      - intros j u Hj. unfold upd. rewrite mem_app. cbn. destruct (beq_spec j k); [congruence|]. now rewrite !orb_false_r. }
    rewrite Es. specialize (IH (D ++ [k]) N'). rewrite <- app_assoc in IH. cbn [app] in IH. apply IH.
    + intros j Hj Hd. apply in_app_iff in Hd. destruct Hd as [Hd|[->|[]]]; [|contradiction]. apply (HD j); [now right|exact Hd].
    + intros j Hj. apply Hin. now right.
  - apply andthen_err. eapply no; eauto.
Qed.
Lemma loop_all : put t (get t) = t ->
  if forallb goodb (dkeys (get t)) then for_each step (dkeys (get t)) t = ok (put t (mapk f (get t)))
  else fst (for_each step (dkeys (get t)) t) = Err e.
Proof.
  intros Hp. pose proof (loop (dkeys (get t)) [] W (fun _ _ X => X) (fun _ X => X)) as L. cbn [app] in L.
  assert (E0 : mapk (upd [] f) (get t) = get t) by (apply mapk_id; [reflexivity|exact W]). rewrite E0, Hp in L.
  assert (E1 : mapk (upd (dkeys (get t)) f) (get t) = mapk f (get t)). { apply mapk_ext; [exact W|]. intros k v E. unfold upd. assert (M : mem k (dkeys (get t)) = true) by (apply mem_In; apply In_dkeys; eauto). now rewrite M. }
  rewrite E1 in L. exact L.
Qed.
End Loop.

(** ** the three first loops *)
Section Apply.
Variable p : plan.
Definition new_status (st : status) (d : Z) : status := if frozen st then st else chosen d.
Definition new_site (i : string) (s : site) : site :=
  with_polarity (with_site_status s (new_status (s_status s) (decision (p_sites p) i))) (if Z.eqb (decision (p_odd p) i) 1 then ODD else if Z.eqb (decision (p_even p) i) 1 then EVEN else UNASSIGNED).
Definition new_sector (k : string) (x : sector) : sector := with_sector_status x (new_status (x_status x) (decision (p_sectors p) (x_site x, k))).
Definition new_link (k : string) (l : link) : link := with_link_status l (new_status (l_status l) (decision (p_links p) (l_tx l, l_rx l))).
Definition sited (t : topo) : topo := set_sites t (mapk new_site (t_sites t)).
Definition sectored (t : topo) : topo := set_sectors t (mapk new_sector (t_sectors t)).
Definition linked (t : topo) : topo := set_links t (mapk new_link (t_links t)).

Lemma chosen_mut d : immutable (chosen d) = false. Proof. unfold chosen. now destruct (Z.eqb d 1). Qed.
Lemma frozen_imm st : frozen st = false -> immutable st = false. Proof. unfold frozen. now destruct (immutable st). Qed.
Lemma assign_chosen st d : frozen st = false -> assign_ok st (chosen d) = true.
Proof. intros F. unfold assign_ok. now rewrite (frozen_imm _ F), chosen_mut. Qed.
Lemma with_site_same s : with_site_status s (s_status s) = s. Proof. now destruct s. Qed.
Lemma with_sector_same x : with_sector_status x (x_status x) = x. Proof. now destruct x. Qed.
Lemma with_link_same l : with_link_status l (l_status l) = l. Proof. now destruct l. Qed.
Lemma dset_same {V} (d : dict string V) k v : dget d k = Some v -> dset d k v = d.
Proof.
  induction d as [|[j u] r IH]; cbn; [discriminate|]. destruct (beq_spec k j) as [->|]; [intros E; injection E as ->; reflexivity|]. intros E. now rewrite IH.
Qed.
Lemma dset_dset {V} (d : dict string V) k u v : dset (dset d k u) k v = dset d k v.
Proof.
  induction d as [|[j w] r IH]; cbn; [now rewrite beq_refl|]. destruct (beq k j) eqn:E; cbn; rewrite ?beq_refl, ?E; [reflexivity|]. now rewrite IH.
Qed.

Definition good_site (i : string) (_ : site) : bool := negb (Z.eqb (decision (p_odd p) i) 1 && Z.eqb (decision (p_even p) i) 1).
Lemma sites_loop t : dwf (t_sites t) ->
  if forallb (goodb t_sites good_site t) (dkeys (t_sites t)) then for_each (update_site p) (dkeys (t_sites t)) t = ok (sited t)
  else fst (for_each (update_site p) (dkeys (t_sites t)) t) = Err OptExn.
Proof.
  intros W. apply (loop_all t_sites set_sites (update_site p) new_site good_site t OptExn W).
  - intros d i s _ Es Hg. unfold update_site. change (t_sites (set_sites t d)) with d. rewrite Es. unfold good_site in Hg. apply negb_true_iff in Hg.
    destruct (frozen (s_status s)) eqn:F; [rewrite andthen_ok; change (t_sites (set_sites t d)) with d; rewrite Hg, Es; unfold new_site, new_status; rewrite F, with_site_same; reflexivity|].
    unfold set_site_status. change (t_sites (set_sites t d)) with d. rewrite Es, (assign_chosen _ _ F), andthen_ok, Hg. cbn [t_sites set_sites]. rewrite dget_set_eq, dset_dset. unfold new_site, new_status. rewrite F. reflexivity.
  - intros d i s _ Es Hg. unfold update_site. change (t_sites (set_sites t d)) with d. rewrite Es. unfold good_site in Hg. apply negb_false_iff in Hg.
    destruct (frozen (s_status s)) eqn:F; [rewrite andthen_ok, Hg; reflexivity|]. unfold set_site_status. change (t_sites (set_sites t d)) with d. now rewrite Es, (assign_chosen _ _ F), andthen_ok, Hg.
  - now destruct t.
Qed.

Definition good_sector (t : topo) (k : string) (x : sector) : bool :=
  frozen (x_status x) || match dget (t_sites t) (x_site x) with Some s => sector_compat (s_status s) (chosen (decision (p_sectors p) (x_site x, k))) | None => false end.
Lemma wf_sector t k x : well_formed t -> dget (t_sectors t) k = Some x -> exists s, dget (t_sites t) (x_site x) = Some s.
Proof. intros (_ & _ & _ & _ & _ & (_ & _ & C)) E. now destruct (C k x E). Qed.
Lemma wf_link t k l : well_formed t -> dget (t_links t) k = Some l -> exists a b, dget (t_sites t) (l_tx l) = Some a /\ dget (t_sites t) (l_rx l) = Some b.
Proof. intros (_ & _ & _ & _ & _ & (_ & C & _)) E. destruct (C k l E) as (_ & [a Ea] & [b Eb]). eauto. Qed.
Lemma sectors_loop t : well_formed t ->
  if forallb (goodb t_sectors (good_sector t) t) (dkeys (t_sectors t)) then for_each (update_sector p) (dkeys (t_sectors t)) t = ok (sectored t)
  else fst (for_each (update_sector p) (dkeys (t_sectors t)) t) = Err TopologyExn.
Proof.
  intros Wf. assert (W : dwf (t_sectors t)) by apply Wf. apply (loop_all t_sectors set_sectors (update_sector p) new_sector (good_sector t) t TopologyExn W).
  - intros d k x E0 E Hg. destruct (wf_sector _ _ _ Wf E0) as [s Es]. unfold good_sector in Hg. rewrite Es in Hg. unfold update_sector. change (t_sectors (set_sectors t d)) with d. rewrite E.
    unfold new_sector, new_status. destruct (frozen (x_status x)) eqn:F; [rewrite with_sector_same, (dset_same _ _ _ E); reflexivity|].
    cbn [orb] in Hg. unfold set_sector_status. change (t_sectors (set_sectors t d)) with d. rewrite E. change (t_sites (set_sectors t d)) with (t_sites t). rewrite Es, (assign_chosen _ _ F), Hg. reflexivity.
  - intros d k x E0 E Hg. destruct (wf_sector _ _ _ Wf E0) as [s Es]. unfold good_sector in Hg. rewrite Es in Hg. apply orb_false_iff in Hg. destruct Hg as [F Hg]. unfold update_sector. change (t_sectors (set_sectors t d)) with d. rewrite E, F.
    unfold set_sector_status. change (t_sectors (set_sectors t d)) with d. rewrite E. change (t_sites (set_sectors t d)) with (t_sites t). rewrite Es, Hg, andb_false_r. reflexivity.
  - now destruct t.
Qed.
Definition good_link (t : topo) (k : string) (l : link) : bool :=
  frozen (l_status l) || match dget (t_sites t) (l_tx l), dget (t_sites t) (l_rx l) with Some a, Some b => link_compat (s_status a) (s_status b) (chosen (decision (p_links p) (l_tx l, l_rx l))) | _, _ => false end.
Lemma links_loop t : well_formed t ->
  if forallb (goodb t_links (good_link t) t) (dkeys (t_links t)) then for_each (update_link p) (dkeys (t_links t)) t = ok (linked t)
  else fst (for_each (update_link p) (dkeys (t_links t)) t) = Err TopologyExn.
Proof.
  intros Wf. assert (W : dwf (t_links t)) by apply Wf. apply (loop_all t_links set_links (update_link p) new_link (good_link t) t TopologyExn W).
  - intros d k l E0 E Hg. destruct (wf_link _ _ _ Wf E0) as (a & b & Ea & Eb). unfold good_link in Hg. rewrite Ea, Eb in Hg. unfold update_link. change (t_links (set_links t d)) with d. rewrite E.
    unfold new_link, new_status. destruct (frozen (l_status l)) eqn:F; [rewrite with_link_same, (dset_same _ _ _ E); reflexivity|].
    cbn [orb] in Hg. unfold set_link_status. change (t_links (set_links t d)) with d. rewrite E. change (t_sites (set_links t d)) with (t_sites t). rewrite Ea, Eb, (assign_chosen _ _ F), Hg. reflexivity.
  - intros d k l E0 E Hg. destruct (wf_link _ _ _ Wf E0) as (a & b & Ea & Eb). unfold good_link in Hg. rewrite Ea, Eb in Hg. apply orb_false_iff in Hg. destruct Hg as [F Hg]. unfold update_link. change (t_links (set_links t d)) with d. rewrite E, F.
    unfold set_link_status. change (t_links (set_links t d)) with d. rewrite E. change (t_sites (set_links t d)) with (t_sites t). rewrite Ea, Eb, Hg, andb_false_r. reflexivity.
  - now destruct t.
Qed.
End Apply.

(** ** well-formedness is kept by anything that keeps the shape *)
Lemma shape_back_site t t' i s' : same_shape t t' -> dget (t_sites t') i = Some s' -> exists s, dget (t_sites t) i = Some s.
Proof. intros (K & _) E. assert (X : In i (dkeys (t_sites t))) by (rewrite <- K; apply In_dkeys; eauto). apply dmem_keys, dmem_Some in X. exact X. Qed.
Lemma shape_wf t t' : same_shape t t' -> well_formed t -> well_formed t'.
Proof.
  intros S. pose proof S as (K1 & K2 & K3 & K4 & K5 & K6 & K7 & F1 & F2 & F3). intros (W1 & W2 & W3 & W4 & (I1 & I2) & (C1 & C2 & C3)).
  assert (B2 : forall k l', dget (t_links t') k = Some l' -> exists l, dget (t_links t) k = Some l /\ l_tx l' = l_tx l /\ l_rx l' = l_rx l).
  { intros k l' E. assert (X : In k (dkeys (t_links t))) by (rewrite <- K2; apply In_dkeys; eauto). apply dmem_keys, dmem_Some in X. destruct X as [l El]. exists l. split; [exact El|]. destruct (F2 k l El) as (l2 & E2 & A & B & _). rewrite E in E2. injection E2 as ->. now split. }
  assert (B3 : forall k x', dget (t_sectors t') k = Some x' -> exists x, dget (t_sectors t) k = Some x /\ x_key x' = x_key x).
  { intros k x' E. assert (X : In k (dkeys (t_sectors t))) by (rewrite <- K3; apply In_dkeys; eauto). apply dmem_keys, dmem_Some in X. destruct X as [x Ex]. exists x. split; [exact Ex|]. destruct (F3 k x Ex) as (x2 & E2 & A). rewrite E in E2. injection E2 as ->. exact A. }
  assert (St : forall i, site_stored t i -> site_stored t' i). { intros i [s Es]. destruct (F1 i s Es) as (s' & Es' & _). now exists s'. }
  assert (Lk : forall a b k, (exists l, link_stored t k l /\ l_tx l = a /\ l_rx l = b) <-> exists l, link_stored t' k l /\ l_tx l = a /\ l_rx l = b).
  { intros a b k. split; intros (l & El & A & B).
    - destruct (F2 k l El) as (l' & El' & A' & B' & _). exists l'. split; [exact El'|]. split; congruence.
    - destruct (B2 k l El) as (l0 & El0 & A' & B'). exists l0. split; [exact El0|]. split; congruence. }
  unfold well_formed, dwf in *. rewrite K1, K2, K3, K4. split; [exact W1|]. split; [exact W2|]. split; [exact W3|]. split; [exact W4|]. split; [|split; [|split]].
  - unfold link_indexes_agree. rewrite K6, K7. split; intros a b k; rewrite <- Lk; [apply I1|apply I2].
  - intros i s' E. destruct (shape_back_site t t' i s' S E) as [s Es]. destruct (F1 i s Es) as (s2 & E2 & A & _). rewrite E in E2. injection E2 as ->. rewrite A. now apply C1.
  - intros k l' E. destruct (B2 k l' E) as (l & El & A & B). destruct (C2 k l El) as (Q & S1 & S2). rewrite A, B. split; [unfold l_id in *; rewrite A, B; exact Q|]. split; now apply St.
  - intros k x' E. destruct (B3 k x' E) as (x & Ex & A). destruct (C3 k x Ex) as (Q & S1). unfold x_site, x_id in *. rewrite A. split; [exact Q|now apply St].
Qed.
Definition stopo (t : topo) (fs : string -> site -> site) (fx : string -> sector -> sector) (fl : string -> link -> link) : topo :=
  mkTopo (mapk fs (t_sites t)) (t_demands t) (mapk fx (t_sectors t)) (mapk fl (t_links t)) (t_secidx t) (t_conn t) (t_rconn t).
Definition keeps_s (fs : string -> site -> site) : Prop := forall i s, s_id (fs i s) = s_id s /\ s_type (fs i s) = s_type s /\ s_loc (fs i s) = s_loc s /\ s_detected (fs i s) = s_detected s.
Definition keeps_x (fx : string -> sector -> sector) : Prop := forall k x, x_key (fx k x) = x_key x.
Definition keeps_l (fl : string -> link -> link) : Prop := forall k l, l_tx (fl k l) = l_tx l /\ l_rx (fl k l) = l_rx l /\ l_wireless (fl k l) = l_wireless l /\ l_rx_cn (fl k l) = l_rx_cn l /\ l_sectors (fl k l) = l_sectors l.
Lemma stopo_shape t fs fx fl : keeps_s fs -> keeps_x fx -> keeps_l fl -> same_shape t (stopo t fs fx fl).
Proof.
  intros Ks Kx Kl. unfold same_shape, stopo. cbn [t_sites t_links t_sectors t_demands t_secidx t_conn t_rconn]. rewrite !mapk_keys. repeat match goal with |- _ /\ _ => split end; try reflexivity.
  - intros i s E. rewrite mapk_get, E. cbn. eexists. split; [reflexivity|apply Ks].
  - intros k l E. rewrite mapk_get, E. cbn. eexists. split; [reflexivity|apply Kl].
  - intros k x E. rewrite mapk_get, E. cbn. eexists. split; [reflexivity|apply Kx].
Qed.

(** ** removing the disconnected parts *)
Definition dem (st : status) : status := if frozen st then st else CANDIDATE.
Lemma dem_dem st : dem (dem st) = dem st. Proof. destruct st; reflexivity. Qed.
Section Drop.
Variables (t : topo) (h : dict string nat).
Hypothesis Wf : well_formed t.
Definition hit (k i : string) : bool := match dget (t_sectors t) k with Some x => beq (x_site x) i && negb (dmem h i) | None => false end.
Definition dsite (D : list string) (i : string) (s : site) : site := if existsb (fun k => hit k i) D then with_site_status s (dem (s_status s)) else s.
Definition dsector (D : list string) (k : string) (x : sector) : sector := if mem k D && negb (dmem h (x_site x)) then with_sector_status x (dem (x_status x)) else x.
Definition dropping (D : list string) : topo := stopo t (dsite D) (dsector D) (fun _ l => l).
Hypothesis okx : forall k x s, dget (t_sectors t) k = Some x -> frozen (x_status x) = false -> dget (t_sites t) (x_site x) = Some s -> sector_compat (dem (s_status s)) CANDIDATE = true.
Lemma dsite_app D k i s : dsite (D ++ [k]) i s = if hit k i then with_site_status s (dem (s_status s)) else dsite D i s.
Proof. unfold dsite. rewrite existsb_app. cbn. rewrite orb_false_r. destruct (hit k i); [now rewrite orb_true_r|now rewrite orb_false_r]. Qed.
Lemma dsector_app D k j x : j <> k -> dsector (D ++ [k]) j x = dsector D j x.
Proof. intros Hj. unfold dsector. rewrite mem_app. cbn. destruct (beq_spec j k); [congruence|]. now rewrite !orb_false_r. Qed.
Lemma dropping_ext D D' : (forall i s, dget (t_sites t) i = Some s -> dsite D i s = dsite D' i s) -> (forall k x, dget (t_sectors t) k = Some x -> dsector D k x = dsector D' k x) -> dropping D = dropping D'.
Proof.
  intros A B. unfold dropping, stopo. f_equal; (apply mapk_ext; [apply Wf|assumption]).
Qed.
Lemma drop_step D k x : ~ In k D -> dget (t_sectors t) k = Some x -> drop_sector h k (dropping D) = ok (dropping (D ++ [k])).
Proof.
  intros Hk Ex. destruct (wf_sector _ _ _ Wf Ex) as [s Es].
  assert (Mk : mem k D = false) by now apply mem_not_In.
  assert (Gx : dget (t_sectors (dropping D)) k = Some x). { unfold dropping, stopo. cbn [t_sectors]. rewrite mapk_get, Ex. cbn. unfold dsector. now rewrite Mk. }
  assert (Gs : dget (t_sites (dropping D)) (x_site x) = Some (dsite D (x_site x) s)). { unfold dropping, stopo. cbn [t_sites]. rewrite mapk_get, Es. reflexivity. }
  assert (Hit : forall i, hit k i = beq (x_site x) i && negb (dmem h i)) by (intros i; unfold hit; now rewrite Ex).
  unfold drop_sector. rewrite Gx, Gs. destruct (dmem h (x_site x)) eqn:Eh.
  - f_equal. apply dropping_ext.
    + intros i u Eu. rewrite dsite_app, Hit. destruct (beq_spec (x_site x) i) as [<-|]; [now rewrite Eh|reflexivity].
    + intros j y Ey. destruct (string_dec j k) as [->|Hj]; [|now rewrite dsector_app]. rewrite Ex in Ey. injection Ey as <-. unfold dsector. now rewrite Eh, !andb_false_r.
  - assert (Fs : forall u, s_status (dsite D (x_site x) u) = s_status u \/ s_status (dsite D (x_site x) u) = dem (s_status u)). { intros u. unfold dsite. destruct (existsb _ D); [right|left]; reflexivity. }
    assert (Fr : frozen (s_status (dsite D (x_site x) s)) = frozen (s_status s)). { destruct (Fs s) as [->| ->]; [reflexivity|]. now destruct (s_status s). }
    assert (New : forall u, dget (t_sites t) (x_site x) = Some u -> dsite (D ++ [k]) (x_site x) u = with_site_status u (dem (s_status u))). { intros u _. rewrite dsite_app, Hit, beq_refl, Eh. reflexivity. }
    assert (Same : with_site_status (dsite D (x_site x) s) (dem (s_status s)) = with_site_status s (dem (s_status s))). { unfold dsite. destruct (existsb _ D); reflexivity. }
    set (SS := mapk (dsite (D ++ [k])) (t_sites t)).
    assert (Step1 : (if frozen (s_status (dsite D (x_site x) s)) then ok (dropping D) else set_site_status (x_site x) CANDIDATE (dropping D)) = ok (set_sites (dropping D) SS)).
    { rewrite Fr. destruct (frozen (s_status s)) eqn:F.
      - unfold ok. f_equal. unfold dropping, stopo, set_sites. cbn. f_equal. unfold SS. apply mapk_ext; [apply Wf|]. intros i u Eu. rewrite dsite_app, Hit. destruct (beq_spec (x_site x) i) as [<-|]; [|reflexivity]. rewrite Eh. cbn. rewrite Es in Eu. injection Eu as <-.
        unfold dsite, dem. rewrite F. destruct (existsb _ D); now rewrite with_site_same.
      - unfold set_site_status. rewrite Gs. assert (A : assign_ok (s_status (dsite D (x_site x) s)) CANDIDATE = true). { unfold assign_ok. rewrite (frozen_imm _ Fr). reflexivity. }
        rewrite A. unfold ok. f_equal. f_equal. unfold SS, dropping, stopo. cbn [t_sites]. unfold mapk. eapply (dset_mapk _ (dsite (D ++ [k]))); [apply Wf|exact Es| |].
        + rewrite (New s Es). unfold dem in *. rewrite F in *. unfold dsite. destruct (existsb _ D); reflexivity.
        + intros j u Hj. rewrite dsite_app, Hit. destruct (beq_spec (x_site x) j); [congruence|reflexivity]. }
    rewrite Step1, andthen_ok.
    assert (Fin : dropping (D ++ [k]) = set_sectors (set_sites (dropping D) SS) (mapk (dsector (D ++ [k])) (t_sectors t))) by reflexivity. rewrite Fin. clear Fin.
    assert (Newx : dsector (D ++ [k]) k x = with_sector_status x (dem (x_status x))). { unfold dsector. rewrite mem_app. cbn. rewrite beq_refl, orb_true_r, Eh. reflexivity. }
    destruct (frozen (x_status x)) eqn:Fx.
    + unfold ok. f_equal. unfold dropping, stopo, set_sites, set_sectors. cbn. f_equal. apply mapk_ext; [apply Wf|]. intros j y Ey. destruct (string_dec j k) as [->|Hj]; [|now rewrite dsector_app].
      rewrite Ex in Ey. injection Ey as <-. rewrite Newx. unfold dem. rewrite Fx, with_sector_same. unfold dsector. now rewrite Mk.
    + unfold set_sector_status. change (t_sectors (set_sites (dropping D) SS)) with (t_sectors (dropping D)). rewrite Gx. cbn [t_sites set_sites]. unfold SS. rewrite mapk_get, Es. cbn [option_map]. rewrite (New s Es). cbn [s_status with_site_status].
      assert (A : assign_ok (x_status x) CANDIDATE = true) by (unfold assign_ok; now rewrite (frozen_imm _ Fx)). rewrite A, (okx _ _ _ Ex Fx Es). cbn [andb]. unfold ok. f_equal. f_equal.
      unfold dropping, stopo. cbn [t_sectors]. unfold mapk. eapply (dset_mapk _ (dsector (D ++ [k]))); [apply Wf|exact Ex| |].
      * rewrite Newx. unfold dem. now rewrite Fx.
      * intros j u Hj. now rewrite dsector_app.
Qed.
Lemma drop_loop ks : forall D, NoDup ks -> (forall k, In k ks -> ~ In k D) -> (forall k, In k ks -> In k (dkeys (t_sectors t))) ->
  for_each (drop_sector h) ks (dropping D) = ok (dropping (D ++ ks)).
Proof.
  induction ks as [|k ks IH]; intros D N HD Hin; cbn [for_each]; [now rewrite app_nil_r|]. inversion N as [|? ? Nk N']; subst.
  assert (Hk : In k (dkeys (t_sectors t))) by (apply Hin; now left). apply In_dkeys in Hk. destruct Hk as [x Ex]. rewrite (drop_step D k x); [|apply HD; now left|exact Ex]. rewrite andthen_ok. rewrite IH; [now rewrite <- app_assoc|exact N'| |].
  - intros j Hj Hd. apply in_app_iff in Hd. destruct Hd as [Hd|[->|[]]]; [|contradiction]. apply (HD j); [now right|exact Hd].
  - intros j Hj. apply Hin. now right.
Qed.
Definition dropped_topo : topo := dropping (dkeys (t_sectors t)).
Lemma drop_all : for_each (drop_sector h) (dkeys (t_sectors t)) t = ok dropped_topo.
Proof.
  assert (E : t = dropping []). { unfold dropping, stopo. rewrite (mapk_id (dsite []) (t_sites t)), (mapk_id (dsector []) (t_sectors t)), (mapk_id (fun _ l => l) (t_links t)); try reflexivity; try apply Wf. clear. now destruct t. }
  rewrite E at 2. unfold dropped_topo. rewrite <- (app_nil_l (dkeys (t_sectors t))). apply drop_loop; [apply Wf|intros k _ []|auto].
Qed.
(** what the loop leaves *)
Lemma dropped_site i s : dget (t_sites t) i = Some s -> exists s', dget (t_sites dropped_topo) i = Some s' /\ s_polarity s' = s_polarity s /\
  ((has_sectors t i /\ dmem h i = false -> s_status s' = dem (s_status s)) /\ (~ (has_sectors t i /\ dmem h i = false) -> s_status s' = s_status s)).
Proof.
  intros Es. unfold dropped_topo, dropping, stopo. cbn [t_sites]. rewrite mapk_get, Es. cbn. eexists. split; [reflexivity|]. unfold dsite.
  assert (Q : existsb (fun k => hit k i) (dkeys (t_sectors t)) = true <-> has_sectors t i /\ dmem h i = false).
  { rewrite existsb_exists. split.
    - intros (k & Hk & Hh). unfold hit in Hh. destruct (dget (t_sectors t) k) as [x|] eqn:Ex; [|discriminate]. apply andb_true_iff in Hh. destruct Hh as [Hb Hm]. apply beq_true in Hb. apply negb_true_iff in Hm. split; [exists k, x; now split|exact Hm].
    - intros [(k & x & Ex & Hx) Hm]. exists k. split; [apply In_dkeys; now exists x|]. unfold hit. rewrite Ex, Hx, beq_refl, Hm. reflexivity. }
  destruct (existsb (fun k => hit k i) (dkeys (t_sectors t))); (split; [reflexivity|]); split; intros X; try reflexivity; exfalso; [apply X; now apply Q|]. apply Q in X. discriminate.
Qed.
Lemma dropped_sector k x : dget (t_sectors t) k = Some x -> exists x', dget (t_sectors dropped_topo) k = Some x' /\ x_status x' = if dmem h (x_site x) then x_status x else dem (x_status x).
Proof.
  intros Ex. unfold dropped_topo, dropping, stopo. cbn [t_sectors]. rewrite mapk_get, Ex. cbn. eexists. split; [reflexivity|]. unfold dsector. assert (M : mem k (dkeys (t_sectors t)) = true) by (apply mem_In, In_dkeys; eauto). rewrite M. cbn. now destruct (dmem h (x_site x)).
Qed.
Lemma dropped_shape : same_shape t dropped_topo.
Proof.
  apply stopo_shape.
  - intros i s. unfold dsite. destruct (existsb _ _); repeat split.
  - intros k x. unfold dsector. destruct (_ && _); reflexivity.
  - intros k l. repeat split.
Qed.
End Drop.

(** the last loop *)
Section DropLinks.
Variable t : topo.
Hypothesis Wf : well_formed t.
Definition cand (i : string) : bool := match dget (t_sites t) i with Some s => beq (s_status s) CANDIDATE | None => false end.
Definition dlink (k : string) (l : link) : link := if active (l_status l) && (cand (l_tx l) || cand (l_rx l)) then with_link_status l (dem (l_status l)) else l.
Hypothesis okl : forall k l a b, dget (t_links t) k = Some l -> l_status l = PROPOSED -> dget (t_sites t) (l_tx l) = Some a -> dget (t_sites t) (l_rx l) = Some b -> link_compat (s_status a) (s_status b) CANDIDATE = true.
Lemma drop_links : for_each drop_link (dkeys (t_links t)) t = ok (set_links t (mapk dlink (t_links t))).
Proof.
  pose proof (loop_all t_links set_links drop_link dlink (fun _ _ => true) t PyKeyError) as L. assert (W : dwf (t_links t)) by apply Wf. specialize (L W). unfold goodb in L.
  assert (X : forallb (fun k => match dget (t_links t) k with Some _ => true | None => true end) (dkeys (t_links t)) = true). { apply forallb_forall. intros k _. now destruct (dget (t_links t) k). } rewrite X in L. apply L; [|discriminate|now destruct t]. clear L X.
  intros d k l E0 E _. destruct (wf_link _ _ _ Wf E0) as (a & b & Ea & Eb). unfold drop_link. change (t_links (set_links t d)) with d. rewrite E. change (t_sites (set_links t d)) with (t_sites t). rewrite Ea, Eb. unfold dlink, cand. rewrite Ea, Eb.
  destruct (active (l_status l)) eqn:Ac; cbn [andb]; [|rewrite (dset_same _ _ _ E); reflexivity]. destruct (beq (s_status a) CANDIDATE || beq (s_status b) CANDIDATE); [|rewrite (dset_same _ _ _ E); reflexivity].
  unfold dem. destruct (frozen (l_status l)) eqn:F; [rewrite with_link_same, (dset_same _ _ _ E); reflexivity|]. unfold set_link_status. change (t_links (set_links t d)) with d. rewrite E. change (t_sites (set_links t d)) with (t_sites t). rewrite Ea, Eb.
  assert (Pr : l_status l = PROPOSED) by (destruct (l_status l); try discriminate; reflexivity). assert (A : assign_ok (l_status l) CANDIDATE = true) by now rewrite Pr. rewrite A, (okl _ _ _ _ E0 Pr Ea Eb). reflexivity.
Qed.
End DropLinks.
