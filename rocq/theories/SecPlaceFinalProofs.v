(** Proofs for C42 and C58: find_best_sectors. *)
From Coq Require Import QArith Qround Qabs Qminmax Lqa Sorted.
From Verif Require Import Base QLib MonadLib TopologyModel SetupModel GeoModel SecLinkSpec SecLinkProofs SecPlaceModel SecPlaceSpec SecDpProofs SecPlaceProofs SecPlaceMainProofs.
Local Open Scope Q_scope.
Local Open Scope list_scope.

Lemma between_min a b k : direction a -> direction b -> between a b <= Qabs (a - b + 360 * inject_Z k).
Proof.
  intros [A1 A2] [B1 B2]. destruct (Z_lt_le_dec k 0) as [Hk|Hk]; [|destruct (Z.eq_dec k 0) as [->|Hk2]].
  - assert (inject_Z k <= inject_Z (-1)) by (rewrite <- Zle_Qle; lia). change (inject_Z (-1)) with (-1)%Q in *.
    destruct (abs_case (a - b + 360 * inject_Z k)) as [[? ->]|[? ->]]; destruct (between_cases a b) as [[-> ?]|[-> ?]]; destruct (abs_case (a - b)) as [[? E]|[? E]]; rewrite ?E in *; lra.
  - change (inject_Z 0) with 0. destruct (abs_case (a - b + 360 * 0)) as [[? ->]|[? ->]]; destruct (between_cases a b) as [[-> ?]|[-> ?]]; destruct (abs_case (a - b)) as [[? E]|[? E]]; rewrite ?E in *; lra.
  - assert (inject_Z 1 <= inject_Z k) by (rewrite <- Zle_Qle; lia). change (inject_Z 1) with 1 in *.
    destruct (abs_case (a - b + 360 * inject_Z k)) as [[? ->]|[? ->]]; destruct (between_cases a b) as [[-> ?]|[-> ?]]; destruct (abs_case (a - b)) as [[? E]|[? E]]; rewrite ?E in *; lra.
Qed.
Lemma sees_lt hsr s x : lt_q (delta s (nb_angle x)) (hsr / 2) = sees hsr s x.
Proof. unfold lt_q, sees. now rewrite delta_between. Qed.
Lemma sees_compat hsr s t x : s == t -> sees hsr s x = sees hsr t x.
Proof. intros E. unfold sees. now rewrite (between_l s t _ E). Qed.
Lemma grid_dir k : (k < 120)%nat -> direction (grid k).
Proof. intros H. split; rewrite grid_q; [pose proof (qnat_pos k); lra|]. assert (qnat (S k) <= qnat 120) by (apply qnat_le; lia). rewrite qnat_S in *. change (qnat 120) with 120 in *. lra. Qed.
(** a node whose sectors see a link sees it *)
Lemma node_sees hsr nspn c l s x : 0 < hsr -> direction c -> direction (nb_angle x) -> fan c hsr nspn l -> In s l -> sees hsr s x = true ->
  lt_q (delta c (nb_angle x)) (width nspn hsr / 2) = true.
Proof.
  intros Hh Dc Dx F Hs Hx. assert (Ds : direction s) by exact (fan_dir _ _ _ _ _ F Hs). destruct F as [L F]. apply In_nth_error in Hs. destruct Hs as (i & Hi). destruct (F i s Hi) as (_ & z & E).
  assert (Hin : (i < nspn)%nat) by (rewrite <- L; apply nth_error_Some; congruence).
  apply lt_q_true. rewrite delta_between. unfold sees in Hx. apply Bool.negb_true_iff, qle_false in Hx. destruct (between_lift _ _ Ds Dx) as (k & Ek). rewrite Ek in Hx. set (th := nb_angle x) in *.
  eapply Qle_lt_trans; [apply (between_min c th (z + k) Dc Dx)|]. unfold width. fold (qnat nspn). rewrite inject_Z_plus.
  assert (I1 : qnat i + 1 <= qnat nspn) by (assert (qnat (S i) <= qnat nspn) by (apply qnat_le; lia); rewrite qnat_S in *; lra). pose proof (qnat_pos i) as I0.
  set (qi := qnat i) in *. set (qn := qnat nspn) in *. clearbody qi qn.
  assert (X : s - th + 360 * inject_Z k == c - th + 360 * (inject_Z z + inject_Z k) + (qi - (qn - 1) / 2) * hsr) by (rewrite E; lra). rewrite X in Hx. clear X Ek E F.
  set (v := c - th + 360 * (inject_Z z + inject_Z k)) in *. clearbody v.
  assert (Half : (qn - 1) / 2 == qn / 2 - 1 / 2) by field. rewrite Half in Hx.
  assert (B1 : (qi - (qn / 2 - 1 / 2)) * hsr <= (qn / 2 - 1 / 2) * hsr). { apply Qmult_le_compat_r; [|lra]. assert (qn / 2 + qn / 2 == qn) by field. assert (1 / 2 + 1 / 2 == 1) by reflexivity. lra. }
  assert (B2 : - ((qn / 2 - 1 / 2) * hsr) <= (qi - (qn / 2 - 1 / 2)) * hsr) by nra.
  assert (E1 : hsr * qn / 2 == (qn / 2 - 1 / 2) * hsr + hsr / 2) by field. rewrite E1.
  set (y := (qi - (qn / 2 - 1 / 2)) * hsr) in *. set (w := (qn / 2 - 1 / 2) * hsr) in *. clearbody y w.
  destruct (abs_case (v + y)) as [[? Ev]|[? Ev]]; rewrite Ev in Hx; destruct (abs_case v) as [[? ->]|[? ->]]; lra.
Qed.

(** ** sub-lists of spaced lists *)
Lemma apart_filter {A} (g : A -> Q) p w l : 0 <= w -> apart w (map g l) -> apart w (map g (filter p l)).
Proof.
  intros Hw. induction l as [|a l IH]; intros H; [exact I|]. cbn [map] in H. destruct (apart_cons w (g a) (map g l) Hw H) as [H1 H2]. cbn [filter]. destruct (p a); [|now apply IH].
  cbn [map]. specialize (IH H1). destruct (filter p l) as [|b r] eqn:E; [exact I|]. cbn [map] in *. split; [|exact IH]. apply H2. apply in_map. assert (X : In b (filter p l)) by (rewrite E; now left). apply filter_In in X. tauto.
Qed.
Lemma filter_len_le {A} (p : A -> bool) l : (List.length (filter p l) <= List.length l)%nat.
Proof. induction l as [|a l IH]; cbn; [lia|]. destruct (p a); cbn; lia. Qed.
Lemma mapM_map {A B C} (f : B -> result C) (g : A -> B) l : mapM f (map g l) = mapM (fun x => f (g x)) l.
Proof. induction l as [|a l IH]; cbn; [reflexivity|]. now rewrite IH. Qed.
Lemma F2_length {A B} (R : A -> B -> Prop) la lb : Forall2 R la lb -> List.length la = List.length lb.
Proof. induction 1; cbn; congruence. Qed.
Lemma Ok_inj_sym {A} (a b : A) : Ok a = Ok b -> b = a.
Proof. intros H. now injection H. Qed.
Lemma last_In {A} (l : list A) d : l <> [] -> In (last l d) l.
Proof. induction l as [|a l IH]; intros H; [congruence|]. destruct l; [now left|]. right. apply IH. discriminate. Qed.
Lemma last_map {A B} (g : A -> B) l d : last (map g l) (g d) = g (last l d).
Proof. induction l as [|a l IH]; [reflexivity|]. destruct l; [reflexivity|]. exact IH. Qed.
Lemma spaced_filter {A} (g : A -> Q) p w l : 0 <= w -> spaced w (map g l) -> spaced w (map g (filter p l)).
Proof.
  intros Hw [A1 A2]. split; [now apply apart_filter|]. destruct (filter p l) as [|b r] eqn:E; [exact I|]. cbn [map].
  assert (Hb : In b l) by (assert (X : In b (filter p l)) by (rewrite E; now left); apply filter_In in X; tauto).
  assert (Hl : In (last (g b :: map g r) (g b)) (map g l)).
  { assert (X : In (last (g b :: map g r) (g b)) (map g (filter p l))) by (rewrite E; apply last_In; discriminate). apply in_map_iff in X. destruct X as (y & <- & Hy). apply in_map. apply filter_In in Hy. tauto. }
  destruct l as [|a l]; [destruct Hb|]. cbn [map] in *. pose proof (last_max w _ (g a) Hw A1 _ Hl) as M1. assert (M2 : g a <= g b). { destruct Hb as [->|Hb]; [lra|]. destruct (apart_cons w (g a) (map g l) Hw A1) as [_ G]. specialize (G (g b) (in_map g _ _ Hb)). lra. } lra.
Qed.
Lemma apart_compat w l l' : Forall2 Qeq l l' -> apart w l -> apart w l'.
Proof.
  intros H. induction H as [|a b l l' Hab H IH]; intros A; [exact I|]. destruct H as [|a2 b2 l l' Hab2 H]; [exact I|]. destruct A as [A1 A2]. split; [rewrite <- Hab, <- Hab2; exact A1|]. now apply IH.
Qed.
Lemma last_compat l l' d d' : Forall2 Qeq l l' -> l <> [] -> last l d == last l' d'.
Proof.
  intros H. induction H as [|a b l l' Hab H IH]; intros N; [congruence|]. destruct H as [|a2 b2 l l' Hab2 H]; [exact Hab|]. change (last (a :: a2 :: l) d) with (last (a2 :: l) d). change (last (b :: b2 :: l') d') with (last (b2 :: l') d'). apply IH. discriminate.
Qed.
Lemma spaced_compat w l l' : Forall2 Qeq l l' -> spaced w l -> spaced w l'.
Proof.
  intros H [A1 A2]. split; [eapply apart_compat; eauto|]. destruct H as [|a b l l' Hab H]; [exact I|]. pose proof (last_compat (a :: l) (b :: l') a b (Forall2_cons _ _ Hab H)) as E. rewrite <- E, <- Hab by discriminate. exact A2.
Qed.

(** ** the device fits *)
Section Fbs.
Variables (nbs : list neighbor) (number_of_nodes nspn : nat) (hsr : Q).
Variables (dn_dn_limit dn_total_limit : option Z) (weight : option Q) (too_close : nat -> nat -> bool) (channels : option (list (string * Z))).
Hypothesis WF : wf_site nbs number_of_nodes nspn hsr weight.
Notation W := (hsr * qnat nspn).
Notation nneigh := (List.length nbs).
Notation run := (find_best_sectors nbs number_of_nodes nspn hsr dn_dn_limit dn_total_limit weight too_close channels).
Lemma width_eq : width nspn hsr = W. Proof. reflexivity. Qed.
Lemma W_pos : 0 < W.
Proof using WF. pose proof (wfs_hsr _ _ _ _ _ WF) as H. assert (1 <= qnat nspn) by (change 1 with (qnat 1); apply qnat_le; exact (wfs_nspn _ _ _ _ _ WF)). nra. Qed.
Lemma W_full : W <= 360.
Proof using WF. pose proof (wfs_around _ _ _ _ _ WF) as H. assert (1 <= qnat number_of_nodes) by (change 1 with (qnat 1); apply qnat_le; exact (wfs_nodes _ _ _ _ _ WF)). pose proof W_pos. nra. Qed.
Lemma nodes_eq : Z.to_nat (Z.min (Qfloor (FULL / width nspn hsr)) (Z.of_nat number_of_nodes)) = number_of_nodes.
Proof using WF.
  rewrite width_eq. pose proof W_pos as P. assert (H : (Z.of_nat number_of_nodes <= Qfloor (FULL / W))%Z).
  { rewrite <- (Qfloor_Z (Z.of_nat number_of_nodes)). apply Qfloor_resp_le. apply Qle_shift_div_l; [exact P|]. pose proof (wfs_around _ _ _ _ _ WF) as A. unfold FULL. fold (qnat number_of_nodes). lra. }
  rewrite Z.min_r by exact H. apply Nat2Z.id.
Qed.

(** whatever links each candidate sees *)
Section Any.
Variables (secs : nat -> list Q) (sm : smat) (nm : nmat).
Definition validb (k : nat) : bool :=
  forallb (fun i => (count_b (sm k i) (seq 0 nneigh) <=? limit_of nbs dn_total_limit)%Z) (seq 0 nspn) &&
  forallb (fun i => (count_b (fun j => sm k i j && nb_dist_type (nb nbs j)) (seq 0 nneigh) <=? limit_of nbs dn_dn_limit)%Z) (seq 0 nspn).
Definition metric (k : nat) : Q := sum_q (map (fun i => sum_q (map (fun j =>
   if sm k i j then delta (nth i (secs k) 0) (nb_angle (nb nbs j)) * delta (nth i (secs k) 0) (nb_angle (nb nbs j))
                    * nb_dist (nb nbs j) / max_dist nbs * link_weight weight (nb nbs j)
   else PENALTY nbs) (seq 0 nneigh))) (seq 0 nspn)).
Definition mk (k : nat) : cand := mkCand (grid k) (metric k) (existsb (nm k) (seq 0 nneigh)).
Notation ks := (filter validb (seq 0 120)).
Notation cs := (candidates nbs nspn dn_dn_limit dn_total_limit weight secs sm nm).
Lemma cs_eq : cs = map mk ks.
Proof using Type. unfold candidates. rewrite <- flat_map_if. reflexivity. Qed.
Lemma cs_len : List.length cs = List.length ks.
Proof using Type. now rewrite cs_eq, map_length. Qed.
Lemma cs_nth y d : (y < List.length ks)%nat -> nth y cs d = mk (nth y ks O).
Proof using Type. intros H. rewrite cs_eq. rewrite (nth_indep _ d (mk O)) by now rewrite map_length. apply map_nth. Qed.
Lemma az_ks y : (y < List.length cs)%nat -> az cs y = grid (nth y ks O).
Proof using Type. intros H. rewrite cs_len in H. unfold az. now rewrite cs_nth. Qed.
Lemma met_ks y : (y < List.length cs)%nat -> met cs y = metric (nth y ks O).
Proof using Type. intros H. rewrite cs_len in H. unfold met. now rewrite cs_nth. Qed.
Lemma ks_bound k : In k ks -> (k < 120)%nat.
Proof using Type. intros H. apply filter_In in H. destruct H as [H _]. apply in_seq in H. destruct H as [_ H]. exact H. Qed.
Lemma ks_nth_bound y : (y < List.length cs)%nat -> (nth y ks O < 120)%nat.
Proof using Type. intros H. rewrite cs_len in H. apply ks_bound, nth_In, H. Qed.
Lemma cs_mono i j : (i < j < List.length cs)%nat -> az cs i < az cs j.
Proof using Type.
  intros H. rewrite !az_ks by lia. assert (nth i ks O < nth j ks O)%nat. { apply sorted_nth; [apply sorted_filter_nat, seq_sorted|]. rewrite <- cs_len. exact H. } pose proof (grid_lt _ _ H0). lra.
Qed.
Lemma cs_below i : (i < List.length cs)%nat -> az cs i < 360.
Proof using Type. intros H. rewrite az_ks by exact H. exact (proj2 (grid_dir _ (ks_nth_bound i H))). Qed.
Lemma cs_index k : In k ks -> exists y, (y < List.length cs)%nat /\ nth y ks O = k.
Proof using Type. intros H. rewrite cs_len. exact (In_nth _ _ O H). Qed.
(** every link missed by every sector *)
Hypothesis Fans : forall k, (k < 120)%nat -> fan (grid k) hsr nspn (secs k).
Lemma far_max : max_dist nbs == far nbs.
Proof using Type.
  clear WF. unfold max_dist, far. induction nbs as [|a l IH]; [reflexivity|]. cbn [fold_right map]. rewrite <- IH. set (m := fold_right _ _ l). clearbody m. destruct (Qle_bool m (nb_dist a)) eqn:E.
  - apply qle_true in E. now rewrite Q.max_l.
  - apply qle_false in E. rewrite Q.max_r by lra. reflexivity.
Qed.
Lemma weight_eq x : link_weight weight x = kind_weight weight x.
Proof using WF. unfold link_weight, kind_weight. pose proof (wfs_weight _ _ _ _ _ WF) as H. destruct (nb_dist_type x), weight as [w|]; try reflexivity. destruct (Qeq_bool w 0) eqn:E; [|reflexivity]. apply Qeq_bool_iff in E. lra. Qed.
Lemma cell_model k i x : delta (nth i (secs k) 0) (nb_angle x) * delta (nth i (secs k) 0) (nb_angle x) * nb_dist x / max_dist nbs * link_weight weight x == dv nbs weight (nth i (secs k) 0) x.
Proof using WF. unfold dv. rewrite far_max, weight_eq, delta_between. unfold Qdiv. ring. Qed.
Lemma metric_le k : (k < 120)%nat -> metric k <= PENALTY nbs * qnat nneigh * qnat nspn.
Proof using WF Fans.
  intros Hk. unfold metric. rewrite sum_q_map. rewrite <- (seq_length nspn 0) at 2. rewrite <- tot_const. apply tot_le. intros i Hi. apply in_seq in Hi. rewrite sum_q_map. rewrite <- (seq_length nneigh 0) at 2. rewrite <- tot_const. apply tot_le. intros j Hj. apply in_seq in Hj.
  destruct (sm k i j); [|lra]. rewrite cell_model. destruct (Fans k Hk) as [L F].
  assert (Hs : direction (nth i (secs k) 0)). { apply (fan_dir (grid k) hsr nspn (secs k)); [exact (Fans k Hk)|]. apply nth_In. rewrite L. lia. }
  assert (Hx : In (nb nbs j) nbs) by (unfold nb; apply nth_In; lia).
  pose proof (proj2 (dv_bounds nbs number_of_nodes nspn hsr weight WF _ _ Hs Hx)) as U. rewrite PEN_eq. pose proof (M_pos nbs number_of_nodes nspn hsr weight WF). lra.
Qed.
Notation bound := ((inject_Z (Z.of_nat (number_of_nodes * nspn * num_neighbors nbs)) + 1) * (PENALTY nbs * PENALTY nbs)).
Lemma lcost_bound l : List.length l = number_of_nodes -> (forall y, In y l -> (y < List.length cs)%nat) -> lcost cs l < bound.
Proof using WF Fans.
  intros L H. rewrite lcost_total. assert (X : total (met cs) l <= PENALTY nbs * qnat nneigh * qnat nspn * qnat number_of_nodes).
  { rewrite <- L, <- tot_const. apply tot_le. intros y Hy. rewrite met_ks by auto. apply metric_le. apply ks_nth_bound. auto. }
  eapply Qle_lt_trans; [exact X|]. fold (qnat (number_of_nodes * nspn * num_neighbors nbs)). unfold num_neighbors. rewrite !qnat_mult. rewrite !PEN_eq. pose proof (M_pos nbs number_of_nodes nspn hsr weight WF) as M1.
  pose proof (qnat_pos nspn) as N1. pose proof (qnat_pos number_of_nodes) as N2. set (m := qnat nneigh) in *. set (a := qnat nspn) in *. set (b := qnat number_of_nodes) in *. clearbody m a b.
  assert (0 <= a * b) by nra. set (u := a * b) in *. assert (E : 1000000 * m * m * a * b == 1000000 * m * m * u) by (subst u; ring). rewrite E. assert (E2 : (b * a * m + 1) * (1000000 * m * (1000000 * m)) == (u * m + 1) * (1000000 * m) * (1000000 * m)) by (subst u; ring). rewrite E2. clearbody u. clear E E2.
  set (c := 1000000 * m) in *. assert (C1 : 1 <= c) by (subst c; lra). clearbody c. clear X. assert (K : 0 <= u * m) by (apply Qmult_le_0_compat; lra). assert (E3 : c * m * u == u * m * c) by ring. rewrite E3. set (v := u * m) in *. clearbody v. clear E3.
  assert (K1 : 0 <= v * c) by (apply Qmult_le_0_compat; lra). assert (K2 : 0 <= (c - 1) * (v * c)) by (apply Qmult_le_0_compat; lra). assert (K3 : 0 <= (c - 1) * (c - 1)) by (apply Qmult_le_0_compat; lra). lra.
Qed.
End Any.

(** ** success and failure *)
Lemma secs_ok : exists secs, mapM (fun k => get_sector_azimuths_from_node_center (grid k) nspn hsr) (seq 0 num_candidates) = Ok secs /\
  forall k, (k < 120)%nat -> get_sector_azimuths_from_node_center (grid k) nspn hsr = Ok (nth k secs []) /\ fan (grid k) hsr nspn (nth k secs []).
Proof using WF.
  pose proof (wfs_hsr _ _ _ _ _ WF) as Hh. pose proof (wfs_nspn _ _ _ _ _ WF) as Hn.
  destruct (mapM_total (fun k => get_sector_azimuths_from_node_center (grid k) nspn hsr) (seq 0 num_candidates)) as (secs & E).
  - intros k _. destruct (azimuths_ok (grid k) nspn hsr Hh Hn) as (l & El & _). eauto.
  - exists secs. split; [exact E|]. apply mapM_ok in E. intros k Hk. assert (Ek : get_sector_azimuths_from_node_center (grid k) nspn hsr = Ok (nth k secs [])).
    { pose proof (Forall2_nth _ _ _ O [] k E) as X. rewrite seq_length in X. specialize (X Hk). rewrite seq_nth0 in X by exact Hk. exact X. }
    split; [exact Ek|]. destruct (azimuths_ok (grid k) nspn hsr Hh Hn) as (l & El & Fl). rewrite El in Ek. injection Ek as <-. exact Fl.
Qed.
Lemma spread_chain m : (1 <= m)%nat -> W <= 3 * qnat m -> (number_of_nodes * m <= 120)%nat -> spaced W (map grid (map (fun i => i * m)%nat (seq 0 number_of_nodes))).
Proof using WF.
  intros Hm HW H. assert (Step : forall n s, apart W (map grid (map (fun i => i * m)%nat (seq s n)))).
  { induction n as [|n IH]; intros s; [exact I|]. specialize (IH (S s)). cbn [seq map]. destruct n as [|n]; [exact I|]. cbn [seq map] in *. split; [|exact IH]. rewrite !grid_q. cbn [Nat.mul]. rewrite qnat_plus. lra. }
  split; [apply Step|]. pose proof (wfs_nodes _ _ _ _ _ WF) as Hn. destruct number_of_nodes as [|n]; [lia|]. cbn [seq map].
  assert (E : last (grid (0 * m) :: map grid (map (fun i => i * m)%nat (seq 1 n))) (grid (0 * m)) = grid (n * m)).
  { change (grid (0 * m) :: map grid (map (fun i => i * m)%nat (seq 1 n))) with (map grid (map (fun i => i * m)%nat (seq 0 (S n)))). rewrite seq_S, !map_app. cbn [map Nat.add]. apply last_last. }
  rewrite E, !grid_q. cbn [Nat.mul]. assert (qnat (n * m) + qnat m <= qnat 120) by (rewrite <- qnat_plus; apply qnat_le; lia). change (qnat 120) with 120 in *. change (qnat 0) with 0. lra.
Qed.
Lemma grid_gap i j w m : (0 < m)%nat -> 3 * (qnat m - 1) < w -> grid i + w <= grid j -> (i + m <= j)%nat.
Proof using Type.
  intros Hm Hw H. rewrite !grid_q in H. destruct (Nat.le_gt_cases (i + m) j) as [|G]; [assumption|]. exfalso. assert (X : qnat (S j) <= qnat (i + m)) by (apply qnat_le; lia). rewrite qnat_S, qnat_plus in X. lra.
Qed.
Lemma spaced_count m l : (0 < m)%nat -> 3 * (qnat m - 1) < W -> l <> [] -> spaced W (map grid l) -> (List.length l * m <= 120)%nat.
Proof using WF.
  intros Hm Hw Ne [A La]. destruct l as [|a l]; [congruence|]. assert (X : forall l a, apart W (map grid (a :: l)) -> (a + List.length l * m <= last (a :: l) a)%nat).
  { clear - WF Hm Hw. induction l as [|b l IH]; intros a A; [cbn; lia|]. cbn [map] in A. destruct A as [A1 A2]. specialize (IH b A2). pose proof (grid_gap a b W m Hm Hw A1). cbn [List.length]. change (last (a :: b :: l) a) with (last (b :: l) a). rewrite (last_default (b :: l) a b) by discriminate. lia. }
  specialize (X l a A). cbn [map] in La. assert (E : last (grid a :: map grid l) (grid a) = grid (last (a :: l) a)).
  { exact (last_map grid (a :: l) a). }
  rewrite E in La. assert (E3 : grid a + 360 == grid (a + 120)) by (rewrite !grid_q, qnat_plus; change (qnat 120) with 120; lra). rewrite E3 in La. pose proof (grid_gap _ _ W m Hm Hw La). cbn [List.length]. lia.
Qed.

Notation csof := (candidates nbs nspn dn_dn_limit dn_total_limit weight).
Definition finish (cs : list cand) : result (list (list Q)) :=
  if Nat.eqb (List.length cs) 0 then Ok []
  else match rounds cs W number_of_nodes (seq 0 (List.length cs)) ((inject_Z (Z.of_nat (number_of_nodes * nspn * num_neighbors nbs)) + 1) * (PENALTY nbs * PENALTY nbs)) None with
       | None => Err OptExn
       | Some pos => mapM (fun c => get_sector_azimuths_from_node_center (c_az c) nspn hsr) (filter c_sees (map (fun i => nth i cs (mkCand 0 0 false)) pos))
       end.
Lemma fbs_eq diff same : violation_pairs nbs too_close channels = Ok (diff, same) -> exists secs sm nm,
  (forall k, (k < 120)%nat -> get_sector_azimuths_from_node_center (grid k) nspn hsr = Ok (nth k secs []) /\ fan (grid k) hsr nspn (nth k secs [])) /\
  (diff = [] -> same = [] -> forall k i j, sm k i j = lt_q (delta (nth i (nth k secs []) 0) (nb_angle (nb nbs j))) (hsr / 2) /\ nm k j = lt_q (delta (grid k) (nb_angle (nb nbs j))) (width nspn hsr / 2)) /\
  run = finish (csof (fun k => nth k secs []) sm nm).
Proof using WF.
  intros V. destruct secs_ok as (secs & E & F).
  assert (N0 : Nat.eqb (num_neighbors nbs) 0 = false). { apply Nat.eqb_neq. pose proof (wfs_some _ _ _ _ _ WF) as H. unfold num_neighbors. destruct nbs; [congruence|discriminate]. }
  assert (W0 : Qeq_bool (width nspn hsr) 0 = false). { apply Bool.not_true_iff_false. rewrite Qeq_bool_iff, width_eq. pose proof W_pos. lra. }
  assert (N1 : Nat.eqb number_of_nodes 0 = false) by (apply Nat.eqb_neq; pose proof (wfs_nodes _ _ _ _ _ WF); lia).
  unfold find_best_sectors. rewrite N0, W0, nodes_eq, V. cbn [rbind]. rewrite E. cbn [rbind]. rewrite N1, width_eq.
  set (sm0 := fun k i j => lt_q (delta (nth i (nth k secs []) 0) (nb_angle (nb nbs j))) (hsr / 2)). set (nm0 := fun k j => lt_q (delta (grid k) (nb_angle (nb nbs j))) (W / 2)).
  eexists secs, _, _. split; [exact F|]. split; cycle 1.
  - unfold finish. reflexivity.
  - intros -> -> k i j. split; reflexivity.
Qed.

Lemma all_valid sm : dn_dn_limit = None -> dn_total_limit = None -> forall k, validb sm k = true.
Proof using Type.
  intros E1 E2 k. unfold validb. rewrite E1, E2. cbn [limit_of]. rewrite Bool.andb_true_iff. split; apply forallb_forall; intros i _; apply Z.leb_le; unfold count_b, num_neighbors.
  - apply inj_le. etransitivity; [apply filter_len_le|]. now rewrite seq_length.
  - apply inj_le. etransitivity; [apply filter_len_le|]. now rewrite seq_length.
Qed.
Lemma filter_all {A} (p : A -> bool) l : (forall x, p x = true) -> filter p l = l.
Proof using Type. intros H. induction l as [|a l IH]; [reflexivity|]. cbn. now rewrite H, IH. Qed.
Lemma mapM_az secs' cs pos : (forall k, (k < 120)%nat -> get_sector_azimuths_from_node_center (grid k) nspn hsr = Ok (nth k secs' [])) ->
  (forall c, In c cs -> exists k, (k < 120)%nat /\ c_az c = grid k) -> (forall y, In y pos -> (y < List.length cs)%nat) ->
  exists r, mapM (fun c => get_sector_azimuths_from_node_center (c_az c) nspn hsr) (filter c_sees (map (fun i => nth i cs (mkCand 0 0 false)) pos)) = Ok r.
Proof using Type.
  intros F H P. apply mapM_total. intros c Hc. apply filter_In in Hc. destruct Hc as [Hc _]. apply in_map_iff in Hc. destruct Hc as (y & <- & Hy). destruct (H (nth y cs (mkCand 0 0 false))) as (k & Hk & Ek); [apply nth_In; auto|]. rewrite Ek. eauto.
Qed.
Lemma chain_cs secs sm nm n f l : chain (csof secs sm nm) W n f l -> spaced W (map grid (map (fun y => nth y (filter (validb sm) (seq 0 120)) O) l)) /\ List.length l = n /\ (forall y, In y l -> (y < List.length (csof secs sm nm))%nat).
Proof using WF.
  intros C. destruct (chain_spaced (csof secs sm nm) W W_full n f l C) as (S & L & I0). split; [|split; assumption]. rewrite map_map.
  rewrite (map_ext_in _ (az (csof secs sm nm))); [exact S|]. intros y Hy. symmetry. apply az_ks. auto.
Qed.
Lemma no_limits_len secs sm nm : dn_dn_limit = None -> dn_total_limit = None -> List.length (csof secs sm nm) = 120%nat.
Proof using Type. intros E1 E2. rewrite cs_len, filter_all by (apply all_valid; assumption). apply seq_length. Qed.

Lemma fbs_succeeds m : dn_dn_limit = None -> dn_total_limit = None ->
  (match channels with Some l => (List.length nbs <= List.length l)%nat | None => True end) ->
  W <= 3 * qnat m -> (number_of_nodes * m <= 120)%nat -> exists r, run = Ok r.
Proof using WF.
  intros E1 E2 Ch HW Hm. assert (V : exists d s, violation_pairs nbs too_close channels = Ok (d, s)).
  { unfold violation_pairs. destruct channels as [l|]; [|eauto]. unfold num_neighbors. apply Nat.leb_le in Ch. rewrite Ch, Bool.orb_true_r. eauto. }
  destruct V as (d & s & V). destruct (fbs_eq d s V) as (secs & sm & nm & F & _ & ->). unfold finish. set (cs := csof _ sm nm).
  assert (Lc : List.length cs = 120%nat) by (apply no_limits_len; assumption). destruct (Nat.eqb_spec (List.length cs) 0) as [Z0|_]; [rewrite Lc in Z0; discriminate|].
  assert (M1 : (1 <= m)%nat). { destruct m; [|lia]. pose proof W_pos. change (qnat 0) with 0 in HW. lra. }
  pose proof (wfs_nodes _ _ _ _ _ WF) as Hn.
  pose proof (rounds_all cs W (cs_mono _ _ _) (cs_below _ _ _) number_of_nodes ((inject_Z (Z.of_nat (number_of_nodes * nspn * num_neighbors nbs)) + 1) * (PENALTY nbs * PENALTY nbs)) Hn) as R.
  destruct (rounds cs W number_of_nodes _ _ None) as [p|].
  - destruct R as ((f & C) & _). destruct (chain_cs _ _ _ _ _ _ C) as (_ & _ & I0). apply (mapM_az secs cs p).
    + intros k Hk. now destruct (F k Hk).
    + intros c Hc. subst cs. rewrite cs_eq in Hc. apply in_map_iff in Hc. destruct Hc as (k & <- & Hk). exists k. split; [apply (ks_bound sm k Hk)|reflexivity].
    + exact I0.
  - exfalso. set (idx := map (fun i => i * m)%nat (seq 0 number_of_nodes)).
    assert (Idx : forall y, In y idx -> (y < 120)%nat). { intros y Hy. apply in_map_iff in Hy. destruct Hy as (i & <- & Hi). apply in_seq in Hi. assert (S i * m <= number_of_nodes * m)%nat by (apply Nat.mul_le_mono_r; lia). lia. }
    assert (Sp : spaced W (map (az cs) idx)).
    { rewrite (map_ext_in _ grid); [exact (spread_chain m M1 HW Hm)|]. intros y Hy. specialize (Idx y Hy). subst cs. rewrite az_ks by lia. rewrite filter_all by (apply all_valid; assumption). now rewrite seq_nth0. }
    assert (Hc : exists f l, idx = f :: l /\ S (List.length l) = number_of_nodes).
    { subst idx. destruct number_of_nodes as [|n]; [lia|]. cbn [seq map]. do 2 eexists. split; [reflexivity|]. now rewrite map_length, seq_length. }
    destruct Hc as (f & l & Ei & Ln). rewrite Ei in *.
    assert (C : chain cs W number_of_nodes f (f :: l)). { rewrite <- Ln. apply spaced_chain; [apply cs_mono|exact W_pos| |exact Sp]. intros y Hy. rewrite Lc. exact (Idx y Hy). }
    specialize (R f (f :: l) C). destruct (chain_cs _ _ _ _ _ _ C) as (_ & L & I0).
    pose proof (lcost_bound (fun k => nth k secs []) sm nm (fun k Hk => proj2 (F k Hk)) (f :: l) L I0) as B. apply (Qlt_irrefl (lcost cs (f :: l))). eapply Qlt_le_trans; [exact B|exact R].
Qed.
Lemma fbs_fails m d s : dn_dn_limit = None -> dn_total_limit = None -> violation_pairs nbs too_close channels = Ok (d, s) ->
  (0 < m)%nat -> 3 * (qnat m - 1) < W -> (120 < number_of_nodes * m)%nat -> run = Err OptExn.
Proof using WF.
  intros E1 E2 V M1 HW Hm. destruct (fbs_eq d s V) as (secs & sm & nm & F & _ & ->). unfold finish. set (cs := csof _ sm nm).
  assert (Lc : List.length cs = 120%nat) by (apply no_limits_len; assumption). destruct (Nat.eqb_spec (List.length cs) 0) as [Z0|_]; [rewrite Lc in Z0; discriminate|]. pose proof (wfs_nodes _ _ _ _ _ WF) as Hn.
  pose proof (rounds_all cs W (cs_mono _ _ _) (cs_below _ _ _) number_of_nodes ((inject_Z (Z.of_nat (number_of_nodes * nspn * num_neighbors nbs)) + 1) * (PENALTY nbs * PENALTY nbs)) Hn) as R.
  destruct (rounds cs W number_of_nodes _ _ None) as [p|]; [|reflexivity]. exfalso. destruct R as ((f & C) & _). destruct (chain_cs _ _ _ _ _ _ C) as (Sp & L & _).
  assert (Y : (List.length (map (fun y => nth y (filter (validb sm) (seq 0 120)) O) p) * m <= 120)%nat).
  { apply spaced_count; [exact M1|exact HW| |exact Sp]. intros H. apply (f_equal (@List.length _)) in H. rewrite map_length, L in H. cbn in H. lia. }
  rewrite map_length, L in Y. lia.
Qed.

(** ** the best placement *)
Section Unpruned.
Hypothesis Free : channels = None.
Hypothesis Clear : forall i j, too_close i j = false.
Notation place := (placement nbs nspn hsr dn_dn_limit dn_total_limit).
Lemma vp_none : violation_pairs nbs too_close channels = Ok ([], []).
Proof using Free Clear.
  unfold violation_pairs. rewrite Free. f_equal. f_equal. generalize (link_pairs nbs). intros l. induction l as [|a l IH]; [reflexivity|]. cbn [filter]. now rewrite Clear.
Qed.
Section Given.
Variables (secs : list (list Q)) (sm : smat) (nm : nmat).
Notation sec k := (nth k secs []).
Hypothesis F : forall k, (k < 120)%nat -> get_sector_azimuths_from_node_center (grid k) nspn hsr = Ok (sec k) /\ fan (grid k) hsr nspn (sec k).
Hypothesis Mats : forall k i j, sm k i j = lt_q (delta (nth i (sec k) 0) (nb_angle (nb nbs j))) (hsr / 2) /\ nm k j = lt_q (delta (grid k) (nb_angle (nb nbs j))) (width nspn hsr / 2).
Notation cs := (csof (fun k => sec k) sm nm).
Notation kk := (filter (validb sm) (seq 0 120)).
Lemma filter_ext_all {A} (p q : A -> bool) l : (forall x, In x l -> p x = q x) -> filter p l = filter q l.
Proof using Type. intros H. induction l as [|a l IH]; [reflexivity|]. cbn. rewrite (H a (or_introl eq_refl)), IH; [reflexivity|]. intros x Hx. apply H. now right. Qed.
Lemma count_sees k i : count_b (sm k i) (seq 0 nneigh) = Z.of_nat (List.length (filter (sees hsr (nth i (sec k) 0)) nbs)).
Proof using Mats.
  unfold count_b. f_equal. rewrite <- (count_nth (sees hsr (nth i (sec k) 0)) (mkNb 0 0 false) nbs). f_equal. apply filter_ext_all. intros j _. rewrite (proj1 (Mats k i j)). apply sees_lt.
Qed.
Lemma count_sees_dn k i : count_b (fun j => sm k i j && nb_dist_type (nb nbs j)) (seq 0 nneigh) = Z.of_nat (List.length (filter (fun x => sees hsr (nth i (sec k) 0) x && nb_dist_type x) nbs)).
Proof using Mats.
  unfold count_b. f_equal. rewrite <- (count_nth (fun x => sees hsr (nth i (sec k) 0) x && nb_dist_type x) (mkNb 0 0 false) nbs). f_equal. apply filter_ext_all. intros j _. rewrite (proj1 (Mats k i j)). f_equal. apply sees_lt.
Qed.
Lemma within_limit lim n : (n <= nneigh)%nat -> (Z.of_nat n <=? limit_of nbs lim)%Z = true <-> within lim n.
Proof using Type. intros H. rewrite Z.leb_le. destruct lim; cbn [limit_of within]; [tauto|]. unfold num_neighbors. split; [auto|lia]. Qed.
Lemma valid_ok a k : (k < 120)%nat -> a == grid k -> validb sm k = true <-> not_overloaded nbs nspn hsr dn_dn_limit dn_total_limit a.
Proof using WF Mats F.
  intros Hk Ea. destruct (F k Hk) as [_ Fk]. unfold validb, not_overloaded. rewrite Bool.andb_true_iff, !forallb_forall. split.
  - intros [H1 H2] l s Fl Hs. pose proof (fan_unique _ _ _ _ _ _ Ea Fl Fk) as U. apply In_nth_error in Hs. destruct Hs as (i & Hi). assert (Hin : (i < nspn)%nat) by (destruct Fl as [L _]; rewrite <- L; apply nth_error_Some; congruence).
    assert (Es : s == nth i (sec k) 0). { apply (nth_error_nth l i 0) in Hi. rewrite <- Hi. apply (Forall2_nth Qeq); [exact U|]. destruct Fl as [L _]. lia. }
    assert (Hq : In i (seq 0 nspn)) by (apply in_seq; lia). specialize (H1 i Hq). specialize (H2 i Hq). rewrite count_sees in H1. rewrite count_sees_dn in H2.
    apply within_limit in H1; [|apply filter_len_le]. apply within_limit in H2; [|apply filter_len_le].
    split; [erewrite filter_ext_all; [exact H1|]|erewrite filter_ext_all; [exact H2|]]; intros x _; cbn beta; now rewrite (sees_compat _ _ _ x Es).
  - intros H. destruct (azimuths_ok a nspn hsr (wfs_hsr _ _ _ _ _ WF) (wfs_nspn _ _ _ _ _ WF)) as (l & _ & Fl).
    pose proof (fan_unique _ _ _ _ _ _ Ea Fl Fk) as U. assert (X : forall i, In i (seq 0 nspn) -> exists s, In s l /\ s == nth i (sec k) 0).
    { intros i Hi. apply in_seq in Hi. destruct Fl as [L _]. exists (nth i l 0). split; [apply nth_In; lia|]. apply (Forall2_nth Qeq); [exact U|lia]. }
    split; intros i Hi; destruct (X i Hi) as (s & Hs & Es); destruct (H l s Fl Hs) as [H1 H2]; [rewrite count_sees|rewrite count_sees_dn]; apply within_limit; try apply filter_len_le.
    + erewrite filter_ext_all; [exact H1|]. intros x _. cbn beta. now rewrite (sees_compat _ _ _ x Es).
    + erewrite filter_ext_all; [exact H2|]. intros x _. cbn beta. now rewrite (sees_compat _ _ _ x Es).
Qed.
Notation kof y := (nth y kk O).
Lemma kof_in y : (y < List.length cs)%nat -> In (kof y) kk.
Proof using Type. intros H. rewrite cs_len in H. now apply nth_In. Qed.
Lemma placed l : spaced W (map grid (map (fun y => kof y) l)) -> (forall y, In y l -> (y < List.length cs)%nat) -> place (List.length l) (map grid (map (fun y => kof y) l)) (map (fun y => sec (kof y)) l).
Proof using WF Mats F.
  intros S I0. unfold placement. repeat match goal with |- _ /\ _ => split end.
  - now rewrite !map_length.
  - exact S.
  - apply Forall_forall. intros a Ha. rewrite map_map in Ha. apply in_map_iff in Ha. destruct Ha as (y & <- & Hy). pose proof (kof_in y (I0 y Hy)) as Hk. pose proof (ks_bound sm _ Hk) as Hk'. split.
    + exists (kof y). split; [exact Hk'|apply grid_q].
    + apply (valid_ok _ (kof y) Hk'); [reflexivity|]. apply filter_In in Hk. tauto.
  - rewrite map_map. clear S. induction l as [|y l IH]; cbn [map]; constructor.
    + apply F. apply (ks_bound sm). apply kof_in. apply I0. now left.
    + apply IH. intros z Hz. apply I0. now right.
Qed.
Lemma placement_chain n nodes sectors : (1 <= n)%nat -> place n nodes sectors -> exists f l, chain cs W n f l /\ Forall2 (fun y a => (y < List.length cs)%nat /\ a == grid (kof y)) l nodes.
Proof using WF Mats F.
  intros Hn (L & Sp & P & _). assert (X : exists l, Forall2 (fun y a => (y < List.length cs)%nat /\ a == grid (kof y)) l nodes).
  { clear L Sp. induction P as [|a nodes [(k & Hk & Ea) No] P IH]; [exists []; constructor|]. destruct IH as (l & Fl). rewrite <- grid_q in Ea.
    assert (Hin : In k kk) by (apply filter_In; split; [apply in_seq; lia|apply (valid_ok a k Hk Ea); exact No]). destruct (cs_index (fun k => sec k) sm nm k Hin) as (y & Hy & Ey). exists (y :: l). constructor; [|exact Fl]. split; [exact Hy|]. rewrite Ey. exact Ea. }
  destruct X as (l & Fl). destruct l as [|f l]; [inversion Fl; subst; cbn in Hn; lia|]. exists f, (f :: l). split; [|exact Fl].
  assert (E : n = S (List.length l)) by (rewrite <- L; rewrite <- (F2_length _ _ _ Fl); reflexivity). rewrite E. apply spaced_chain; [apply cs_mono|exact W_pos| |].
  - intros y Hy. destruct (Forall2_in_l _ _ _ y Fl Hy) as (a & _ & H & _). exact H.
  - apply (spaced_compat W nodes); [|exact Sp]. revert Fl. generalize (f :: l). clear - secs. intros u Fl. induction Fl as [|y a u nodes [Hy Ha] Fl IH]; constructor; [|exact IH]. rewrite az_ks by exact Hy. exact Ha.
Qed.
Notation costof S := (total (fun s => total (cell nbs hsr weight s) nbs) S).
Lemma metric_cost k : (k < 120)%nat -> metric (fun k => sec k) sm k == costof (sec k).
Proof using WF Mats F.
  intros Hk. unfold metric. rewrite sum_q_map. destruct (F k Hk) as [_ [L _]]. rewrite <- L at 1. rewrite <- (tot_nth _ 0 (sec k)). apply tot_ext. intros i Hi. rewrite sum_q_map. rewrite <- (tot_nth _ (mkNb 0 0 false) nbs). apply tot_ext. intros j Hj. fold (nb nbs j).
  rewrite (proj1 (Mats k i j)), sees_lt. unfold cell. destruct (sees hsr (nth i (sec k) 0) (nb nbs j)); [apply (cell_model (fun k => sec k) k i)|reflexivity].
Qed.
Lemma lcost_sectors l : (forall y, In y l -> (y < List.length cs)%nat) -> lcost cs l == costof (List.concat (map (fun y => sec (kof y)) l)).
Proof using WF Mats F.
  intros I0. rewrite lcost_total, tot_concat, tot_map. apply tot_ext. intros y Hy. rewrite met_ks by auto. apply metric_cost. apply ks_nth_bound with (secs := fun k => sec k) (nm := nm). auto.
Qed.
Lemma cell_compat s t x : s == t -> cell nbs hsr weight s x == cell nbs hsr weight t x.
Proof using Type. intros E. unfold cell, dv. rewrite (sees_compat hsr s t x E). destruct (sees hsr t x); [|reflexivity]. pose proof (between_l s t (nb_angle x) E) as Eb. rewrite Eb. reflexivity. Qed.
Lemma fans_compat (l : list nat) nodes sectors : Forall2 (fun y a => (y < List.length cs)%nat /\ a == grid (kof y)) l nodes -> Forall2 (fun a l => fan a hsr nspn l) nodes sectors ->
  Forall2 Qeq (List.concat (map (fun y => sec (kof y)) l)) (List.concat sectors).
Proof using F.
  intros H. revert sectors. induction H as [|y a l nodes [Hy Ha] H IH]; intros sectors Fs; inversion Fs; subst; [constructor|]. cbn [map List.concat]. apply Forall2_app; [|now apply IH].
  eapply fan_unique; [symmetry; exact Ha| |eassumption]. apply F. apply ks_nth_bound with (secs := fun k => sec k) (nm := nm). exact Hy.
Qed.
Lemma fans_length nodes sectors : Forall2 (fun a l => fan a hsr nspn l) nodes sectors -> List.length (List.concat sectors) = (List.length nodes * nspn)%nat.
Proof using Type. induction 1 as [|a l nodes sectors [L _] H IH]; [reflexivity|]. cbn [List.concat List.length]. rewrite app_length, IH, L. reflexivity. Qed.
Lemma fans_dir nodes sectors : Forall2 (fun a l => fan a hsr nspn l) nodes sectors -> forall s, In s (List.concat sectors) -> direction s.
Proof using Type. intros H s Hs. apply in_concat in Hs. destruct Hs as (l & Hl & Hs). destruct (Forall2_in_r _ _ _ l H Hl) as (a & _ & Fa). eapply fan_dir; eauto. Qed.
(** nodes that see nothing may be dropped *)
Lemma dropped y s x : (y < List.length cs)%nat -> c_sees (nth y cs (mkCand 0 0 false)) = false -> In s (sec (kof y)) -> In x nbs -> sees hsr s x = false.
Proof using WF Mats F.
  intros Hy Hs Hin Hx. destruct (sees hsr s x) eqn:E; [|reflexivity]. exfalso. assert (Hk : (kof y < 120)%nat) by (apply ks_nth_bound with (secs := fun k => sec k) (nm := nm); exact Hy).
  rewrite cs_nth in Hs by (rewrite cs_len in Hy; exact Hy). cbn [mk c_sees] in Hs. apply Bool.not_true_iff_false in Hs. apply Hs. apply existsb_exists. destruct (In_nth _ _ (mkNb 0 0 false) Hx) as (j & Hj & Ej).
  exists j. split; [apply in_seq; lia|]. rewrite (proj2 (Mats (kof y) O j)). fold (nb nbs j) in Ej. rewrite Ej. apply (node_sees hsr nspn (grid (kof y)) (sec (kof y)) s x); auto.
  - exact (wfs_hsr _ _ _ _ _ WF).
  - exact (grid_dir _ Hk).
  - exact (wfs_dir _ _ _ _ _ WF x Hx).
  - now apply F.
Qed.
Notation keeps := (fun y => c_sees (nth y cs (mkCand 0 0 false))).
Lemma kept_seen l : (forall y, In y l -> (y < List.length cs)%nat) -> seen nbs hsr (List.concat (map (fun y => sec (kof y)) (filter keeps l))) = seen nbs hsr (List.concat (map (fun y => sec (kof y)) l)).
Proof using WF Mats F.
  intros I0. unfold seen. f_equal. apply filter_ext_all. intros x Hx. induction l as [|y l IH]; [reflexivity|]. cbn [filter map List.concat]. rewrite existsb_app. rewrite <- IH by (intros z Hz; apply I0; now right).
  destruct (c_sees (nth y cs (mkCand 0 0 false))) eqn:E; cbn [map List.concat]; [now rewrite existsb_app|]. assert (X : existsb (fun s => sees hsr s x) (sec (kof y)) = false); [|now rewrite X].
  apply Bool.not_true_iff_false. intros H. apply existsb_exists in H. destruct H as (s & Hs & Ss). rewrite (dropped y s x (I0 y (or_introl eq_refl)) E Hs Hx) in Ss. discriminate.
Qed.
Lemma kept_deviation l : (forall y, In y l -> (y < List.length cs)%nat) -> deviation nbs hsr weight (List.concat (map (fun y => sec (kof y)) (filter keeps l))) == deviation nbs hsr weight (List.concat (map (fun y => sec (kof y)) l)).
Proof using WF Mats F.
  intros I0. unfold deviation. apply tot_ext. intros x Hx. induction l as [|y l IH]; [reflexivity|]. cbn [filter map List.concat]. rewrite tot_app, <- IH by (intros z Hz; apply I0; now right).
  destruct (c_sees (nth y cs (mkCand 0 0 false))) eqn:E; cbn [map List.concat]; [rewrite tot_app; reflexivity|].
  rewrite (tot_ext _ (fun _ => 0) (sec (kof y))); [rewrite tot_const; lra|]. intros s Hs. now rewrite (dropped y s x (I0 y (or_introl eq_refl)) E Hs Hx).
Qed.
Lemma filter_map_sees l : filter c_sees (map (fun i => nth i cs (mkCand 0 0 false)) l) = map (fun i => nth i cs (mkCand 0 0 false)) (filter keeps l).
Proof using Type. induction l as [|y l IH]; [reflexivity|]. cbn [map filter]. rewrite IH. now destruct (c_sees (nth y cs (mkCand 0 0 false))). Qed.
Lemma finish_best r : finish cs = Ok r ->
  (exists k nodes, (k <= number_of_nodes)%nat /\ place k nodes r) /\
  forall nodes' sectors', place number_of_nodes nodes' sectors' ->
    (seen nbs hsr (List.concat sectors') <= seen nbs hsr (List.concat r))%nat /\
    (seen nbs hsr (List.concat sectors') = seen nbs hsr (List.concat r) -> deviation nbs hsr weight (List.concat r) <= deviation nbs hsr weight (List.concat sectors')).
Proof using WF Mats F.
  intros H. unfold finish in H. pose proof (wfs_nodes _ _ _ _ _ WF) as Hn. destruct (Nat.eqb_spec (List.length cs) 0) as [E0|E0].
  - injection H as <-. split.
    + exists O, []. split; [lia|]. split; [reflexivity|]. split; [split; exact I|]. split; constructor.
    + intros nodes' sectors' P. exfalso. destruct (placement_chain _ _ _ Hn P) as (f & l & C & _). destruct (chain_cs _ _ _ _ _ _ C) as (_ & L & I0). destruct l as [|y l]; [cbn in L; lia|]. specialize (I0 y (or_introl eq_refl)). lia.
  - pose proof (rounds_all cs W (cs_mono _ _ _) (cs_below _ _ _) number_of_nodes ((inject_Z (Z.of_nat (number_of_nodes * nspn * num_neighbors nbs)) + 1) * (PENALTY nbs * PENALTY nbs)) Hn) as R.
    destruct (rounds cs W number_of_nodes _ _ None) as [p|]; [|discriminate]. destruct R as ((f & C) & _ & Best). destruct (chain_cs _ _ _ _ _ _ C) as (Sp & L & I0).
    assert (Er : r = map (fun y => sec (kof y)) (filter keeps p)).
    { rewrite filter_map_sees in H. rewrite mapM_map in H. apply (mapM_eq _ (fun y => sec (kof y)) _ _ H). intros y l Hy El. apply filter_In in Hy. destruct Hy as [Hy _]. specialize (I0 y Hy). rewrite cs_nth in El by (rewrite cs_len in I0; exact I0). cbn [mk c_az] in El.
      destruct (F (kof y)) as [Ey _]; [apply ks_nth_bound with (secs := fun k => sec k) (nm := nm); exact I0|]. rewrite Ey in El. exact (Ok_inj_sym _ _ El). }
    subst r. split.
    + exists (List.length (filter keeps p)), (map grid (map (fun y => kof y) (filter keeps p))). split; [rewrite <- L; apply filter_len_le|]. apply placed.
      * rewrite map_map in *. apply spaced_filter; [apply Qlt_le_weak, W_pos|exact Sp].
      * intros y Hy. apply filter_In in Hy. apply I0. tauto.
    + intros nodes' sectors' P. rewrite kept_seen by exact I0. destruct (placement_chain _ _ _ Hn P) as (f' & l' & C' & Fl'). specialize (Best f' l' C'). destruct (chain_cs _ _ _ _ _ _ C') as (_ & L' & I0').
      rewrite !lcost_sectors in Best by assumption. destruct P as (Ln & Sn & Pn & Fn). pose proof (placed p Sp I0) as (_ & _ & _ & Fp).
      assert (Ec : costof (List.concat (map (fun y => sec (kof y)) l')) == costof (List.concat sectors')).
      { apply (tot_Forall2 Qeq); [exact (fans_compat l' nodes' sectors' Fl' Fn)|]. intros s t E. apply tot_ext. intros x _. now apply cell_compat. }
      rewrite Ec in Best. rewrite (kept_deviation p I0).
      apply (best_of nbs number_of_nodes nspn hsr weight WF); [exact (fans_dir _ _ Fp)| |exact (fans_dir _ _ Fn)| | |exact Best].
      * eapply spaced_sep; [exact (wfs_hsr _ _ _ _ _ WF)|apply Qlt_le_weak, W_pos|exact W_full|exact Sp|exact Fp].
      * eapply spaced_sep; [exact (wfs_hsr _ _ _ _ _ WF)|apply Qlt_le_weak, W_pos|exact W_full|exact Sn|exact Fn].
      * rewrite (fans_length _ _ Fp), (fans_length _ _ Fn), Ln, !map_length, L. reflexivity.
Qed.
End Given.
Lemma fbs_best r : run = Ok r ->
  (exists k nodes, (k <= number_of_nodes)%nat /\ place k nodes r) /\
  forall nodes' sectors', place number_of_nodes nodes' sectors' ->
    (seen nbs hsr (List.concat sectors') <= seen nbs hsr (List.concat r))%nat /\
    (seen nbs hsr (List.concat sectors') = seen nbs hsr (List.concat r) -> deviation nbs hsr weight (List.concat r) <= deviation nbs hsr weight (List.concat sectors')).
Proof using WF Free Clear.
  intros H. destruct (fbs_eq [] [] vp_none) as (secs & sm & nm & F & Ms & E). rewrite E in H. exact (finish_best secs sm nm F (Ms eq_refl eq_refl) r H).
Qed.
End Unpruned.
End Fbs.
