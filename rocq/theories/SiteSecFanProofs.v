(** Proofs for C74: sectors placed by the planner. *)
From Coq Require Import QArith Qabs Qminmax Permutation Lqa Sorting.Sorted.
From Verif Require Import Base Dict QLib MonadLib TopologyModel SetupModel GeoModel SecLinkSpec SecLinkProofs SecPlaceModel SecPlaceSpec SiteSecModel SiteSecSpec SiteSecProofs SiteSecGeoProofs.
From Verif Require TopologyProofs MetricMainProofs.
Local Open Scope Q_scope.
Local Open Scope list_scope.

Lemma filter_none_ {A} (f : A -> bool) l : (forall x, In x l -> f x = false) -> filter f l = [].
Proof. induction l as [|a r IH]; cbn; intros H; [reflexivity|]. rewrite (H a (or_introl eq_refl)). apply IH. auto. Qed.

(** *** one sector per node *)
Lemma nodup_nodes l : own_places l -> (forall s, In s l -> List.length (azimuths l (v_node s)) = 1%nat) -> NoDup (map v_node l).
Proof.
  intros _. induction l as [|a r IH]; intros H; [constructor|]. cbn [map].
  assert (E : forall s, In s r -> v_node s <> v_node a).
  { intros s Hs E. specialize (H a (or_introl eq_refl)). unfold azimuths in H. cbn [filter] in H. rewrite Z.eqb_refl in H. cbn in H. injection H as H.
    rewrite map_length in H. apply length_zero_iff_nil in H. assert (In s []) as []. rewrite <- H. apply filter_In. split; [exact Hs|]. now apply Z.eqb_eq. }
  constructor.
  - rewrite in_map_iff. intros (s & Es & Hs). now apply (E s Hs).
  - apply IH. intros s Hs. specialize (H s (or_intror Hs)). unfold azimuths in *. cbn [filter] in H.
    destruct (Z.eqb_spec (v_node a) (v_node s)) as [X|X]; [|exact H]. exfalso. apply (E s Hs). congruence.
Qed.
Lemma azimuths_single l s : NoDup (map v_node l) -> In s l -> azimuths l (v_node s) = [v_az s].
Proof.
  induction l as [|a r IH]; intros N H; [contradiction|]. cbn [map] in N. apply NoDup_cons_iff in N as [N1 N2]. unfold azimuths in *. cbn [filter].
  destruct H as [->|H].
  - rewrite Z.eqb_refl. cbn. f_equal. rewrite (filter_none_); [reflexivity|].
    intros x Hx. apply Z.eqb_neq. intros E. apply N1, in_map_iff. eauto.
  - destruct (Z.eqb_spec (v_node a) (v_node s)) as [X|X]; [exfalso; apply N1, in_map_iff; eauto|]. now apply IH.
Qed.

Lemma between_self a : between a a <= 0.
Proof. apply between_le. left. setoid_replace (a - a) with 0 by ring. cbn. lra. Qed.
Lemma between_eq a b : a == b -> between a b <= 0.
Proof. intros E. rewrite <- (between_compat a a b E). apply between_self. Qed.
Lemma single_iff k hsr mean l : 0 < hsr -> (forall s, In s l -> direction (v_az s)) ->
  validate_site_sectors k 1 hsr mean l = Ok tt <->
  one_site l /\ NoDup (map v_node l) /\ (List.length l <= k)%nat /\
  forall s s', In s l -> In s' l -> v_node s <> v_node s' -> hsr <= between (v_az s) (v_az s').
Proof.
  intros Hh D. rewrite validate_iff. transitivity (l = [] \/ suitable k 1 hsr l (fun n => arrange mean (azimuths l n))).
  { split; (intros [H|H]; [now left|right]); now apply (passes_iff k 1 hsr mean l D). }
  assert (A : NoDup (map v_node l) -> forall s, In s l -> arrange mean (azimuths l (v_node s)) = [v_az s]).
  { intros N s Hs. assert (P := arrange_perm mean (azimuths l (v_node s))). rewrite (azimuths_single l s N Hs) in *. now apply Permutation_sym, Permutation_length_1_inv in P. }
  assert (X : forall a b, ends [a] b b -> b = a) by (intros a b [H _]; cbn in H; congruence).
  split.
  - intros [->|(H1 & H2 & H3 & H)].
    + split; [intros ? ? []|]. split; [constructor|]. split; [cbn; lia|]. intros ? ? [].
    + assert (N : NoDup (map v_node l)) by (apply nodup_nodes; [exact H2|intros s Hs; now apply H]). split; [exact H1|]. split; [exact N|]. split.
      * rewrite <- (map_length v_node). apply H3; [exact N|]. intros n Hn. apply in_map_iff in Hn as (s & <- & Hs). eauto.
      * intros s s' Hs Hs' Hn. destruct (H s Hs) as (_ & _ & _ & C). specialize (C s' Hs' (not_eq_sym Hn)). rewrite (A N s Hs), (A N s' Hs') in C.
        apply (C (v_az s) (v_az s) (v_az s') (v_az s')); split; reflexivity.
  - intros (H1 & N & L & H). right. split; [exact H1|]. split; [|split].
    + unfold own_places. clear - N. induction l as [|a r IH]; [constructor|]. cbn [map] in *. apply NoDup_cons_iff in N as [N1 N2]. constructor; [|now apply IH].
      rewrite in_map_iff. intros (s & E & Hs). apply N1, in_map_iff. exists s. split; [congruence|exact Hs].
    + intros ns Nn Hn. etransitivity; [|exact L]. rewrite <- (map_length v_node). apply NoDup_incl_length; [exact Nn|]. intros n Hi. destruct (Hn n Hi) as (s & Hs & <-). now apply in_map.
    + intros s Hs. split; [now rewrite (azimuths_single l s N Hs)|]. split; [apply arrange_perm|]. cbv beta. rewrite (A N s Hs). split; [exact Logic.I|].
      intros s' Hs' Hn. rewrite (A N s' Hs'). intros a b c d [E1 E2] [E3 E4]. cbn in E1, E2, E3, E4. assert (a = v_az s) by congruence. assert (b = v_az s) by congruence. assert (c = v_az s') by congruence. assert (d = v_az s') by congruence. subst.
      assert (B : hsr <= between (v_az s) (v_az s')) by (apply H; auto).
      assert (NE : ~ v_az s == v_az s') by (intros E; apply between_eq in E; lra).
      split; [repeat split; exact B|]. unfold on_arc. repeat split; intros [(K1 & K2 & K3)|[K1 _]]; try (apply NE; lra); lra.
Qed.

(** *** angles up to whole turns *)
Lemma zle x y : (x <= y)%Z -> inject_Z x <= inject_Z y.
Proof. now rewrite <- Zle_Qle. Qed.
Lemma zle' x y : inject_Z x <= inject_Z y -> (x <= y)%Z.
Proof. now rewrite <- Zle_Qle. Qed.
Lemma zcases z : inject_Z z <= -1 \/ inject_Z z == 0 \/ 1 <= inject_Z z.
Proof.
  destruct (Z.compare_spec z 0) as [->|H|H]; [right; left; reflexivity|left|right; right].
  - apply (zle z (-1)). lia.
  - apply (zle 1 z). lia.
Qed.
Lemma zero_or_minus z d x : d == x + 360 * inject_Z z -> -(360) < d -> d < 360 -> 0 <= x -> x < 360 -> d == x \/ d == x - 360.
Proof.
  intros E D1 D2 X1 X2. destruct (zcases z) as [K|[K|K]]; [right|left; lra|lra]. destruct (Z.eq_dec z (-1)) as [->|Nz]; [change (inject_Z (-1)) with (-(1)) in *; lra|].
  assert (inject_Z z <= -2); [|lra]. apply (zle z (-2)). enough (z <= -1)%Z by lia. apply (zle' z (-1)). exact K.
Qed.
Lemma between_ge p q x h z : direction p -> direction q -> q - p == x + 360 * inject_Z z -> 0 < h -> h <= x -> x <= 360 - h -> h <= between p q.
Proof.
  intros [P1 P2] [Q1 Q2] E Hh H1 H2. apply zero_or_minus in E; [|lra|lra|lra|lra].
  destruct (between_cases p q) as [[B' B]|[B' B]]; rewrite B'; destruct (abs_case (p - q)) as [[A A']|[A A']]; rewrite A' in *; destruct E; lra.
Qed.
Lemma between_is p q h z : direction p -> direction q -> q - p == h + 360 * inject_Z z -> 0 <= h -> h <= 180 -> between p q == h.
Proof.
  intros [P1 P2] [Q1 Q2] E H1 H2. apply zero_or_minus in E; [|lra|lra|lra|lra].
  destruct (between_cases p q) as [[B' B]|[B' B]]; rewrite B'; destruct (abs_case (p - q)) as [[A A']|[A A']]; rewrite A' in *; destruct E; lra.
Qed.
Lemma off_arc a b q w x z z' : direction a -> direction b -> direction q -> b - a == w + 360 * inject_Z z -> q - a == x + 360 * inject_Z z' ->
  0 <= w -> w < x -> x < 360 -> ~ on_arc q a b.
Proof.
  intros [A1 A2] [B1 B2] [Q1 Q2] E F W1 W2 X H. apply zero_or_minus in E; [|lra|lra|lra|lra]. apply zero_or_minus in F; [|lra|lra|lra|lra].
  destruct E as [E|E], F as [F|F], H as [(H1 & H2 & H3)|(H1 & [H2|H2])]; lra.
Qed.

(** *** the azimuths of a node, in the order of the check *)
Lemma qnat_S n : qnat (S n) == qnat n + 1.
Proof. unfold qnat. rewrite Nat2Z.inj_succ. unfold Z.succ. rewrite inject_Z_plus. reflexivity. Qed.
Lemma qnat_le i j : (i <= j)%nat -> qnat i <= qnat j.
Proof. intros H. unfold qnat. apply zle. lia. Qed.
Lemma sorted_unique : forall f l, StronglySorted Qlt f -> StronglySorted Qle l -> Permutation l f -> l = f.
Proof.
  induction f as [|a f IH]; intros l F L P; [now apply Permutation_sym, Permutation_nil in P|].
  inversion F as [|? ? F1 F2]; subst. rewrite Forall_forall in F2. destruct l as [|b t]; [now apply Permutation_nil in P|].
  inversion L as [|? ? L1 L2]; subst. rewrite Forall_forall in L2.
  assert (b = a) as ->.
  { assert (Hb : In b (a :: f)) by (apply (Permutation_in _ P); now left). assert (Ha : In a (b :: t)) by (apply (Permutation_in _ (Permutation_sym P)); now left).
    destruct Hb as [->|Hb]; [reflexivity|]. destruct Ha as [->|Ha]; [reflexivity|]. apply F2 in Hb. apply L2 in Ha. lra. }
  f_equal. apply IH; try assumption. now apply Permutation_cons_inv in P.
Qed.
Lemma ss_app l r : StronglySorted Qle l -> StronglySorted Qle r -> (forall a b, In a l -> In b r -> a <= b) -> StronglySorted Qle (l ++ r).
Proof.
  induction l as [|a l IH]; intros L R H; [exact R|]. inversion L; subst. cbn. constructor; [apply IH; auto; intros; apply H; auto; now right|].
  apply Forall_app. split; [assumption|]. apply Forall_forall. intros b Hb. apply H; [now left|exact Hb].
Qed.
Lemma arrange_ascending mean l f : Permutation l f -> StronglySorted Qlt f -> (forall a, In a f -> Qabs (a - mean l) < 180) -> arrange mean l = f.
Proof.
  intros P F H. apply sorted_unique; [exact F| |rewrite arrange_perm; exact P].
  assert (Hl : forall a, In a l -> - (180) < a - mean l /\ a - mean l < 180).
  { intros a Ha. assert (K := H a (Permutation_in _ P Ha)). apply Qabs_Qlt_condition in K. exact K. }
  unfold arrange. cbv zeta. apply ss_app; try apply MetricMainProofs.sorted_le.
  intros a b Ha Hb. apply (Permutation_in _ (TopologyProofs.sort_by_perm _ _)) in Ha, Hb. apply filter_In in Ha as [Ha Ka], Hb as [Hb Kb]. apply Hl in Ha, Hb.
  rewrite after_not_before in Kb. unfold before in Ka, Kb. rewrite negb_true_iff, orb_false_iff, andb_false_iff, !qless_false, qle_false in Kb. rewrite orb_true_iff, andb_true_iff, !qless_true, qle_true in Ka. lra.
Qed.
Lemma north_sorted l : not_past_north l -> StronglySorted Qlt l.
Proof.
  intros H. apply Sorted_StronglySorted; [intros a b c; apply Qlt_trans|]. induction l as [|a l IH]; [constructor|]. constructor.
  - apply IH. intros x y r t ->. apply (H x y (a :: r) t). reflexivity.
  - destruct l as [|b t]; constructor. apply (H a b [] t). reflexivity.
Qed.
Lemma nth_two {A} (l : list A) : forall i a b, nth_error l i = Some a -> nth_error l (S i) = Some b -> exists r t, l = r ++ a :: b :: t.
Proof.
  induction l as [|x l IH]; intros [|i] a b H1 H2; try discriminate.
  - injection H1 as ->. cbn in H2. destruct l as [|y t]; [discriminate|]. injection H2 as ->. exists [], t. reflexivity.
  - cbn in H1, H2. destruct (IH i a b H1 H2) as (r & t & ->). exists (x :: r), t. reflexivity.
Qed.
Section Fan.
Variables (c h : Q) (n : nat) (f : list Q).
Hypothesis F : fan c h n f.
Hypothesis Hh : 0 < h.
Lemma fan_dir a : In a f -> direction a.
Proof. intros H. apply In_nth_error in H as [i H]. now apply (proj2 F) in H. Qed.
Lemma fan_step i a b : nth_error f i = Some a -> nth_error f (S i) = Some b -> exists z, b - a == h + 360 * inject_Z z.
Proof.
  intros H1 H2. apply (proj2 F) in H1 as [_ [z1 E1]], H2 as [_ [z2 E2]]. exists (z2 - z1)%Z. rewrite E1, E2, qnat_S. unfold Zminus. rewrite inject_Z_plus, inject_Z_opp. ring.
Qed.
Lemma fan_row : h <= 180 -> in_a_row h f.
Proof.
  intros H18. assert (K : forall l, (exists r, f = r ++ l) -> in_a_row h l).
  { induction l as [|a [|b t] IH]; intros [r E]; [exact Logic.I|exact Logic.I|]. split.
    - destruct (fan_step (List.length r) a b) as [z Ez].
      + rewrite E, nth_error_app2, Nat.sub_diag; [reflexivity|lia].
      + rewrite E, nth_error_app2 by lia. replace (S (List.length r) - List.length r)%nat with 1%nat by lia. reflexivity.
      + rewrite (between_is a b h z); try assumption; try lra; try (apply fan_dir; rewrite E; apply in_or_app; right; cbn; auto). setoid_replace (h - h) with 0 by ring. reflexivity.
    - apply IH. exists (r ++ [a]). now rewrite <- app_assoc. }
  apply K. exists []. reflexivity.
Qed.
Lemma fan_ascending : h < 360 -> not_past_north f -> forall a0, nth_error f 0 = Some a0 -> forall i a, nth_error f i = Some a -> a == a0 + qnat i * h.
Proof.
  intros H36 N a0 H0. induction i as [|i IH]; intros a Ha.
  - rewrite H0 in Ha. injection Ha as ->. change (qnat 0) with 0. ring.
  - destruct (nth_error f i) as [b|] eqn:Eb.
    2:{ apply nth_error_None in Eb. assert (nth_error f (S i) = None) by (apply nth_error_None; lia). congruence. }
    specialize (IH b eq_refl). destruct (fan_step i b a Eb Ha) as [z E]. destruct (nth_two f i b a Eb Ha) as (r & t & El). assert (L := N _ _ _ _ El).
    assert (Db : direction b) by (apply fan_dir; eapply nth_error_In; eauto). assert (Da : direction a) by (apply fan_dir; eapply nth_error_In; eauto). destruct Da, Db.
    apply zero_or_minus in E; [|lra|lra|lra|lra]. rewrite qnat_S. destruct E; lra.
Qed.
Lemma near_mean m : direction m -> (exists z : Z, Qabs (m - c - 360 * inject_Z z) < h / 2) -> exists e z, m == c + e + 360 * inject_Z z /\ - (h / 2) < e /\ e < h / 2.
Proof. intros _ [z H]. apply Qabs_Qlt_condition in H. exists (m - c - 360 * inject_Z z), z. split; [ring|exact H]. Qed.
Lemma qn_pos : (2 <= n)%nat -> 2 <= qnat n.
Proof. intros H. apply (qnat_le 2 n H). Qed.
Lemma arrange_north mean l : (2 <= n)%nat -> h * qnat n <= 359 -> not_past_north f -> Permutation l f -> mean_near mean h n f -> arrange mean l = f.
Proof.
  intros Hn Hw N P M. apply arrange_ascending; [exact P|now apply north_sorted|]. destruct (M l P) as [Dm K]. specialize (K c F).
  destruct (near_mean _ Dm K) as (e & z & E & E1 & E2). clear K. destruct (nth_error f 0) as [a0|] eqn:E0.
  2:{ apply nth_error_None in E0. destruct F as [L _]. lia. }
  assert (Hq := qn_pos Hn). assert (H36 : h < 360) by nra. assert (A := fan_ascending H36 N a0 E0).
  destruct (nth_error f (n - 1)) as [al|] eqn:El.
  2:{ apply nth_error_None in El. destruct F as [L _]. lia. }
  assert (Al := A _ _ El). assert (Q1 : qnat (n - 1) == qnat n - 1) by (replace (qnat n) with (qnat (S (n - 1))) by (f_equal; lia); rewrite qnat_S; ring). rewrite Q1 in Al.
  destruct (fan_dir a0 (nth_error_In _ _ E0)) as [B1 B2]. destruct (fan_dir al (nth_error_In _ _ El)) as [B3 B4]. destruct Dm as [M1 M2].
  assert (H0 := proj2 F 0%nat a0 E0). destruct H0 as [_ [z0 H0]]. change (qnat 0) with 0 in H0.
  assert (W : 2 * h <= qnat n * h) by nra. rewrite Qmult_comm in Hw.
  assert (Al' : al == a0 + qnat n * h - h) by (rewrite Al; ring). clear Al.
  assert (E' : mean l - a0 == ((qnat n * h - h) / 2 + e) + 360 * inject_Z (z - z0)).
  { rewrite E, H0. unfold Zminus. rewrite inject_Z_plus, inject_Z_opp. field. }
  clear H0. assert (Wi : forall i, (i <= n - 1)%nat -> 0 <= qnat i * h /\ qnat i * h <= qnat n * h - h).
  { intros i Li. apply qnat_le in Li. rewrite Q1 in Li. assert (L0 : 0 <= qnat i) by (apply (qnat_le 0 i); lia). split; nra. }
  remember (qnat n * h) as w eqn:Ew. clear Ew Q1 Hq H36.
  assert (X1 : (w - h) / 2 * 2 == w - h) by field. assert (X2 : h / 2 * 2 == h) by field.
  apply zero_or_minus in E'; [|lra|lra|lra|lra]. destruct E' as [E'|E']; [|lra].
  intros a Ha. apply In_nth_error in Ha as [i Hi]. assert (Ai := A i a Hi). assert (Li : (i <= n - 1)%nat) by (assert (nth_error f i <> None) by congruence; apply nth_error_Some in H; destruct F as [L _]; lia).
  destruct (Wi i Li) as [W1 W2]. apply Qabs_Qlt_condition. split; lra.
Qed.
Lemma before_of m a x z : direction m -> direction a -> m - a == x + 360 * inject_Z z -> 0 < x -> x < 180 -> before m a = true.
Proof.
  intros [M1 M2] [A1 A2] E X1 X2. apply zero_or_minus in E; [|lra|lra|lra|lra]. unfold before. apply orb_true_iff. rewrite andb_true_iff, !qless_true, qle_true. destruct E; lra.
Qed.
Lemma after_of m a x z : direction m -> direction a -> a - m == x + 360 * inject_Z z -> 0 < x -> x < 180 -> after m a = true.
Proof.
  intros [M1 M2] [A1 A2] E X1 X2. apply zero_or_minus in E; [|lra|lra|lra|lra]. unfold after. apply orb_true_iff. rewrite andb_true_iff, !qless_true, !qle_true. destruct E; lra.
Qed.
Lemma arrange_two mean l : n = 2%nat -> h * qnat n <= 359 -> Permutation l f -> mean_near mean h n f -> arrange mean l = f.
Proof.
  intros Hn Hw P M. destruct (M l P) as [Dm K]. specialize (K c F). destruct (near_mean _ Dm K) as (e & z & E & E1 & E2). clear K.
  destruct F as [L G]. rewrite Hn in L. destruct f as [|a [|b [|? ?]]] eqn:Ef; try discriminate.
  destruct (G 0%nat a eq_refl) as [Da [za Ea]], (G 1%nat b eq_refl) as [Db [zb Eb]]. rewrite Hn in *. change (qnat 2) with 2 in *. change (qnat 0) with 0 in *. change (qnat 1) with 1 in *.
  assert (X2 : h / 2 * 2 == h) by field.
  assert (Ba : before (mean l) a = true) by (apply (before_of _ _ (h / 2 + e) (z - za)); try assumption; try lra; rewrite E, Ea; unfold Zminus; rewrite inject_Z_plus, inject_Z_opp; field).
  assert (Ab : after (mean l) b = true) by (apply (after_of _ _ (h / 2 - e) (zb - z)); try assumption; try lra; rewrite E, Eb; unfold Zminus; rewrite inject_Z_plus, inject_Z_opp; field).
  assert (Aa : after (mean l) a = false) by (rewrite after_not_before, Ba; reflexivity).
  assert (Bb : before (mean l) b = false) by (rewrite after_not_before in Ab; now apply negb_true_iff in Ab).
  apply Permutation_sym in P. unfold arrange. cbv zeta. destruct (Permutation_length_2_inv P) as [El|El]; clear P; revert Ba Ab Aa Bb; generalize (mean l); intros m Ba Ab Aa Bb; rewrite El; cbn [filter]; rewrite Ba, Ab, Aa, Bb; reflexivity.
Qed.
Lemma arrange_one mean l : n = 1%nat -> Permutation l f -> arrange mean l = f.
Proof.
  intros Hn P. destruct F as [L _]. rewrite Hn in L. destruct f as [|a [|? ?]]; try discriminate. assert (K := Permutation_trans (arrange_perm mean l) P). now apply Permutation_sym, Permutation_length_1_inv in K.
Qed.
End Fan.
