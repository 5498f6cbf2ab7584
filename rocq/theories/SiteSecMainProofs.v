(** Proofs for C74: the sectors of a site placed by the planner are accepted. *)
From Coq Require Import QArith Qabs Qminmax Permutation Lqa Sorting.Sorted.
From Verif Require TopologyLemmas TopologyProofs.
From Verif Require Import Base Dict QLib MonadLib TopologyModel SetupModel GeoModel SecLinkSpec SecLinkProofs SecPlaceModel SecPlaceSpec SecPlaceFinalProofs SiteSecModel SiteSecSpec SiteSecProofs SiteSecGeoProofs SiteSecFanProofs.
Local Open Scope Q_scope.
Local Open Scope list_scope.

(** *** nodes side by side *)
Lemma fan_end c h n f a b : fan c h n f -> (1 <= n)%nat -> ends f a b ->
  direction a /\ direction b /\ (exists z, a == c - (qnat n - 1) * h * (1 # 2) + 360 * inject_Z z) /\ (exists z, b == c + (qnat n - 1) * h * (1 # 2) + 360 * inject_Z z).
Proof.
  intros [L G] Hn [H1 H2]. destruct f as [|x t] eqn:Ef; [discriminate|]. injection H1 as ->.
  assert (E : nth_error (a :: t) (n - 1) = Some b).
  { rewrite <- L. cbn [List.length]. replace (S (List.length t) - 1)%nat with (List.length t) by lia.
    assert (R : a :: t = rev (rev (a :: t))) by (now rewrite rev_involutive). destruct (rev (a :: t)) as [|y r] eqn:Er; [discriminate|]. injection H2 as ->.
    rewrite R. cbn [rev]. assert (Lr : List.length t = List.length r) by (assert (K := rev_length (a :: t)); rewrite Er in K; cbn in K; lia). rewrite Lr, <- rev_length, nth_error_app2, Nat.sub_diag by lia. reflexivity. }
  assert (Qn : qnat (n - 1) == qnat n - 1) by (replace (qnat n) with (qnat (S (n - 1))) by (f_equal; lia); rewrite qnat_S; ring).
  destruct (G 0%nat a eq_refl) as [Da [za Ea]], (G _ b E) as [Db [zb Eb]]. split; [exact Da|]. split; [exact Db|]. split.
  - exists za. rewrite Ea. change (qnat 0) with 0. field.
  - exists zb. rewrite Eb, Qn. field.
Qed.
(** centres at least [w] apart both ways round *)
Definition far_apart (w c c' : Q) : Prop := exists x z, c' - c == x + 360 * inject_Z z /\ w <= x /\ x <= 360 - w.
Lemma far_sym w c c' : far_apart w c c' -> far_apart w c' c.
Proof. intros (x & z & E & H1 & H2). exists (360 - x), (- z - 1)%Z. split; [|lra]. unfold Zminus. rewrite inject_Z_plus, inject_Z_opp. change (inject_Z (-(1))) with (-(1)). lra. Qed.
Lemma fans_far c c' h n f f' : fan c h n f -> fan c' h n f' -> (1 <= n)%nat -> 0 < h -> far_apart (h * qnat n) c c' ->
  forall a b p q, ends f a b -> ends f' p q -> (h <= between a p /\ h <= between b p /\ h <= between a q /\ h <= between b q) /\ ~ on_arc p a b /\ ~ on_arc q a b.
Proof.
  intros F F' Hn Hh (x & z & E & H1 & H2) a b p q E1 E2.
  destruct (fan_end _ _ _ _ _ _ F Hn E1) as (Da & Db & [za Ea] & [zb Eb]). destruct (fan_end _ _ _ _ _ _ F' Hn E2) as (Dp & Dq & [zp Ep] & [zq Eq]).
  assert (Q1 : 1 <= qnat n) by (apply (qnat_le 1 n); lia). assert (K0 : 0 <= (qnat n - 1) * h) by nra. assert (Kw : h * qnat n == (qnat n - 1) * h + h) by ring.
  rewrite Kw in H1, H2. remember ((qnat n - 1) * h) as k eqn:Ek. clear Ek Kw.
  assert (T : forall u v w, inject_Z (u + v - w) == inject_Z u + inject_Z v - inject_Z w) by (intros; unfold Zminus; rewrite !inject_Z_plus, inject_Z_opp; ring).
  assert (Pa : p - a == x + 360 * inject_Z (zp + z - za)) by (rewrite T; lra).
  assert (Pb : p - b == (x - k) + 360 * inject_Z (zp + z - zb)) by (rewrite T; lra).
  assert (Qa : q - a == (x + k) + 360 * inject_Z (zq + z - za)) by (rewrite T; lra).
  assert (Qb : q - b == x + 360 * inject_Z (zq + z - zb)) by (rewrite T; lra).
  assert (Ba : b - a == k + 360 * inject_Z (zb + 0 - za)) by (rewrite T; change (inject_Z 0) with 0; lra).
  split; [repeat split|split].
  - eapply between_ge; eauto; lra.
  - eapply between_ge; eauto; lra.
  - eapply between_ge; eauto; lra.
  - eapply between_ge; eauto; lra.
  - eapply off_arc; eauto; lra.
  - eapply off_arc; eauto; lra.
Qed.
Lemma fans_clear c c' h n f f' : fan c h n f -> fan c' h n f' -> (1 <= n)%nat -> 0 < h -> far_apart (h * qnat n) c c' -> clear_of h f f'.
Proof.
  intros F F' Hn Hh W a b p q E1 E2. destruct (fans_far _ _ _ _ _ _ F F' Hn Hh W a b p q E1 E2) as (A & B & C).
  destruct (fans_far _ _ _ _ _ _ F' F Hn Hh (far_sym _ _ _ W) p q a b E2 E1) as (_ & B' & C'). tauto.
Qed.
Lemma apart_tail w : forall l a x, 0 <= w -> apart w (a :: l) -> In x l -> a + w <= x.
Proof.
  induction l as [|b l IH]; intros a x W H I; [contradiction|]. destruct H as [H1 H2]. destruct I as [->|I]; [exact H1|]. specialize (IH b x W H2 I). lra.
Qed.
Lemma last_default (l : list Q) q d d' : List.last (q :: l) d = List.last (q :: l) d'.
Proof. revert q. induction l as [|y l IH]; intros q; [reflexivity|]. cbn [List.last] in *. apply (IH y). Qed.
Lemma apart_last w : forall l a x, 0 <= w -> apart w (a :: l) -> In x (a :: l) -> x <= List.last l a.
Proof.
  induction l as [|b l IH]; intros a x W H I; [destruct I as [->|[]]; cbn; lra|]. destruct H as [H1 H2].
  assert (E : List.last (b :: l) a = List.last l b) by (destruct l as [|q l]; [reflexivity|]; cbn [List.last]; apply (last_default l q)). rewrite E. destruct I as [->|I].
  - assert (K := IH b b W H2 (or_introl eq_refl)). lra.
  - exact (IH b x W H2 I).
Qed.
Lemma spaced_far w l : 0 <= w -> spaced w l -> forall i j a b, nth_error l i = Some a -> nth_error l j = Some b -> (i < j)%nat -> w <= b - a /\ b - a <= 360 - w.
Proof.
  intros W [H1 H2] i j a b Ha Hb L. destruct l as [|x l]; [destruct i; discriminate|].
  assert (A : forall l i j a b, apart w l -> nth_error l i = Some a -> nth_error l j = Some b -> (i < j)%nat -> a + w <= b).
  { clear - W. induction l as [|y l IH]; intros [|i] [|j] a b H Ha Hb L; try discriminate; try lia.
    - injection Ha as ->. eapply apart_tail; eauto. eapply nth_error_In; eauto.
    - cbn in Ha, Hb. apply (IH i j); try assumption; [|lia]. destruct l; [exact Logic.I|apply H]. }
  split; [assert (K := A _ _ _ _ _ H1 Ha Hb L); lra|].
  assert (Kb : b <= List.last l x) by (apply (apart_last w l x b W H1); eapply nth_error_In; eauto).
  assert (Ka : x <= a) by (destruct i as [|i]; [injection Ha as ->; lra|]; assert (K := A _ 0%nat (S i) x a H1 eq_refl Ha ltac:(lia)); lra).
  assert (El : List.last (x :: l) x = List.last l x) by (destruct l; reflexivity). rewrite El in H2. lra.
Qed.

(** *** the sectors made from the placement *)
Lemma enum_nth {A} (l : list A) : forall k z a, In (z, a) (enumerate k l) <-> exists i, z = (k + Z.of_nat i)%Z /\ nth_error l i = Some a.
Proof.
  induction l as [|x l IH]; intros k z a; cbn [enumerate In].
  - split; [contradiction|]. intros ([|i] & _ & H); discriminate.
  - rewrite IH. split.
    + intros [H|(i & -> & H)]; [injection H as -> ->; exists 0%nat; split; [lia|reflexivity]|]. exists (S i). split; [lia|exact H].
    + intros ([|i] & -> & H); [left; injection H as ->; f_equal; lia|]. right. exists i. split; [lia|exact H].
Qed.
Lemma enum_fst {A} (l : list A) : forall k z, In z (map fst (enumerate k l)) -> (k <= z)%Z.
Proof. intros k z H. apply in_map_iff in H as ([z' a] & <- & H). apply enum_nth in H as (i & -> & _). cbn. lia. Qed.
Lemma enum_snd {A} (l : list A) : forall k, map snd (enumerate k l) = l.
Proof. induction l as [|x l IH]; intros k; cbn; [reflexivity|]. now rewrite IH. Qed.
Definition node_sectors (site : string) (n : Z * list Q) : list vsector := map (fun s => mkVs site (fst n) (fst s) (snd s)) (enumerate 0 (snd n)).
Lemma node_azimuths site k f n : azimuths (node_sectors site (k, f)) n = if Z.eqb k n then f else [].
Proof.
  unfold azimuths, node_sectors. cbn [fst snd]. assert (G : forall e, map v_az (filter (fun s => Z.eqb (v_node s) n) (map (fun s => mkVs site k (fst s) (snd s)) e)) = if Z.eqb k n then map snd e else []).
  { induction e as [|[i a] e IH]; cbn; [now destruct (Z.eqb k n)|]. destruct (Z.eqb k n) eqn:E; cbn; rewrite IH; reflexivity. }
  rewrite G. now rewrite enum_snd.
Qed.
Lemma made_azimuths site : forall fs k i, azimuths (flat_map (node_sectors site) (enumerate k fs)) (k + Z.of_nat i) = nth i fs [].
Proof.
  induction fs as [|f fs IH]; intros k i; cbn [enumerate flat_map]; [destruct i; reflexivity|]. rewrite azimuths_app, node_azimuths. destruct i as [|i].
  - replace (k + Z.of_nat 0)%Z with k by lia. rewrite Z.eqb_refl. cbn [nth]. rewrite azimuths_none; [apply app_nil_r|].
    apply not_true_iff_false. rewrite existsb_exists. intros (s & Hs & E). apply Z.eqb_eq in E. apply in_flat_map in Hs as ([z g] & Hz & Hs). unfold node_sectors in Hs. apply in_map_iff in Hs as (p & <- & _). cbn in E.
    apply enum_nth in Hz as (j & -> & _). lia.
  - replace (Z.eqb k (k + Z.of_nat (S i))) with false by (symmetry; apply Z.eqb_neq; lia). cbn [app nth]. replace (k + Z.of_nat (S i))%Z with ((k + 1) + Z.of_nat i)%Z by lia. apply IH.
Qed.
Lemma made_In site fs s : In s (make_sectors site fs) <-> exists i j f a, nth_error fs i = Some f /\ nth_error f j = Some a /\ s = mkVs site (Z.of_nat i) (Z.of_nat j) a.
Proof.
  unfold make_sectors. rewrite in_flat_map. split.
  - intros ([z f] & Hz & Hs). apply in_map_iff in Hs as ([y a] & <- & Hy). cbn [fst snd] in *. apply enum_nth in Hz as (i & -> & Hi), Hy as (j & -> & Hj). exists i, j, f, a. auto.
  - intros (i & j & f & a & Hi & Hj & ->). exists (Z.of_nat i, f). split; [apply enum_nth; exists i; split; [lia|exact Hi]|]. apply in_map_iff. exists (Z.of_nat j, a). split; [reflexivity|]. apply enum_nth. exists j. split; [lia|exact Hj].
Qed.
Lemma enum_nodup {A} (l : list A) : forall k, NoDup (map fst (enumerate k l)).
Proof. induction l as [|x l IH]; intros k; cbn; [constructor|]. constructor; [|apply IH]. intros H. apply enum_fst in H. lia. Qed.
Lemma node_places site k f : map (fun s => (v_node s, v_pos s)) (node_sectors site (k, f)) = map (fun z => (k, z)) (map fst (enumerate 0 f)).
Proof. unfold node_sectors. rewrite !map_map. reflexivity. Qed.
Lemma made_places site : forall fs k, own_places (flat_map (node_sectors site) (enumerate k fs)).
Proof.
  unfold own_places. induction fs as [|f fs IH]; intros k; cbn [enumerate flat_map]; [constructor|]. rewrite map_app, node_places.
  apply TopologyProofs.NoDup_app_iff. split; [|split; [apply IH|]].
  - apply FinFun.Injective_map_NoDup; [intros x y H; congruence|apply enum_nodup].
  - intros [z y] H1 H2. apply in_map_iff in H1 as (w & E & _). apply in_map_iff in H2 as (s & E2 & Hs). apply in_flat_map in Hs as ([z' g] & Hz & Hs). unfold node_sectors in Hs. apply in_map_iff in Hs as (p & <- & _). cbn in E2.
    apply enum_nth in Hz as (j & -> & _). injection E as <- _. injection E2 as E2 _. lia.
Qed.
Lemma forall2_nth {A B} (R : A -> B -> Prop) l l' : Forall2 R l l' -> forall i b, nth_error l' i = Some b -> exists a, nth_error l i = Some a /\ R a b.
Proof. induction 1 as [|a b l l' H F IH]; intros [|i] y E; try discriminate; [injection E as <-; exists a; auto|]. exact (IH i y E). Qed.
Lemma f2_length {A B} (R : A -> B -> Prop) l l' : Forall2 R l l' -> List.length l = List.length l'.
Proof. induction 1; cbn; congruence. Qed.
Lemma azimuths_perm l l' n : Permutation l l' -> Permutation (azimuths l n) (azimuths l' n).
Proof.
  intros P. unfold azimuths. apply Permutation_map. induction P as [|x l l' P IH|x y l|l1 l2 l3 P1 IH1 P2 IH2]; cbn; [constructor| | |etransitivity; eauto].
  - destruct (Z.eqb (v_node x) n); [now constructor|exact IH].
  - destruct (Z.eqb (v_node x) n), (Z.eqb (v_node y) n); try reflexivity. constructor.
Qed.
Section Accepted.
Variables (k nspn : nat) (hsr : Q) (mean : list Q -> Q) (nodes : list Q) (fs : list (list Q)) (site : string) (l : list vsector).
Hypothesis Hh : 0 < hsr.
Hypothesis Hn : (1 <= nspn)%nat.
Hypothesis Hw : (2 <= nspn)%nat -> hsr * qnat nspn <= 359.
Hypothesis Hk : (List.length nodes <= k)%nat.
Hypothesis Hs : spaced (hsr * qnat nspn) nodes.
Hypothesis HF : Forall2 (fun a f => fan a hsr nspn f) nodes fs.
Hypothesis HM : forall f, In f fs -> mean_near mean hsr nspn f.
Hypothesis HN : (nspn <= 2)%nat \/ forall f, In f fs -> not_past_north f.
Hypothesis HP : Permutation l (make_sectors site fs).
Lemma l_In s : In s l -> exists i f a, nth_error fs i = Some f /\ v_node s = Z.of_nat i /\ v_site s = site /\ In a f /\ v_az s = a.
Proof using HP.
  intros H. apply (Permutation_in _ HP) in H. apply made_In in H as (i & j & f & a & Hi & Hj & ->). exists i, f, a. cbn. split; [exact Hi|]. split; [reflexivity|]. split; [reflexivity|]. split; [eapply nth_error_In; eauto|reflexivity].
Qed.
Lemma l_az i f : nth_error fs i = Some f -> Permutation (azimuths l (Z.of_nat i)) f.
Proof using HP.
  intros H. rewrite (azimuths_perm _ _ _ HP). unfold make_sectors.
  assert (A := made_azimuths site fs 0 i). rewrite Z.add_0_l in A. unfold node_sectors in *. rewrite A. now rewrite (nth_error_nth _ _ _ H).
Qed.
Lemma arrange_fan i f : nth_error fs i = Some f -> arrange mean (azimuths l (Z.of_nat i)) = f.
Proof using Hh Hn Hw HF HM HN HP.
  intros H. destruct (forall2_nth _ _ _ HF i f H) as (c & _ & F). assert (P := l_az i f H). assert (M := HM f (nth_error_In _ _ H)).
  destruct (Nat.eq_dec nspn 1) as [E|E]; [eapply arrange_one; eauto|]. assert (N2 : (2 <= nspn)%nat) by (clear - Hn E; lia).
  destruct HN as [H2|HN']; [eapply arrange_two; eauto; clear - H2 N2; lia|]. eapply arrange_north; eauto. apply HN'. eapply nth_error_In; eauto.
Qed.
Lemma layout_accepted : validate_site_sectors k nspn hsr mean l = Ok tt.
Proof using All.
  apply validate_iff. right. apply passes_iff.
  { intros s H. destruct (l_In s H) as (i & f & a & Hi & _ & _ & Ha & ->). destruct (forall2_nth _ _ _ HF i f Hi) as (c & _ & F). eapply fan_dir; eauto. }
  split; [|split; [|split]].
  - intros s s' H H'. destruct (l_In s H) as (i & f & a & _ & _ & E & _), (l_In s' H') as (i' & f' & a' & _ & _ & E' & _). congruence.
  - unfold own_places. apply (Permutation_NoDup (Permutation_map _ (Permutation_sym HP))). apply made_places.
  - intros ns N H. apply (Nat.le_trans _ (List.length fs)).
    + rewrite <- (seq_length (List.length fs) 0), <- (map_length Z.of_nat). apply NoDup_incl_length; [exact N|]. intros n Hi. destruct (H n Hi) as (s & Hs' & <-). destruct (l_In s Hs') as (i & f & a & Hf & -> & _).
      apply in_map, in_seq. assert (K : nth_error fs i <> None) by (rewrite Hf; discriminate). apply nth_error_Some in K. clear - K. lia.
    + rewrite <- (f2_length _ _ _ HF). exact Hk.
  - intros s H. destruct (l_In s H) as (i & f & a & Hi & -> & _). destruct (forall2_nth _ _ _ HF i f Hi) as (c & Hc & F). cbv beta. rewrite (arrange_fan i f Hi). split; [|split; [|split]].
    + rewrite (Permutation_length (l_az i f Hi)). apply F.
    + symmetry. exact (l_az i f Hi).
    + destruct (Nat.eq_dec nspn 1) as [E|E]; [apply row_one; rewrite (proj1 F), E; apply Nat.le_refl|]. assert (N2 : (2 <= nspn)%nat) by (clear - Hn E; lia).
      apply (fan_row c hsr nspn f F Hh). assert (Q2 := qnat_le 2 nspn N2). change (qnat 2) with 2 in Q2. specialize (Hw N2). clear - Q2 Hw Hh. nra.
    + intros s' H' Nn. destruct (l_In s' H') as (i' & f' & a' & Hi' & E' & _). rewrite E' in Nn |- *. rewrite (arrange_fan i' f' Hi'). destruct (forall2_nth _ _ _ HF i' f' Hi') as (c' & Hc' & F').
      apply (fans_clear c c' hsr nspn f f' F F' Hn Hh).
      assert (W : 0 <= hsr * qnat nspn) by (assert (Q0 := qnat_le 0 nspn (Nat.le_0_l _)); change (qnat 0) with 0 in Q0; clear - Q0 Hh; nra).
      destruct (Nat.lt_trichotomy i i') as [L|[L|L]].
      * destruct (spaced_far _ _ W Hs i i' c c' Hc Hc' L) as [K1 K2]. exists (c' - c), 0%Z. split; [change (inject_Z 0) with 0; ring|]. split; assumption.
      * subst. congruence.
      * destruct (spaced_far _ _ W Hs i' i c' c Hc' Hc L) as [K1 K2]. apply far_sym. exists (c - c'), 0%Z. split; [change (inject_Z 0) with 0; ring|]. split; assumption.
Qed.
End Accepted.
Lemma placed_accepted nbs k nspn hsr mean sectors site l :
  wf_site nbs k nspn hsr None -> hsr * qnat nspn <= 359 ->
  find_best_sectors nbs k nspn hsr None None None (fun _ _ => false) None = Ok sectors ->
  (forall f, In f sectors -> mean_near mean hsr nspn f) -> ((nspn <= 2)%nat \/ forall f, In f sectors -> not_past_north f) ->
  Permutation l (make_sectors site sectors) ->
  validate_site_sectors k nspn hsr mean l = Ok tt.
Proof.
  intros W H359 E HM HN HP. assert (B := E). eapply fbs_best in B; eauto. destruct B as [(k' & nodes & Lk & L & Sp & Po & Fa) _].
  eapply layout_accepted; eauto; try apply W. rewrite L. exact Lk.
Qed.
