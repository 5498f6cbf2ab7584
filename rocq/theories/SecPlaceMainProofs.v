(** Proofs for C42 and C58: the sectors chosen. *)
From Coq Require Import QArith Qround Qabs Qminmax Lqa Sorted.
From Verif Require Import Base QLib MonadLib TopologyModel SetupModel GeoModel SecLinkSpec SecLinkProofs SecPlaceModel SecPlaceSpec SecDpProofs SecPlaceProofs.
Local Open Scope Q_scope.
Local Open Scope list_scope.

Lemma flat_map_if {A B} (p : A -> bool) (g : A -> B) l : flat_map (fun x => if p x then [g x] else []) l = map g (filter p l).
Proof. induction l as [|a l IH]; cbn; [reflexivity|]. rewrite IH. now destruct (p a). Qed.
Lemma sorted_filter_nat (p : nat -> bool) l : StronglySorted lt l -> StronglySorted lt (filter p l).
Proof. induction 1 as [|a l H IH F]; cbn; [constructor|]. destruct (p a); [|exact IH]. constructor; [exact IH|]. rewrite Forall_forall in *. intros x Hx. apply filter_In in Hx. apply F. tauto. Qed.
Lemma sorted_nth l : StronglySorted lt l -> forall i j, (i < j < List.length l)%nat -> (nth i l O < nth j l O)%nat.
Proof.
  induction 1 as [|a l H IH F]; intros i j Hij; cbn in Hij; [lia|]. destruct j as [|j]; [lia|]. destruct i as [|i]; cbn [nth].
  - rewrite Forall_forall in F. apply F. apply nth_In. lia.
  - apply IH. lia.
Qed.
Lemma count_nth {A} (p : A -> bool) d l : List.length (filter (fun j => p (nth j l d)) (seq 0 (List.length l))) = List.length (filter p l).
Proof.
  induction l as [|a l IH]; [reflexivity|]. cbn [List.length seq filter]. change (nth 0 (a :: l) d) with a. rewrite <- seq_shift.
  assert (E : forall l', List.length (filter (fun j => p (nth j (a :: l) d)) (map S l')) = List.length (filter (fun j => p (nth j l d)) l')).
  { induction l' as [|b l' IH']; [reflexivity|]. cbn [map filter]. change (nth (S b) (a :: l) d) with (nth b l d). destruct (p (nth b l d)); cbn [List.length]; now rewrite IH'. }
  destruct (p a); cbn [List.length]; now rewrite E, IH.
Qed.
Lemma Forall2_nth {A B} (R : A -> B -> Prop) la lb da db i : Forall2 R la lb -> (i < List.length la)%nat -> R (nth i la da) (nth i lb db).
Proof. intros H. revert i. induction H as [|a b la lb Hab H IH]; intros i Hi; cbn in Hi; [lia|]. destruct i; cbn; [exact Hab|]. apply IH. lia. Qed.
Lemma seq_nth0 i n : (i < n)%nat -> nth i (seq 0 n) O = i.
Proof. intros H. now rewrite seq_nth. Qed.
Lemma grid_q k : grid k == 3 * qnat k.
Proof. unfold grid, DEFAULT_POINTING_PRECISION, qnat. lra. Qed.
Lemma grid_lt i j : (i < j)%nat -> grid i + 3 <= grid j.
Proof. intros H. rewrite !grid_q. assert (qnat (S i) <= qnat j) by (apply qnat_le; lia). rewrite qnat_S in *. lra. Qed.
Lemma count_eq : num_candidates = 120%nat.
Proof. reflexivity. Qed.

(** ** Placements and chains of indices *)
Section Chains.
Variables (cands : list cand) (width : Q).
Notation N := (List.length cands).
Notation az := (az cands).
Hypothesis Mono : forall i j, (i < j < N)%nat -> az i < az j.
Hypothesis Wpos : 0 < width.
Hypothesis Wfull : width <= 360.

Lemma cost_total l : cost cands l == total (met cands) l.
Proof. induction l as [|a l IH]; cbn [cost]; ts; [reflexivity|]. rewrite IH. lra. Qed.
Lemma lcost_total l : lcost cands l == total (met cands) l.
Proof. unfold lcost. rewrite cost_total. apply tot_rev. Qed.

Lemma rchain_facts f x t : rchain cands width f (x :: t) ->
  apart width (map az (rev (x :: t))) /\ (exists r, rev (x :: t) = f :: r) /\ az x + width <= az f + 360 /\ (forall y, In y (x :: t) -> (y < N)%nat).
Proof.
  remember (x :: t) as l eqn:E. intros R. revert x t E. induction R as [Hf|x c l R IH O]; intros x0 t0 E.
  - injection E as <- <-. repeat match goal with |- _ /\ _ => split end; [exact I|exists []; reflexivity|lra|intros y [<-|[]]; exact Hf].
  - injection E as <- <-. destruct (IH c l eq_refl) as (A & (r & Er) & B & I0). destruct O as (Hx & G & H1). repeat match goal with |- _ /\ _ => split end.
    + cbn [rev]. rewrite <- app_assoc. cbn [app]. change (rev l ++ [c; x]) with (rev l ++ [c] ++ [x]). rewrite app_assoc. change (rev l ++ [c]) with (rev (c :: l)). rewrite map_app. cbn [map].
      change (rev (c :: l)) with (rev l ++ [c]) in A |- *. rewrite map_app in *. cbn [map] in *. rewrite <- app_assoc. cbn [app]. revert A. generalize (map az (rev l)) as u. clear - G.
      induction u as [|a u IH]; cbn [app apart]; intros A; [split; [lra|exact I]|]. destruct u as [|b u]; cbn [app] in *; destruct A as [A1 A2]; split; auto.
    + exists (r ++ [x]). cbn [rev] in *. rewrite Er. reflexivity.
    + lra.
    + intros y [<-|Hy]; [lia|]. now apply I0.
Qed.
Lemma chain_spaced n f l : chain cands width n f l -> spaced width (map az l) /\ List.length l = n /\ (forall y, In y l -> (y < N)%nat).
Proof.
  intros (x & t & R & -> & L). destruct (rchain_facts f x t R) as (A & (r & Er) & B & I0). split; [split|split].
  - exact A.
  - rewrite Er. cbn [map]. change (az f :: map az r) with (map az (f :: r)). rewrite <- Er. cbn [rev]. rewrite map_app. cbn [map]. rewrite last_last. exact B.
  - exact L.
  - intros y Hy. apply I0. now apply in_rev.
Qed.
Lemma az_inj_lt i j : (i < N)%nat -> (j < N)%nat -> az i < az j -> (i < j)%nat.
Proof. intros Hi Hj H. destruct (Nat.lt_trichotomy i j) as [|[->|H2]]; [assumption|lra|]. assert (az j < az i) by (apply Mono; lia). lra. Qed.
Lemma chain_extend f l : forall c t, rchain cands width f (c :: t) -> apart width (map az (c :: l)) -> (forall y, In y l -> (y < N)%nat /\ az y + width <= az f + 360) ->
  exists x u, rchain cands width f (x :: u) /\ rev (x :: u) = rev (c :: t) ++ l.
Proof.
  induction l as [|b l IH]; intros c t R A H; [exists c, t; split; [exact R|now rewrite app_nil_r]|]. destruct A as [A1 A2]. destruct (H b (or_introl eq_refl)) as [Hb Hb2].
  assert (R2 : rchain cands width f (b :: c :: t)).
  { constructor; [exact R|]. assert (Hc : (c < N)%nat) by exact (rchain_head cands width f c t R). split; [split; [|exact Hb]|split; lra]. apply az_inj_lt; [exact Hc|exact Hb|lra]. }
  destruct (IH b (c :: t) R2 A2) as (x & u & Rx & E); [intros y Hy; apply H; now right|]. exists x, u. split; [exact Rx|]. rewrite E. cbn [rev]. rewrite <- !app_assoc. reflexivity.
Qed.
Lemma spaced_chain f l : (forall y, In y (f :: l) -> (y < N)%nat) -> spaced width (map az (f :: l)) -> chain cands width (S (List.length l)) f (f :: l).
Proof.
  intros H [A La]. assert (R : rchain cands width f [f]) by (constructor; apply H; now left).
  destruct (chain_extend f l f [] R A) as (x & u & Rx & E).
  - intros y Hy. split; [apply H; now right|]. pose proof (last_max width (map az (f :: l)) (az f) (Qlt_le_weak _ _ Wpos) A (az y)) as M. assert (az y <= last (map az (f :: l)) (az f)) by (apply M; apply in_map; now right). cbn [map] in *. lra.
  - exists x, u. split; [exact Rx|]. rewrite E. split; [reflexivity|]. reflexivity.
Qed.
End Chains.

(** ** The cost of a placement *)
Section Cost.
Variables (nbs : list neighbor) (number_of_nodes nspn : nat) (hsr : Q) (weight : option Q).
Hypothesis WF : wf_site nbs number_of_nodes nspn hsr weight.
Notation PEN := (PENALTY nbs).
Notation M := (qnat (List.length nbs)).
Definition dv (s : Q) (x : neighbor) : Q := between s (nb_angle x) * between s (nb_angle x) * (nb_dist x / far nbs) * kind_weight weight x.
Definition cell (s : Q) (x : neighbor) : Q := if sees hsr s x then dv s x else PEN.

Lemma PEN_eq : PEN == 1000000 * M.
Proof. reflexivity. Qed.
Lemma M_pos : 1 <= M.
Proof using WF. change 1 with (qnat 1). apply qnat_le. pose proof (wfs_some _ _ _ _ _ WF) as H. destruct nbs; [congruence|]. cbn. lia. Qed.
Lemma far_ge x : In x nbs -> nb_dist x <= far nbs.
Proof using Type.
  clear WF. unfold far. induction nbs as [|a l IH]; intros H; [destruct H|]. cbn. destruct H as [<-|H].
  - apply Q.le_max_l.
  - eapply Qle_trans; [apply IH, H|apply Q.le_max_r].
Qed.
Lemma far_pos : 0 < far nbs.
Proof using WF. pose proof (wfs_some _ _ _ _ _ WF) as H. pose proof (wfs_dist _ _ _ _ _ WF) as D. destruct nbs as [|a l] eqn:E; [congruence|]. specialize (D a (or_introl eq_refl)). pose proof (far_ge a) as F. rewrite E in F. specialize (F (or_introl eq_refl)). lra. Qed.
Lemma kind_pos x : 0 < kind_weight weight x /\ kind_weight weight x <= 8.
Proof using WF. pose proof (wfs_weight _ _ _ _ _ WF) as H. unfold kind_weight. destruct (nb_dist_type x), weight; lra. Qed.
Lemma ratio_bounds x : In x nbs -> 0 <= nb_dist x / far nbs /\ nb_dist x / far nbs <= 1.
Proof using WF.
  intros H. pose proof far_pos as F. pose proof (far_ge x H) as G. pose proof (wfs_dist _ _ _ _ _ WF x H) as D. split.
  - apply Qle_shift_div_l; lra.
  - apply Qle_shift_div_r; lra.
Qed.
Lemma dv_bounds s x : direction s -> In x nbs -> 0 <= dv s x /\ dv s x <= 259200.
Proof using WF.
  intros Ds H. unfold dv. destruct (ratio_bounds x H) as [R1 R2]. destruct (kind_pos x) as [K1 K2]. pose proof (between_le_180 s (nb_angle x)) as B2. pose proof (between_nonneg s (nb_angle x) Ds (wfs_dir _ _ _ _ _ WF x H)) as B1.
  set (b := between s (nb_angle x)) in *. set (r := nb_dist x / far nbs) in *. set (k := kind_weight weight x) in *. clearbody b r k.
  assert (0 <= b * b /\ b * b <= 32400) as [Q1 Q2] by (split; nra). assert (0 <= b * b * r /\ b * b * r <= 32400) as [Q3 Q4] by (split; nra). split; nra.
Qed.
Lemma cell_le s x : direction s -> In x nbs -> cell s x <= PEN.
Proof using WF. intros Ds H. unfold cell. destruct (sees hsr s x); [|lra]. destruct (dv_bounds s x Ds H) as [_ U]. rewrite PEN_eq. pose proof M_pos. lra. Qed.
Lemma cell_nonneg s x : direction s -> In x nbs -> 0 <= cell s x.
Proof using WF. intros Ds H. unfold cell. destruct (sees hsr s x); [|rewrite PEN_eq; pose proof M_pos; lra]. now destruct (dv_bounds s x Ds H). Qed.

Lemma seen_total S : (forall s, In s S -> direction s) -> ForallOrdPairs (sep hsr) S ->
  total (fun x => total (fun s => if sees hsr s x then 1 else 0) S) nbs == qnat (seen nbs hsr S).
Proof using WF.
  intros D F. unfold seen. rewrite <- tot_bool. apply tot_ext. intros x Hx. rewrite tot_bool, (one_sees hsr); [|exact D|exact (wfs_dir _ _ _ _ _ WF x Hx)|exact F]. destruct (existsb _ S); reflexivity.
Qed.
Lemma cost_eq S : (forall s, In s S -> direction s) -> ForallOrdPairs (sep hsr) S ->
  total (fun s => total (cell s) nbs) S == PEN * (qnat (List.length S) * M - qnat (seen nbs hsr S)) + deviation nbs hsr weight S.
Proof using WF.
  intros D F. rewrite tot_swap. rewrite (tot_ext _ (fun x => (PEN * qnat (List.length S) + - PEN * total (fun s => if sees hsr s x then 1 else 0) S) + total (fun s => if sees hsr s x then dv s x else 0) S)).
  - rewrite !tot_plus, tot_const, tot_scale, seen_total by assumption. unfold deviation, dv. lra.
  - intros x Hx. rewrite <- tot_scale, <- tot_const, <- !tot_plus. apply tot_ext. intros s Hs. unfold cell. destruct (sees hsr s x); lra.
Qed.
Lemma deviation_le S : (forall s, In s S -> direction s) -> ForallOrdPairs (sep hsr) S -> 0 <= deviation nbs hsr weight S /\ deviation nbs hsr weight S <= 259200 * M.
Proof using WF.
  intros D F. unfold deviation. split.
  - apply tot_nonneg. intros x Hx. apply tot_nonneg. intros s Hs. destruct (sees hsr s x); [|lra]. exact (proj1 (dv_bounds s x (D s Hs) Hx)).
  - eapply Qle_trans; [|apply Qle_lteq; right; rewrite <- tot_const; reflexivity]. apply tot_le. intros x Hx.
    apply Qle_trans with (total (fun s => 259200 * (if sees hsr s x then 1 else 0)) S).
    + apply tot_le. intros s Hs. destruct (sees hsr s x); [|lra]. pose proof (proj2 (dv_bounds s x (D s Hs) Hx)) as H. unfold dv in H. lra.
    + rewrite tot_scale, tot_bool, (one_sees hsr); [|exact D|exact (wfs_dir _ _ _ _ _ WF x Hx)|exact F]. destruct (existsb _ S); [change (qnat 1) with 1|change (qnat 0) with 0]; lra.
Qed.
Lemma best_of S T : (forall s, In s S -> direction s) -> ForallOrdPairs (sep hsr) S -> (forall s, In s T -> direction s) -> ForallOrdPairs (sep hsr) T ->
  List.length S = List.length T -> total (fun s => total (cell s) nbs) S <= total (fun s => total (cell s) nbs) T ->
  (seen nbs hsr T <= seen nbs hsr S)%nat /\ (seen nbs hsr T = seen nbs hsr S -> deviation nbs hsr weight S <= deviation nbs hsr weight T).
Proof using WF.
  intros DS FS DT FT L H. rewrite !cost_eq, L in H by assumption. destruct (deviation_le S DS FS) as [S0 S1]. destruct (deviation_le T DT FT) as [T0 T1]. rewrite PEN_eq in H. pose proof M_pos as M1.
  set (a := qnat (seen nbs hsr S)) in *. set (b := qnat (seen nbs hsr T)) in *. set (u := qnat (List.length T)) in *. split.
  - destruct (Nat.le_gt_cases (seen nbs hsr T) (seen nbs hsr S)) as [|G]; [assumption|]. exfalso. assert (Hab : a + 1 <= b). { assert (X : qnat (Datatypes.S (seen nbs hsr S)) <= b) by (apply qnat_le; lia). rewrite qnat_S in X. exact X. }
    assert (1000000 * M * (b - a) >= 1000000 * M) by nra. lra.
  - intros E. assert (Eb : b == a) by (subst a b; now rewrite E). rewrite Eb in H. lra.
Qed.
Lemma cost_bound S : (forall s, In s S -> direction s) -> total (fun s => total (cell s) nbs) S <= PEN * M * qnat (List.length S).
Proof using WF.
  intros D. rewrite <- tot_const. apply tot_le. intros s Hs. rewrite <- tot_const. apply tot_le. intros x Hx. apply cell_le; auto.
Qed.
End Cost.
