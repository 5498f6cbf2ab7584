From Coq Require Import ZArith QArith Lqa Lia Sorting.Sorted Sorting.Permutation.
From Verif Require Import Base Dict QLib MonadLib SetupModel LosRangeModel TopologyModel TopologySpec TopologyLemmas TopologyProofs NxModel NxSpec NxProofs NxFailProofs AvailModel AvailSpec.
Local Open Scope list_scope.

(** *** the order of events *)
Lemma pair_ltb_irrefl a : pair_ltb a a = false.
Proof. unfold pair_ltb. rewrite beq_refl, !str_ltb_irrefl. reflexivity. Qed.
Lemma pair_ltb_trans a b c : pair_ltb a b = true -> pair_ltb b c = true -> pair_ltb a c = true.
Proof.
  unfold pair_ltb. rewrite !orb_true_iff, !andb_true_iff, !beq_eq. intros [H|[H1 H2]] [H'|[H1' H2']].
  - left. eapply str_ltb_trans; eauto.
  - left. congruence.
  - left. congruence.
  - right. split; [congruence|]. eapply str_ltb_trans; eauto.
Qed.
Lemma pair_ltb_total a b : pair_ltb a b = false -> pair_ltb b a = false -> a = b.
Proof.
  destruct a as [a1 a2], b as [b1 b2]. unfold pair_ltb. cbn [fst snd]. rewrite !orb_false_iff. intros [H1 H2] [H3 H4].
  pose proof (str_ltb_total _ _ H1 H3) as ->. rewrite beq_refl in H2, H4. cbn [andb] in H2, H4. f_equal. now apply str_ltb_total.
Qed.
Definition lt (a b : event) : Prop :=
  (fst (fst a) < fst (fst b))%Q \/ (fst (fst a) == fst (fst b))%Q /\ (pair_ltb (snd (fst a)) (snd (fst b)) = true \/ snd (fst a) = snd (fst b) /\ (snd a < snd b)%nat).
Lemma event_ltb_iff a b : event_ltb a b = true <-> lt a b.
Proof.
  destruct a as [[ta ka] ya], b as [[tb kb] yb]. unfold event_ltb, lt. cbn [fst snd]. rewrite orb_true_iff, andb_true_iff, orb_true_iff, andb_true_iff, negb_true_iff, qle_false, qeq_true, beq_eq, Nat.ltb_lt. reflexivity.
Qed.
Lemma lt_irrefl a : ~ lt a a.
Proof. intros [H|[_ [H|[_ H]]]]; [lra|rewrite pair_ltb_irrefl in H; discriminate|lia]. Qed.
Lemma lt_trans a b c : lt a b -> lt b c -> lt a c.
Proof.
  intros [H|[H1 H2]] [H'|[H1' H2']]; unfold lt.
  - left. lra.
  - left. lra.
  - left. lra.
  - right. split; [lra|]. destruct H2 as [H2|[H2 H3]], H2' as [H2'|[H2' H3']].
    + left. eapply pair_ltb_trans; eauto.
    + left. congruence.
    + left. congruence.
    + right. split; [congruence|lia].
Qed.
Lemma not_lt a b : ~ lt a b -> lt b a \/ (fst (fst a) == fst (fst b))%Q /\ snd (fst a) = snd (fst b) /\ snd a = snd b.
Proof.
  intros H. destruct (Qlt_le_dec (fst (fst b)) (fst (fst a))) as [L|L]; [left; left; exact L|].
  destruct (Qlt_le_dec (fst (fst a)) (fst (fst b))) as [L'|L']; [contradict H; left; exact L'|].
  assert (E : (fst (fst a) == fst (fst b))%Q) by lra.
  destruct (pair_ltb (snd (fst a)) (snd (fst b))) eqn:E1; [contradict H; right; auto|].
  destruct (pair_ltb (snd (fst b)) (snd (fst a))) eqn:E2; [left; right; split; [lra|auto]|].
  pose proof (pair_ltb_total _ _ E1 E2) as E3. destruct (Nat.lt_trichotomy (snd a) (snd b)) as [L1|[L1|L1]].
  - contradict H. right. auto.
  - right. auto.
  - left. right. split; [lra|]. right. auto.
Qed.
Definition before (a b : event) : Prop := event_ltb b a = false.
Lemma before_iff a b : before a b <-> ~ lt b a.
Proof. unfold before. destruct (event_ltb b a) eqn:E; [|split; [|reflexivity]; intros _ H; apply event_ltb_iff in H; congruence]. apply event_ltb_iff in E. split; [discriminate|tauto]. Qed.
Lemma before_trans : Relations_1.Transitive before.
Proof.
  intros a b c. rewrite !before_iff. intros H1 H2 H3. destruct (not_lt _ _ H1) as [H|(E1 & E2 & E3)].
  - apply H2. eapply lt_trans; eauto.
  - apply H2. destruct H3 as [H|[E4 H]]; [left; lra|right; split; [lra|]]. rewrite E2, E3. exact H.
Qed.
Lemma before_time a b : before a b -> (fst (fst a) <= fst (fst b))%Q.
Proof. rewrite before_iff. intros H. apply Qnot_lt_le. intros L. apply H. now left. Qed.
Lemma insert_sorted x l : Sorted before l -> Sorted before (insert_by event_ltb x l).
Proof.
  assert (forall y l, before y x -> HdRel before y l -> HdRel before y (insert_by event_ltb x l)) as Hd.
  { intros y [|z r] H1 H2; cbn [insert_by]; [constructor; exact H1|]. destruct (event_ltb z x); constructor; [inversion H2; assumption|exact H1]. }
  induction l as [|y l IH]; intros H; cbn [insert_by]; [repeat constructor|]. destruct (event_ltb y x) eqn:E.
  - inversion H; subst. constructor; [auto|]. apply Hd; [|assumption]. apply before_iff. intros L. apply event_ltb_iff in E. exact (lt_irrefl _ (lt_trans _ _ _ L E)).
  - constructor; [exact H|]. constructor. exact E.
Qed.
Lemma sort_sorted l : StronglySorted before (sort_by event_ltb l).
Proof. apply Sorted_StronglySorted; [exact before_trans|]. unfold sort_by. induction l as [|x l IH]; cbn [fold_right]; [constructor|]. now apply insert_sorted. Qed.
Lemma sorted_filter (f : event -> bool) l : StronglySorted before l -> StronglySorted before (filter f l).
Proof.
  induction 1 as [|x l H IH F]; cbn [filter]; [constructor|]. destruct (f x); [|exact IH]. constructor; [exact IH|].
  apply Forall_forall. intros y Hy. apply filter_In in Hy. rewrite Forall_forall in F. now apply F.
Qed.
(** a list in strictly ascending order is the only sorted arrangement of its elements *)
Lemma sorted_unique l' : StronglySorted lt l' -> forall l, StronglySorted before l -> Permutation l l' -> l = l'.
Proof.
  induction 1 as [|y l' H IH F]; intros l S1 P.
  - apply Permutation_nil. now apply Permutation_sym.
  - destruct l as [|x l]; [apply Permutation_nil in P; discriminate|]. inversion S1 as [|? ? S2 F2]; subst.
    assert (x = y) as ->; [|f_equal; apply IH; [exact S2|]; now apply Permutation_cons_inv in P].
    assert (In x (y :: l')) as [E|Hx] by (eapply Permutation_in; [exact P|now left]); [auto|]. rewrite Forall_forall in F. specialize (F _ Hx).
    assert (In y (x :: l)) as [E|Hy] by (eapply Permutation_in; [apply Permutation_sym, P|now left]); [auto|]. rewrite Forall_forall in F2. specialize (F2 _ Hy). apply before_iff in F2. contradiction.
Qed.

(** *** shares of time *)
Section Holds.
Variable P : Q -> Prop.
Local Open Scope Q_scope.
Lemma holds_eq a b m m' : holds_for P a b m -> m == m' -> holds_for P a b m'.
Proof. intros H E. apply (holds_on P a a b m m'); [lra|intros; lra|exact H|lra]. Qed.
Lemma holds_le a b m : holds_for P a b m -> a <= b.
Proof. induction 1; lra. Qed.
Lemma holds_bound a b m : holds_for P a b m -> 0 <= m <= b - a.
Proof. induction 1 as [| a b c m m' L F H IH E|a b c m L F H IH]; [lra| |]; pose proof (holds_le _ _ _ H); lra. Qed.
Lemma holds_app a b c m m' m'' : holds_for P a b m -> holds_for P b c m' -> m'' == m + m' -> holds_for P a c m''.
Proof.
  intros H. revert m''. induction H as [a b m E1 E2|a b d m m0 L F H IH E|a b d m L F H IH]; intros m'' H' E'.
  - apply (holds_on P a b c m'); [lra|intros; lra|exact H'|lra].
  - apply (holds_on P a b c (m + m') m''); [exact L|exact F| |lra]. apply IH; [exact H'|lra].
  - apply (holds_off P a b c m''); [exact L|exact F|]. now apply IH.
Qed.
Lemma holds_always a b m : (forall s, a <= s -> s < b -> P s) -> holds_for P a b m -> m == b - a.
Proof.
  intros H0 H. revert H0. induction H as [a b m E1 E2|a b d m m0 L F H IH E|a b d m L F H IH]; intros H0; [lra| |]; pose proof (holds_le _ _ _ H) as L1.
  - rewrite E, IH; [lra|]. intros s L2 L3. apply H0; lra.
  - rewrite IH; [|intros s L2 L3; apply H0; lra]. destruct (Qlt_le_dec a b) as [L2|L2]; [|lra]. exfalso. apply (F a); [lra|lra|]. apply H0; lra.
Qed.
Lemma holds_never a b m : (forall s, a <= s -> s < b -> ~ P s) -> holds_for P a b m -> m == 0.
Proof.
  intros H0 H. revert H0. induction H as [a b m E1 E2|a b d m m0 L F H IH E|a b d m L F H IH]; intros H0; [lra| |]; pose proof (holds_le _ _ _ H) as L1.
  - rewrite E, IH; [|intros s L2 L3; apply H0; lra]. destruct (Qlt_le_dec a b) as [L2|L2]; [|lra]. exfalso. apply (H0 a); [lra|lra|]. apply F; lra.
  - apply IH. intros s L2 L3. apply H0; lra.
Qed.
Lemma holds_split a c m : holds_for P a c m -> forall b, a <= b -> b <= c -> exists m1 m2, holds_for P a b m1 /\ holds_for P b c m2 /\ m == m1 + m2.
Proof.
  induction 1 as [a c m E1 E2|a x c m m0 L F H IH E|a x c m L F H IH]; intros b L1 L2.
  - exists 0, 0. split; [constructor; lra|]. split; [constructor; lra|lra].
  - destruct (Qlt_le_dec b x) as [L3|L3].
    + exists (b - a), (x - b + m). split; [|split; [|lra]].
      * apply (holds_on P a b b 0); [lra| |constructor; lra|lra]. intros s L4 L5. apply F; lra.
      * apply (holds_on P b x c m); [lra| |exact H|lra]. intros s L4 L5. apply F; lra.
    + destruct (IH b L3 L2) as (m1 & m2 & H1 & H2 & E1). exists (x - a + m1), m2. split; [|split; [exact H2|lra]]. apply (holds_on P a x b m1); [exact L|exact F|exact H1|lra].
  - destruct (Qlt_le_dec b x) as [L3|L3].
    + exists 0, m. split; [|split; [|lra]].
      * apply (holds_off P a b b 0); [lra| |constructor; lra]. intros s L4 L5. apply F; lra.
      * apply (holds_off P b x c m); [lra| |exact H]. intros s L4 L5. apply F; lra.
    + destruct (IH b L3 L2) as (m1 & m2 & H1 & H2 & E1). exists m1, m2. split; [|split; [exact H2|lra]]. apply (holds_off P a x b m1); [exact L|exact F|exact H1].
Qed.
(** the share is unique *)
Lemma holds_unique a b m : holds_for P a b m -> forall m', holds_for P a b m' -> m == m'.
Proof.
  induction 1 as [a b m E1 E2|a x b m m0 L F H IH E|a x b m L F H IH]; intros m' H'.
  - apply holds_bound in H'. lra.
  - pose proof (holds_le _ _ _ H) as L1. destruct (holds_split _ _ _ H' x L L1) as (m1 & m2 & H1 & H2 & E1). apply holds_always in H1; [|exact F]. specialize (IH _ H2). lra.
  - pose proof (holds_le _ _ _ H) as L1. destruct (holds_split _ _ _ H' x L L1) as (m1 & m2 & H1 & H2 & E1). apply holds_never in H1; [|exact F]. specialize (IH _ H2). lra.
Qed.
End Holds.
Lemma holds_ext (P P' : Q -> Prop) a b m : (forall s, P s <-> P' s) -> holds_for P a b m -> holds_for P' a b m.
Proof.
  intros E. induction 1 as [a b m E1 E2|a x b m m0 L F H IH E1|a x b m L F H IH].
  - now constructor.
  - apply (holds_on P' a x b m); [exact L| |exact IH|exact E1]. intros s L1 L2. apply E, F; assumption.
  - apply (holds_off P' a x b m); [exact L| |exact IH]. intros s L1 L2 H2. apply E in H2. revert H2. apply F; assumption.
Qed.

(** *** the events of one link *)
Section Chain.
Variable draw : string * string -> nat -> Q * Q.
Variables mttf mttr : Q.
Local Notation starts := (starts draw mttf mttr).
Local Notation fails_at := (fails_at draw mttf mttr).
Local Notation down := (down draw mttf mttr).
Fixpoint chain (k : string * string) (n m : nat) : list event :=
  match m with O => [] | S m => (fails_at k n, k, 0%nat) :: (starts k (S n), k, 1%nat) :: chain k (S n) m end.
Lemma schedule_ok sim k : forall fuel n, (sim <= starts k (n + fuel))%Q -> exists m, schedule draw fuel n k mttf mttr sim (starts k n) = Ok (chain k n m) /\ (sim <= starts k (n + m))%Q.
Proof.
  induction fuel as [|fuel IH]; intros n L.
  - cbn [schedule]. rewrite Nat.add_0_r in L. destruct (Qle_bool _ _) eqn:E; [|qb; lra]. exists 0%nat. rewrite Nat.add_0_r. now split.
  - cbn [schedule]. destruct (Qle_bool _ _) eqn:E; [exists 0%nat; rewrite Nat.add_0_r; qb; now split|]. destruct (IH (S n)) as (m & E1 & L1); [now rewrite Nat.add_succ_comm|].
    exists (S m). split; [|now rewrite Nat.add_succ_comm in L1]. change (starts k n + mttf * fst (draw k n) + mttr * snd (draw k n))%Q with (starts k (S n)). rewrite E1. reflexivity.
Qed.
Lemma chain_key k : forall m n e, In e (chain k n m) -> snd (fst e) = k.
Proof. induction m as [|m IH]; intros n e; cbn [chain In]; [tauto|]. intros [<-|[<-|H]]; [reflexivity|reflexivity|eauto]. Qed.
Variable k : string * string.
Hypothesis up : forall n, (0 < mttf * fst (draw k n))%Q.
Hypothesis repair : forall n, (0 <= mttr * snd (draw k n))%Q.
Lemma fails_after n : (starts k n < fails_at k n)%Q.
Proof. unfold AvailSpec.fails_at. specialize (up n). lra. Qed.
Lemma repair_after n : (fails_at k n <= starts k (S n))%Q.
Proof. unfold AvailSpec.fails_at. cbn [AvailSpec.starts]. specialize (repair n). lra. Qed.
Lemma starts_mono n m : (n <= m)%nat -> (starts k n <= starts k m)%Q.
Proof. induction 1 as [|m H IH]; [lra|]. pose proof (fails_after m). pose proof (repair_after m). lra. Qed.
Lemma chain_le : forall m n e, In e (chain k n m) -> (starts k n < fst (fst e))%Q.
Proof.
  induction m as [|m IH]; intros n e; cbn [chain In]; [tauto|]. pose proof (fails_after n). pose proof (repair_after n). intros [<-|[<-|H1]]; cbn [fst]; [lra|lra|]. apply IH in H1. lra.
Qed.
Lemma chain_sorted : forall m n, StronglySorted lt (chain k n m).
Proof.
  induction m as [|m IH]; intros n; cbn [chain]; [constructor|]. pose proof (repair_after n) as L. constructor; [constructor; [apply IH|]|].
  - apply Forall_forall. intros e He. left. cbn [fst]. eapply chain_le; eauto.
  - constructor.
    + destruct (Qlt_le_dec (fails_at k n) (starts k (S n))) as [L1|L1]; [left; exact L1|right]. cbn [fst snd]. split; [lra|]. right. split; [reflexivity|lia].
    + apply Forall_forall. intros e He. left. cbn [fst]. apply chain_le in He. lra.
Qed.
Lemma not_down n s : (starts k n <= s)%Q -> (s < fails_at k n)%Q -> ~ down k s.
Proof.
  intros L1 L2 (m & L3 & L4). destruct (Nat.lt_trichotomy n m) as [H|[->|H]].
  - pose proof (starts_mono (S n) m H). pose proof (fails_after m). pose proof (repair_after n). lra.
  - lra.
  - pose proof (starts_mono (S m) n H). lra.
Qed.
End Chain.
