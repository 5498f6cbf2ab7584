(** Proofs for C13, C14, C32, C48 and C49. *)
From Coq Require Import QArith Lqa Lia Permutation.
From Verif Require Import Base QLib RfModel RfSpec.
Local Open Scope Q_scope.

(** ** minima and maxima *)
Lemma qmin2_spec a b : (qmin2 a b = a \/ qmin2 a b = b) /\ qmin2 a b <= a /\ qmin2 a b <= b.
Proof. unfold qmin2. destruct (Qle_bool a b) eqn:E; qb; repeat split; auto; lra. Qed.
Lemma qmax2_spec a b : (qmax2 a b = a \/ qmax2 a b = b) /\ a <= qmax2 a b /\ b <= qmax2 a b.
Proof. unfold qmax2. destruct (Qle_bool b a) eqn:E; qb; repeat split; auto; lra. Qed.
Lemma at_least_spec m x : x <= at_least m x /\ (forall p, m = Some p -> p <= at_least m x) /\
  (at_least m x = x \/ exists p, m = Some p /\ at_least m x = p /\ x <= p).
Proof.
  unfold at_least. destruct m as [p|].
  - destruct (Qle_bool x p) eqn:E; qb.
    + repeat split; [lra| |right; eauto]. intros q [= <-]. lra.
    + repeat split; [lra| |auto]. intros q [= <-]. lra.
  - repeat split; [lra| |auto]. discriminate.
Qed.
Lemma at_least_le m x y : at_least m x <= y <-> x <= y /\ forall p, m = Some p -> p <= y.
Proof.
  destruct (at_least_spec m x) as [A [B C]]. split.
  - intro H. split; [lra|]. intros p E. apply B in E. lra.
  - intros [H1 H2]. destruct C as [->|[p [E [-> _]]]]; auto.
Qed.

Lemma fold_qmin l : forall x, In (fold_left qmin2 l x) (x :: l) /\ forall y, In y (x :: l) -> fold_left qmin2 l x <= y.
Proof.
  induction l as [|a l IH]; intro x; simpl.
  - split; [auto|]. intros y [<-|[]]. lra.
  - destruct (IH (qmin2 x a)) as [H1 H2]. destruct (qmin2_spec x a) as [C [L1 L2]]. split.
    + destruct H1 as [H1|H1]; [|auto]. rewrite <- H1. destruct C as [->| ->]; auto.
    + assert (M : fold_left qmin2 l (qmin2 x a) <= qmin2 x a) by (apply H2; left; reflexivity).
      intros y [<-|[<-|H]]; [lra|lra|]. apply H2. right. exact H.
Qed.
Lemma fold_qmax l : forall x, In (fold_left qmax2 l x) (x :: l) /\ forall y, In y (x :: l) -> y <= fold_left qmax2 l x.
Proof.
  induction l as [|a l IH]; intro x; simpl.
  - split; [auto|]. intros y [<-|[]]. lra.
  - destruct (IH (qmax2 x a)) as [H1 H2]. destruct (qmax2_spec x a) as [C [L1 L2]]. split.
    + destruct H1 as [H1|H1]; [|auto]. rewrite <- H1. destruct C as [->| ->]; auto.
    + assert (M : qmax2 x a <= fold_left qmax2 l (qmax2 x a)) by (apply H2; left; reflexivity).
      intros y [<-|[<-|H]]; [lra|lra|]. apply H2. right. exact H.
Qed.
Lemma fold_nmin l : forall x, In (fold_left Nat.min l x) (x :: l) /\ forall y, In y (x :: l) -> (fold_left Nat.min l x <= y)%nat.
Proof.
  induction l as [|a l IH]; intro x; simpl.
  - split; [auto|]. intros y [<-|[]]. lia.
  - destruct (IH (Nat.min x a)) as [H1 H2]. split.
    + destruct H1 as [H1|H1]; [|auto]. rewrite <- H1. destruct (Nat.min_spec x a) as [[_ ->]|[_ ->]]; auto.
    + assert (M : (fold_left Nat.min l (Nat.min x a) <= Nat.min x a)%nat) by (apply H2; left; reflexivity).
      intros y [<-|[<-|H]]; [lia|lia|]. apply H2. right. exact H.
Qed.
Lemma fold_nmax l : forall x, In (fold_left Nat.max l x) (x :: l) /\ forall y, In y (x :: l) -> (y <= fold_left Nat.max l x)%nat.
Proof.
  induction l as [|a l IH]; intro x; simpl.
  - split; [auto|]. intros y [<-|[]]. lia.
  - destruct (IH (Nat.max x a)) as [H1 H2]. split.
    + destruct H1 as [H1|H1]; [|auto]. rewrite <- H1. destruct (Nat.max_spec x a) as [[_ ->]|[_ ->]]; auto.
    + assert (M : (Nat.max x a <= fold_left Nat.max l (Nat.max x a))%nat) by (apply H2; left; reflexivity).
      intros y [<-|[<-|H]]; [lia|lia|]. apply H2. right. exact H.
Qed.
Lemma py_min_q_ok l : l <> [] -> exists m, py_min_q l = Ok m /\ In m l /\ forall y, In y l -> m <= y.
Proof. destruct l as [|x l]; [congruence|]. intros _. exists (fold_left qmin2 l x). split; [reflexivity|]. apply fold_qmin. Qed.
Lemma py_max_q_ok l : l <> [] -> exists m, py_max_q l = Ok m /\ In m l /\ forall y, In y l -> y <= m.
Proof. destruct l as [|x l]; [congruence|]. intros _. exists (fold_left qmax2 l x). split; [reflexivity|]. apply fold_qmax. Qed.
Lemma py_min_n_ok l : l <> [] -> exists m, py_min_n l = Ok m /\ In m l /\ forall y, In y l -> (m <= y)%nat.
Proof. destruct l as [|x l]; [congruence|]. intros _. exists (fold_left Nat.min l x). split; [reflexivity|]. apply fold_nmin. Qed.
Lemma py_max_n_ok l : l <> [] -> exists m, py_max_n l = Ok m /\ In m l /\ forall y, In y l -> (y <= m)%nat.
Proof. destruct l as [|x l]; [congruence|]. intros _. exists (fold_left Nat.max l x). split; [reflexivity|]. apply fold_nmax. Qed.

(** ** the two dictionaries *)
Lemma set_mcs_fresh m s d : ~ In m (map fst d) -> set_mcs m s d = (d ++ [(m, s)])%list.
Proof.
  induction d as [|[m' s'] d IH]; simpl; [auto|]. intro H. destruct (Nat.eqb_spec m' m); [tauto|].
  rewrite IH; tauto.
Qed.
Lemma mapping_from t : forall d, NoDup (map fst d ++ map m_mcs t) ->
  fold_left (fun d r => set_mcs (m_mcs r) (m_snr r) d) t d = (d ++ map (fun r => (m_mcs r, m_snr r)) t)%list.
Proof.
  induction t as [|r t IH]; intros d N; simpl.
  - rewrite app_nil_r. reflexivity.
  - simpl in N. rewrite set_mcs_fresh.
    + rewrite IH; [rewrite <- app_assoc; reflexivity|]. rewrite map_app. simpl. rewrite <- app_assoc. exact N.
    + apply NoDup_remove_2 in N. intro H. apply N. apply in_or_app. auto.
Qed.
Lemma mapping_distinct t : distinct_classes t -> mcs_snr_mapping t = map (fun r => (m_mcs r, m_snr r)) t.
Proof. intro N. unfold mcs_snr_mapping. rewrite mapping_from; [reflexivity|exact N]. Qed.
Lemma set_snr_fresh m s d : (forall p, In p d -> ~ fst p == s) -> set_snr s m d = (d ++ [(s, m)])%list.
Proof.
  induction d as [|[s' m'] d IH]; simpl; [auto|]. intro H. destruct (Qeq_bool s' s) eqn:E; qb.
  - exfalso. apply (H (s', m')); auto.
  - rewrite IH; [reflexivity|]. intros p I. apply H. auto.
Qed.
Lemma smapping_from t : forall pre, NoDup (map m_mcs (pre ++ t)) -> increasing_snr (pre ++ t) ->
  fold_left (fun d r => set_snr (m_snr r) (m_mcs r) d) t (map (fun r => (m_snr r, m_mcs r)) pre)
  = map (fun r => (m_snr r, m_mcs r)) (pre ++ t).
Proof.
  induction t as [|r t IH]; intros pre N I; simpl.
  - rewrite app_nil_r. reflexivity.
  - rewrite set_snr_fresh.
    + replace (map _ pre ++ [_])%list with (map (fun r => (m_snr r, m_mcs r)) (pre ++ [r])) by (rewrite map_app; reflexivity).
      rewrite IH; rewrite <- app_assoc; auto.
    + intros p H E. apply in_map_iff in H as [x [<- H]]. simpl in E.
      assert (Nx : m_mcs x <> m_mcs r).
      { rewrite map_app in N. simpl in N. apply NoDup_remove_2 in N. intro C. apply N. apply in_or_app. left.
        rewrite <- C. apply in_map. exact H. }
      assert (Ix : In x (pre ++ r :: t)) by (apply in_or_app; auto).
      assert (Ir : In r (pre ++ r :: t)) by (apply in_or_app; simpl; auto).
      destruct (Nat.lt_gt_cases (m_mcs x) (m_mcs r)) as [L _]. destruct (L Nx) as [C|C].
      * apply (I _ _ Ix Ir) in C. lra.
      * apply (I _ _ Ir Ix) in C. lra.
Qed.
Lemma smapping_distinct t : distinct_classes t -> increasing_snr t ->
  snr_mcs_mapping t = map (fun r => (m_snr r, m_mcs r)) t.
Proof. intros N I. unfold snr_mcs_mapping. apply (smapping_from t []); auto. Qed.
Lemma set_mcs_ne m s d : set_mcs m s d <> [].
Proof. destruct d as [|[a b] d]; simpl; [discriminate|]. destruct (a =? m)%nat; discriminate. Qed.
Lemma set_snr_ne m s d : set_snr s m d <> [].
Proof. destruct d as [|[a b] d]; simpl; [discriminate|]. destruct (Qeq_bool a s); discriminate. Qed.
Lemma mapping_ne t : t <> [] -> mcs_snr_mapping t <> [].
Proof.
  unfold mcs_snr_mapping.
  intro H. destruct (exists_last H) as [l' [a ->]]. rewrite fold_left_app. simpl. apply set_mcs_ne.
Qed.
Lemma smapping_ne t : t <> [] -> snr_mcs_mapping t <> [].
Proof.
  unfold snr_mcs_mapping. intro H. destruct (exists_last H) as [l' [a ->]]. rewrite fold_left_app. simpl. apply set_snr_ne.
Qed.

(** ** C13 *)
Lemma get_mcs_total s t : t <> [] -> exists m, get_mcs_from_snr s t = Ok m /\
  (m = 0%nat \/ exists q x, s = Some q /\ In (m, x) (mcs_snr_mapping t) /\ x <= q) /\
  (forall q k x, s = Some q -> In (k, x) (mcs_snr_mapping t) -> x <= q -> (k <= m)%nat).
Proof.
  intro H. unfold get_mcs_from_snr. destruct s as [s|].
  2:{ exists 0%nat. split; [reflexivity|]. split; [auto|]. discriminate. }
  destruct (py_min_q_ok (map snd (mcs_snr_mapping t))) as [lo [E [I L]]].
  { intro C. apply map_eq_nil in C. apply mapping_ne in C; auto. }
  rewrite E. simpl. destruct (Qle_bool lo s) eqn:B; simpl; qb.
  - set (l := map fst _). destruct (py_max_n_ok l) as [m [Em [Im Lm]]].
    { unfold l. apply in_map_iff in I as [[k x] [Ex I]]. simpl in Ex. subst x. intro C. apply map_eq_nil in C.
      assert (F : In (k, lo) (filter (fun p => Qle_bool (snd p) s) (mcs_snr_mapping t))).
      { apply filter_In. split; [exact I|]. apply qle_true. exact B. }
      rewrite C in F. exact F. }
    exists m. split; [exact Em|]. unfold l in *. split.
    + right. apply in_map_iff in Im as [[k x] [Ek F]]. apply filter_In in F as [F1 F2]. simpl in *. subst k. qb.
      exists s, x. auto.
    + intros q k x [= <-] F1 F2. apply Lm. apply in_map_iff. exists (k, x). split; [reflexivity|]. apply filter_In.
      split; [exact F1|]. apply qle_true. exact F2.
  - exists 0%nat. split; [reflexivity|]. split; [auto|]. intros q k x [= <-] F1 F2.
    specialize (L x). assert (lo <= x) by (apply L; apply in_map_iff; exists (k, x); auto). lra.
Qed.
Lemma get_mcs_highest s t : t <> [] -> distinct_classes t ->
  exists m, get_mcs_from_snr (Some s) t = Ok m /\ highest_supported t s m.
Proof.
  intros H D. destruct (get_mcs_total (Some s) t H) as [m [E [A B]]]. exists m. split; [exact E|].
  rewrite mapping_distinct in A, B by exact D.
  assert (B' : forall r, In r t -> m_snr r <= s -> (m_mcs r <= m)%nat).
  { intros r I L. apply (B s _ (m_snr r)); auto. apply in_map_iff. exists r. auto. }
  destruct A as [->|[q [x [[= <-] [I L]]]]].
  - destruct (existsb (fun r => Qle_bool (m_snr r) s) t) eqn:X.
    + apply existsb_exists in X as [r [I L]]. qb. left. exists r. repeat split; auto.
      specialize (B' _ I L). lia.
    + right. split; [reflexivity|]. intros r I. apply qle_false.
      destruct (Qle_bool (m_snr r) s) eqn:Q; [|reflexivity].
      assert (existsb (fun r => Qle_bool (m_snr r) s) t = true) by (apply existsb_exists; eauto). congruence.
  - left. apply in_map_iff in I as [r [[= <- <-] I]]. exists r. auto.
Qed.
Lemma highest_unique t s m m' : highest_supported t s m -> highest_supported t s m' -> m = m'.
Proof.
  intros [[r [I [E [L B]]]]|[-> B]] [[r' [I' [E' [L' B']]]]|[-> B']].
  - specialize (B _ I' L'). specialize (B' _ I L). lia.
  - specialize (B' _ I). lra.
  - specialize (B _ I'). lra.
  - reflexivity.
Qed.
Lemma get_mcs_monotone s s' t m m' : s <= s' -> get_mcs_from_snr (Some s) t = Ok m ->
  get_mcs_from_snr (Some s') t = Ok m' -> (m <= m')%nat.
Proof.
  intros L E E'. destruct t as [|r t]; [discriminate|].
  destruct (get_mcs_total (Some s) (r :: t)) as [k [Ek [A _]]]; [discriminate|].
  destruct (get_mcs_total (Some s') (r :: t)) as [k' [Ek' [_ B]]]; [discriminate|].
  rewrite E in Ek. injection Ek as <-. rewrite E' in Ek'. injection Ek' as <-.
  destruct A as [->|[q [x [[= <-] [I Lx]]]]]; [lia|]. apply (B s' _ x); auto. lra.
Qed.
Lemma get_mcs_empty s : get_mcs_from_snr (Some s) [] = Err PyValueError.
Proof. reflexivity. Qed.

Lemma first_row_In m t r : first_row m t = Some r -> In r t /\ m_mcs r = m.
Proof.
  induction t as [|x t IH]; simpl; [discriminate|]. destruct (Nat.eqb_spec (m_mcs x) m).
  - intros [= <-]. auto.
  - intro H. apply IH in H. tauto.
Qed.
Lemma first_row_None m t : first_row m t = None <-> forall r, In r t -> m_mcs r <> m.
Proof.
  induction t as [|x t IH]; simpl.
  - split; [intros _ r []|reflexivity].
  - destruct (Nat.eqb_spec (m_mcs x) m).
    + split; [discriminate|]. intro H. exfalso. apply (H x); auto.
    + rewrite IH. split; [intros H r [<-|I]; auto|intros H r I; auto].
Qed.
Lemma class_inj t r r' : distinct_classes t -> In r t -> In r' t -> m_mcs r = m_mcs r' -> r = r'.
Proof.
  unfold distinct_classes. induction t as [|x t IH]; simpl; [tauto|]. intros N I I' E. inversion N as [|? ? N1 N2]; subst.
  destruct I as [->|I], I' as [->|I']; auto.
  - exfalso. apply N1. rewrite E. apply in_map. exact I'.
  - exfalso. apply N1. rewrite <- E. apply in_map. exact I.
Qed.
Lemma first_row_exact t r : distinct_classes t -> In r t -> first_row (m_mcs r) t = Some r.
Proof.
  intros D I. destruct (first_row (m_mcs r) t) as [x|] eqn:E.
  - apply first_row_In in E as [Ix Ex]. f_equal. apply (class_inj t); auto.
  - rewrite first_row_None in E. exfalso. apply (E r); auto.
Qed.
Lemma get_snr_total m t : t <> [] -> exists s, get_snr_from_mcs m t = Ok s.
Proof.
  intro H. unfold get_snr_from_mcs. destruct (py_min_n_ok (map snd (snr_mcs_mapping t))) as [lo [E [I L]]].
  { intro C. apply map_eq_nil in C. apply smapping_ne in C; auto. }
  rewrite E. simpl. destruct (Nat.ltb_spec m lo); [eauto|].
  destruct (py_max_q_ok (map fst (filter (fun p => (snd p <=? m)%nat) (snr_mcs_mapping t)))) as [x [Ex _]]; [|eauto].
  intro C. apply map_eq_nil in C. apply in_map_iff in I as [p [Ep I]].
  assert (F : In p (filter (fun p => (snd p <=? m)%nat) (snr_mcs_mapping t))).
  { apply filter_In. split; [exact I|]. apply Nat.leb_le. lia. }
  rewrite C in F. exact F.
Qed.
Lemma get_snr_exact t r : distinct_classes t -> increasing_snr t -> In r t ->
  get_snr_from_mcs (m_mcs r) t = Ok (m_snr r).
Proof.
  intros D N I. unfold get_snr_from_mcs. rewrite smapping_distinct by auto.
  destruct (py_min_n_ok (map snd (map (fun r => (m_snr r, m_mcs r)) t))) as [lo [E [Il L]]].
  { destruct t; [destruct I|discriminate]. }
  rewrite E. simpl. assert (lo <= m_mcs r)%nat.
  { apply L. rewrite map_map. simpl. apply (in_map m_mcs). exact I. }
  destruct (Nat.ltb_spec (m_mcs r) lo); [lia|].
  match goal with |- py_max_q ?l = _ => destruct (py_max_q_ok l) as [x [Ex [Ix Lx]]] end.
  { intro C. apply map_eq_nil in C.
    assert (F : In (m_snr r, m_mcs r) (filter (fun p => (snd p <=? m_mcs r)%nat) (map (fun r => (m_snr r, m_mcs r)) t))).
    { apply filter_In. split; [apply in_map_iff; eauto|]. apply Nat.leb_le. simpl. lia. }
    rewrite C in F. exact F. }
  rewrite Ex. f_equal. apply in_map_iff in Ix as [[y k] [Ey F]]. apply filter_In in F as [F1 F2].
  apply in_map_iff in F1 as [r' [[= <- <-] I']]. simpl in *. subst x. apply Nat.leb_le in F2.
  destruct (Nat.eq_dec (m_mcs r') (m_mcs r)) as [Eq|Ne].
  - f_equal. apply (class_inj t); auto.
  - assert (Lt : m_snr r' < m_snr r) by (apply N; auto; lia).
    assert (m_snr r <= m_snr r').
    { apply Lx. apply in_map_iff. exists (m_snr r, m_mcs r). split; [reflexivity|]. apply filter_In.
      split; [apply in_map_iff; eauto|]. apply Nat.leb_le. simpl. lia. }
    lra.
Qed.
Lemma table_inverse t r : distinct_classes t -> increasing_snr t -> In r t ->
  get_mcs_from_snr (Some (m_snr r)) t = Ok (m_mcs r) /\ get_snr_from_mcs (m_mcs r) t = Ok (m_snr r) /\
  get_link_capacity_from_mcs (m_mcs r) t = m_mbps r / 1000 /\ get_backoff_from_mcs (m_mcs r) t = m_backoff r.
Proof.
  intros D N I. split; [|split; [|split]].
  - destruct (get_mcs_highest (m_snr r) t) as [m [E H]]; [destruct t; [destruct I|discriminate]|exact D|].
    rewrite E. f_equal. apply (highest_unique _ _ _ _ H). left. exists r. repeat split; auto; [lra|].
    intros r' I' L. apply Nat.le_ngt. intro C. apply (N _ _ I I') in C. lra.
  - apply get_snr_exact; auto.
  - unfold get_link_capacity_from_mcs. rewrite first_row_exact; auto.
  - unfold get_backoff_from_mcs. rewrite first_row_exact; auto.
Qed.
Lemma mcs_snr_galois t r s m : distinct_classes t -> increasing_snr t -> In r t ->
  get_mcs_from_snr (Some s) t = Ok m -> (m_snr r <= s -> (m_mcs r <= m)%nat) /\ ((0 < m_mcs r)%nat -> (m_mcs r <= m)%nat -> m_snr r <= s).
Proof.
  intros D N I E. destruct (get_mcs_highest s t) as [m' [E' H]]; [destruct t; [destruct I|discriminate]|exact D|].
  rewrite E in E'. injection E' as <-. destruct H as [[x [Ix [Ex [Lx B]]]]|[-> B]].
  - split; [auto|]. intros P L. destruct (Nat.eq_dec (m_mcs r) (m_mcs x)) as [Q|Q].
    + rewrite (class_inj t r x); auto.
    + assert (m_snr r < m_snr x) by (apply N; auto; lia). lra.
  - split; [|lia]. specialize (B _ I). lra.
Qed.
Lemma absent_class t m : (forall r, In r t -> m_mcs r <> m) ->
  get_link_capacity_from_mcs m t = 0 /\ get_backoff_from_mcs m t = 0.
Proof.
  intro H. apply first_row_None in H. unfold get_link_capacity_from_mcs, get_backoff_from_mcs. rewrite H. auto.
Qed.

(** ** C14 *)
Lemma max_tx_le_maximum mx mn b d e : (forall p, mn = Some p -> p <= mx) -> get_max_tx_power mx mn b d e <= mx.
Proof.
  intro H. unfold get_max_tx_power. apply at_least_le. split; [|exact H].
  destruct e as [e|]; [apply qmin2_spec|lra].
Qed.
Lemma max_tx_le_eirp mx mn b d e : (forall p, mn = Some p -> p + (b + d) <= e) ->
  get_max_tx_power mx mn b d (Some e) + (b + d) <= e.
Proof.
  intro H. assert (get_max_tx_power mx mn b d (Some e) <= e - (b + d)); [|lra].
  unfold get_max_tx_power. apply at_least_le. split; [apply qmin2_spec|]. intros p E. apply H in E. lra.
Qed.
Lemma max_tx_ge_minimum mx mn b d e p : mn = Some p -> p <= get_max_tx_power mx mn b d e.
Proof. intro E. unfold get_max_tx_power. apply at_least_spec. exact E. Qed.
Lemma max_tx_is_largest mx mn b d e q : q <= mx -> (forall x, e = Some x -> q + (b + d) <= x) ->
  q <= get_max_tx_power mx mn b d e.
Proof.
  intros H1 H2. unfold get_max_tx_power. set (x := match e with None => _ | Some _ => _ end).
  assert (q <= x) by (unfold x; destruct e as [y|]; [specialize (H2 y eq_refl); destruct (qmin2_spec mx (y - (b + d))) as [[->| ->] _]; lra|exact H1]).
  destruct (at_least_spec mn x) as [A _]. lra.
Qed.

Lemma adjust_spec t mn mx g np : forall m k p, adjust_tx_power_with_backoff m t mn mx g np = Ok (k, p) ->
  (k <= m)%nat /\
  ((k = 0%nat /\ p = None) \/
   ((0 < k)%nat /\ exists snr, get_snr_from_mcs k t = Ok snr /\ p = Some (power_for mn g np snr) /\
      power_for mn g np snr <= mx - get_backoff_from_mcs k t)) /\
  (forall j, (k < j <= m)%nat -> exists snr, get_snr_from_mcs j t = Ok snr /\
      mx - get_backoff_from_mcs j t < power_for mn g np snr).
Proof.
  induction m as [|m IH]; intros k p E.
  - cbn in E. injection E as <- <-. split; [lia|]. split; [auto|]. intros j J. lia.
  - cbn [adjust_tx_power_with_backoff] in E. unfold rbind in E.
    destruct (get_snr_from_mcs (S m) t) as [snr|] eqn:ES; [|discriminate].
    destruct (Qle_bool _ _) eqn:B; qb.
    + injection E as <- <-. split; [lia|]. split.
      * right. split; [lia|]. eauto.
      * intros j J. lia.
    + apply IH in E as [L [C N]]. split; [lia|]. split; [exact C|]. intros j J.
      destruct (Nat.eq_dec j (S m)) as [->|Ne]; [eauto|]. apply N. lia.
Qed.
Lemma adjust_total t mn mx g np m : t <> [] -> exists k p, adjust_tx_power_with_backoff m t mn mx g np = Ok (k, p).
Proof.
  intro H. induction m as [|m [k [p IH]]]; cbn [adjust_tx_power_with_backoff]; [eauto|].
  destruct (get_snr_total (S m) t H) as [s ->]. simpl rbind. destruct (Qle_bool _ _); eauto.
Qed.
Lemma backoff_ge0 t m : backoff_nonneg t -> 0 <= get_backoff_from_mcs m t.
Proof.
  intro H. unfold get_backoff_from_mcs. destruct (first_row m t) as [r|] eqn:E; [|lra].
  apply H. apply first_row_In in E. tauto.
Qed.
Lemma adjust_power t mn mx g np m k p : t <> [] -> backoff_nonneg t ->
  adjust_tx_power_with_backoff m t mn mx g np = Ok (k, Some p) ->
  (0 < k <= m)%nat /\ p <= mx - get_backoff_from_mcs k t /\ p <= mx /\ (forall q, mn = Some q -> q <= p).
Proof.
  intros H B E. apply adjust_spec in E as [L [[[-> C]|[P [snr [ES [Ep Lp]]]]] _]]; [discriminate|].
  injection Ep as ->. pose proof (backoff_ge0 t k B). repeat split; [exact P|exact L|exact Lp|lra|].
  intros q E. unfold power_for. apply at_least_spec. exact E.
Qed.

Lemma link_budget_total mx mn g np t : t <> [] -> exists b, link_budget mx mn g np t = Ok b.
Proof.
  intro H. unfold link_budget. destruct (get_mcs_total (Some (mx + g - np)) t H) as [m [-> _]]. cbn [rbind].
  destruct (adjust_total t mn mx g np m H) as [k [p ->]]. cbn. eauto.
Qed.
Lemma link_budget_inv mx mn g np t b : link_budget mx mn g np t = Ok b ->
  exists m p, get_mcs_from_snr (Some (mx + g - np)) t = Ok m /\
    adjust_tx_power_with_backoff m t mn mx g np = Ok (b_mcs b, p) /\
    b_tx b = mx - get_backoff_from_mcs (b_mcs b) t /\ b_capacity b = get_link_capacity_from_mcs (b_mcs b) t /\
    b_rsl b = b_tx b + g /\ b_snr b = b_tx b + g - np.
Proof.
  unfold link_budget, rbind. destruct (get_mcs_from_snr _ t) as [m|] eqn:E; [|discriminate].
  destruct (adjust_tx_power_with_backoff m t mn mx g np) as [[k p]|] eqn:A; [|discriminate].
  intros [= <-]. exists m, p. cbn. auto 10.
Qed.
Lemma link_budget_power mx mn g np t b : backoff_nonneg t -> link_budget mx mn g np t = Ok b ->
  b_tx b <= mx /\ ((0 < b_mcs b)%nat -> forall q, mn = Some q -> q <= b_tx b).
Proof.
  intros B E. apply link_budget_inv in E as [m [p [_ [A [-> _]]]]]. pose proof (backoff_ge0 t (b_mcs b) B).
  split; [lra|]. intros P q Q. apply adjust_spec in A as [_ [[[Z _]|[_ [snr [_ [_ L]]]]] _]]; [lia|].
  unfold power_for in L. apply at_least_le in L as [_ L]. auto.
Qed.

(** ** C48, C49 *)
Lemma power_closes mx mn g np r : closes mx mn g np r <-> power_for mn g np (m_snr r) <= mx - m_backoff r.
Proof.
  unfold closes, power_for. rewrite at_least_le. split; intros [A B]; split; auto; lra.
Qed.
Lemma link_budget_best mx mn g np t : good_table t -> exists b, link_budget mx mn g np t = Ok b /\
  best_capacity t mx mn g np (b_capacity b) /\ b_capacity b = get_link_capacity_from_mcs (b_mcs b) t.
Proof.
  intros [H [D [N [G [B P]]]]]. destruct (link_budget_total mx mn g np t H) as [b E]. exists b. split; [exact E|].
  apply link_budget_inv in E as [m [p [Em [A [_ [-> _]]]]]]. split; [|reflexivity].
  apply adjust_spec in A as [L [C M]].
  destruct (get_mcs_highest (mx + g - np) t H D) as [m' [Em' Hm]]. rewrite Em in Em'. injection Em' as <-.
  assert (Up : forall r, In r t -> closes mx mn g np r -> (m_mcs r <= b_mcs b)%nat).
  { intros r I Cl. assert (Lm : (m_mcs r <= m)%nat).
    { destruct Hm as [[x [_ [_ [_ Q]]]]|[_ Q]].
      - apply Q; [exact I|]. destruct Cl as [Cl _]. specialize (B r I). lra.
      - specialize (Q r I). destruct Cl as [Cl _]. specialize (B r I). lra. }
    apply Nat.le_ngt. intro Lt. destruct (M (m_mcs r)) as [snr [Es Ls]]; [lia|].
    destruct (table_inverse t r D N I) as [_ [T1 [_ T2]]]. rewrite T1 in Es. injection Es as <-. rewrite T2 in Ls.
    apply power_closes in Cl. lra. }
  destruct (first_row (b_mcs b) t) as [r|] eqn:F.
  - apply first_row_In in F as [I Er].
    destruct C as [[Z _]|[_ [snr [Es [_ Ls]]]]]; [specialize (P r I); lia|].
    destruct (table_inverse t r D N I) as [_ [T1 [T3 T2]]]. rewrite Er in *. rewrite T1 in Es. injection Es as <-.
    rewrite T2 in Ls. left. exists r. split; [exact I|]. split; [apply power_closes; exact Ls|].
    split; [rewrite T3; reflexivity|]. intros r' I' Cl. rewrite Er. auto.
  - rewrite first_row_None in F. right. split.
    + destruct (absent_class t (b_mcs b) F) as [-> _]. reflexivity.
    + intros r I Cl. specialize (Up r I Cl).
      destruct Hm as [[x [Ix [Ex _]]]|[-> _]].
      * destruct (G r x (b_mcs b) I Ix) as [y [Iy Ey]]; [lia|]. apply (F y); auto.
      * specialize (P r I). lia.
Qed.
Lemma best_capacity_mono t mx mn g np mx' g' np' c c' :
  throughput_increasing t -> mx <= mx' -> g <= g' -> np' <= np ->
  best_capacity t mx mn g np c -> best_capacity t mx' mn g' np' c' -> c <= c'.
Proof.
  intros [P T] L1 L2 L3 H H'.
  assert (Cl : forall r, closes mx mn g np r -> closes mx' mn g' np' r).
  { intros r [A B]. split; [lra|]. intros p E. specialize (B p E). lra. }
  assert (Dv : forall a b, a <= b -> a / 1000 <= b / 1000).
  { intros a b L. unfold Qdiv. apply Qmult_le_compat_r; [exact L|]. unfold Qle. simpl. lia. }
  destruct H as [[r [I [C [E B]]]]|[E B]].
  - destruct H' as [[r' [I' [C' [E' B']]]]|[E' B']].
    + rewrite E, E'. apply Dv. apply T; auto.
    + exfalso. apply (B' r I). auto.
  - destruct H' as [[r' [I' [C' [E' B']]]]|[E' B']].
    + rewrite E, E'. specialize (P r' I'). pose proof (Dv 0 _ P) as X. unfold Qdiv in X at 1. lra.
    + lra.
Qed.
Lemma link_budget_monotone t mx mn g np mx' g' np' b b' :
  good_table t -> throughput_increasing t -> mx <= mx' -> g <= g' -> np' <= np ->
  link_budget mx mn g np t = Ok b -> link_budget mx' mn g' np' t = Ok b' -> b_capacity b <= b_capacity b'.
Proof.
  intros G T L1 L2 L3 E E'.
  destruct (link_budget_best mx mn g np t G) as [x [Ex [Bx _]]]. rewrite E in Ex. injection Ex as <-.
  destruct (link_budget_best mx' mn g' np' t G) as [x [Ex [Bx' _]]]. rewrite E' in Ex. injection Ex as <-.
  apply (best_capacity_mono t mx mn g np mx' g' np'); auto.
Qed.

(** ** C32: the loader *)
Lemma insert_perm x l : Permutation (x :: l) (insert_by x l).
Proof.
  induction l as [|y l IH]; simpl; [auto|]. destruct (Qle_bool _ _); [auto|].
  rewrite perm_swap. constructor. exact IH.
Qed.
Lemma sort_perm l : Permutation l (sort_by l).
Proof. induction l as [|x l IH]; simpl; [auto|]. rewrite <- insert_perm. constructor. exact IH. Qed.
Inductive ordered : list (nat * Q) -> Prop :=
| ord_nil : ordered []
| ord_cons x l : (forall y, In y l -> snd x <= snd y) -> ordered l -> ordered (x :: l).
Lemma insert_ordered x l : ordered l -> ordered (insert_by x l).
Proof.
  induction 1 as [|y l H O IH]; simpl.
  - constructor; [intros y []|constructor].
  - destruct (Qle_bool _ _) eqn:E; qb.
    + constructor; [|constructor; auto]. intros z [<-|I]; [exact E|]. specialize (H _ I). lra.
    + constructor; [|exact IH]. intros z I. apply (Permutation_in _ (Permutation_sym (insert_perm x l))) in I.
      destruct I as [<-|I]; [lra|auto].
Qed.
Lemma sort_ordered l : ordered (sort_by l).
Proof. induction l; simpl; [constructor|]. apply insert_ordered. assumption. Qed.
Lemma enum_In {A} (l : list A) : forall k i x, In (i, x) (enum_from k l) <-> (k <= i)%nat /\ nth_error l (i - k) = Some x.
Proof.
  induction l as [|a l IH]; intros k i x; simpl.
  - split; [intros []|]. intros [_ H]. destruct (i - k)%nat; discriminate.
  - rewrite IH. split.
    + intros [[= <- <-]|[L H]].
      * split; [lia|]. rewrite Nat.sub_diag. reflexivity.
      * split; [lia|]. replace (i - k)%nat with (S (i - S k)) by lia. exact H.
    + intros [L H]. destruct (Nat.eq_dec i k) as [->|N].
      * left. rewrite Nat.sub_diag in H. simpl in H. congruence.
      * right. split; [lia|]. replace (i - k)%nat with (S (i - S k)) in H by lia. exact H.
Qed.
(** positions in an ordering *)
Definition before (o : list nat) (i j : nat) : Prop := exists a b c, o = (a ++ i :: b ++ j :: c)%list.
Lemma before_ordered s i j : ordered s -> before (map fst s) i j ->
  exists x y, In (i, x) s /\ In (j, y) s /\ x <= y.
Proof.
  intros O [a [b [c E]]]. revert s O E. induction a as [|k a IH]; intros s O E.
  - destruct s as [|[i' x] s]; [discriminate|]. simpl in E. injection E as -> E. inversion O as [|? ? H O']; subst.
    assert (I : In j (map fst s)) by (rewrite E; apply in_or_app; right; left; reflexivity).
    apply in_map_iff in I as [[j' y] [Ej I]]. simpl in Ej. subst j'. exists x, y. simpl. repeat split; auto.
    apply (H _ I).
  - destruct s as [|p s]; [discriminate|]. simpl in E. injection E as _ E. inversion O as [|? ? H O']; subst.
    destruct (IH s O' E) as [x [y [I1 [I2 L]]]]. exists x, y. simpl. auto.
Qed.
Lemma before_total o i j : In i o -> In j o -> i <> j -> before o i j \/ before o j i.
Proof.
  intros I J N. apply in_split in I as [a [b ->]]. apply in_app_or in J as [J|[J|J]].
  - right. apply in_split in J as [a' [b' ->]]. exists a', b', b. rewrite <- app_assoc. reflexivity.
  - congruence.
  - left. apply in_split in J as [a' [b' ->]]. exists a, a', b'. reflexivity.
Qed.
Lemma ordering_In l i x : nth_error l i = Some x -> In i (get_ordering l).
Proof.
  intro H. unfold get_ordering. apply in_map_iff. exists (i, x). split; [reflexivity|].
  apply (Permutation_in _ (sort_perm _)). apply enum_In. split; [lia|]. rewrite Nat.sub_0_r. exact H.
Qed.
Lemma ordering_before l i j : before (get_ordering l) i j ->
  exists x y, nth_error l i = Some x /\ nth_error l j = Some y /\ x <= y.
Proof.
  intro B. apply (before_ordered _ _ _ (sort_ordered _)) in B as [x [y [I1 [I2 L]]]].
  apply (Permutation_in _ (Permutation_sym (sort_perm _))) in I1.
  apply (Permutation_in _ (Permutation_sym (sort_perm _))) in I2.
  apply enum_In in I1 as [_ I1]. apply enum_In in I2 as [_ I2]. rewrite Nat.sub_0_r in I1, I2. eauto.
Qed.
Lemma same_ordering_monotone l l' i j x y x' y' : get_ordering l = get_ordering l' ->
  nth_error l i = Some x -> nth_error l j = Some y -> nth_error l' i = Some x' -> nth_error l' j = Some y' ->
  x < y -> x' <= y'.
Proof.
  intros E Hi Hj Hi' Hj' L. destruct (Nat.eq_dec i j) as [->|N].
  - rewrite Hi in Hj. injection Hj as <-. lra.
  - destruct (before_total (get_ordering l) i j) as [B|B]; eauto using ordering_In.
    + rewrite E in B. apply ordering_before in B as [a [b [A1 [A2 A3]]]]. congruence.
    + apply ordering_before in B as [a [b [A1 [A2 A3]]]].
      rewrite Hj in A1. rewrite Hi in A2. injection A1 as <-. injection A2 as <-. lra.
Qed.
Lemma same_order_true a b : same_order a b = true <-> a = b.
Proof. unfold same_order. destruct (list_eq_dec Nat.eq_dec a b); split; congruence. Qed.
Lemma check_consistent mx mn mm rows t : check_table mx mn mm rows = Ok t -> consistent rows.
Proof.
  unfold check_table. destruct (negb _) eqn:E; [discriminate|]. intros _.
  apply Bool.negb_false_iff in E. apply andb_prop in E as [E E3]. apply andb_prop in E as [E1 E2].
  apply same_order_true in E1, E2, E3. intros r r' I I' L.
  apply In_nth_error in I as [i I]. apply In_nth_error in I' as [j I'].
  pose proof (map_nth_error n_mcs _ _ I) as A. pose proof (map_nth_error n_mcs _ _ I') as A'.
  split; [|split].
  - apply (same_ordering_monotone _ _ i j _ _ _ _ E1 A A'); auto using map_nth_error.
  - apply (same_ordering_monotone _ _ i j _ _ _ _ E2 A A'); auto using map_nth_error.
  - apply (same_ordering_monotone _ _ i j _ _ _ _ E3 A A'); auto using map_nth_error.
Qed.
Lemma allowed_permitted mx mn mm r : allowed_row mx mn mm r = true <-> permitted mx mn mm r.
Proof.
  unfold allowed_row, permitted. rewrite Bool.andb_true_iff. split; intros [A B]; split.
  - intros p ->. apply qle_true. exact A.
  - intros p ->. apply qle_true. exact B.
  - destruct mn; [apply qle_true; auto|reflexivity].
  - destruct mm; [apply qle_true; auto|reflexivity].
Qed.
Lemma filter_selection mx mn mm rows :
  selection (permitted mx mn mm) rows (map to_row (filter (allowed_row mx mn mm) rows)).
Proof.
  induction rows as [|r rows IH]; simpl; [constructor|].
  destruct (allowed_row mx mn mm r) eqn:E; simpl.
  - apply sel_keep; [apply allowed_permitted; exact E|exact IH].
  - apply sel_drop; [|exact IH]. intro C. apply allowed_permitted in C. congruence.
Qed.
Lemma check_selection mx mn mm rows t : check_table mx mn mm rows = Ok t -> selection (permitted mx mn mm) rows t.
Proof.
  unfold check_table. destruct (negb _); [discriminate|]. unfold rbind.
  destruct (match mm with None => _ | Some _ => _ end); [|discriminate]. intros [= <-]. apply filter_selection.
Qed.
Lemma selection_In P rows t : selection P rows t -> forall x, In x t -> exists r, In r rows /\ P r /\
  x = mkRow (trunc (n_mcs r)) (n_snr r) (n_mbps r) (n_backoff r).
Proof.
  induction 1 as [|r rows t Pr S IH|r rows t Pr S IH]; intros x I; simpl in *.
  - destruct I.
  - destruct I as [<-|I]; [eauto|]. destruct (IH x I) as [y [A B]]. eauto.
  - destruct (IH x I) as [y [A B]]. eauto.
Qed.
From Coq Require Import Qround.
Lemma trunc_mono a b : a <= b -> (trunc a <= trunc b)%nat.
Proof.
  intro L. unfold trunc. destruct (Qle_bool 0 a) eqn:A, (Qle_bool 0 b) eqn:B; qb.
  - apply Z2Nat.inj_le; [| |apply Qfloor_resp_le; exact L].
    + rewrite <- (Qfloor_Z 0). apply Qfloor_resp_le. exact A.
    + rewrite <- (Qfloor_Z 0). apply Qfloor_resp_le. exact B.
  - lra.
  - assert (Qceiling a <= 0)%Z. { rewrite <- (Qceiling_Z 0). apply Qceiling_resp_le. apply Qlt_le_weak. exact A. }
    lia.
  - assert (Qceiling a <= 0)%Z. { rewrite <- (Qceiling_Z 0). apply Qceiling_resp_le. apply Qlt_le_weak. exact A. }
    lia.
Qed.
Lemma selection_consistent P rows t : consistent rows -> selection P rows t -> consistent_table t.
Proof.
  intros C S x x' I I' L. destruct (selection_In _ _ _ S _ I) as [r [Ir [_ ->]]].
  destruct (selection_In _ _ _ S _ I') as [r' [Ir' [_ ->]]]. simpl in *. apply C; auto.
  apply Qnot_le_lt. intro G. apply trunc_mono in G. lia.
Qed.
(** ascending columns sort to the identity *)
Lemma sort_id l : ordered l -> sort_by l = l.
Proof.
  induction 1 as [|x l H O IH]; simpl; [reflexivity|]. rewrite IH. destruct l as [|y l]; [reflexivity|]. simpl.
  assert (E : Qle_bool (snd x) (snd y) = true) by (apply qle_true, H; left; reflexivity). rewrite E. reflexivity.
Qed.
Lemma enum_snd {A} (l : list A) : forall k, map snd (enum_from k l) = l.
Proof. induction l; intro k; simpl; [|rewrite IHl]; reflexivity. Qed.
Lemma enum_fst {A} (l : list A) : forall k, map fst (enum_from k l) = seq k (List.length l).
Proof. induction l; intro k; simpl; [|rewrite IHl]; reflexivity. Qed.
Lemma ascending_ordered (f : nrow -> Q) rows : ascending rows ->
  (forall r r', n_mcs r <= n_mcs r' -> n_snr r <= n_snr r' -> n_mbps r <= n_mbps r' -> n_backoff r <= n_backoff r' -> f r <= f r') ->
  forall k, ordered (enum_from k (map f rows)).
Proof.
  intros A F. induction A as [|r|r r' l H1 H2 H3 H4 A IH]; intro k; simpl.
  - constructor.
  - constructor; [intros y []|constructor].
  - constructor; [|apply (IH (S k))]. specialize (IH (S k)). simpl in IH. inversion IH as [|? ? H O]; subst.
    pose proof (F _ _ H1 H2 H3 H4). intros y [<-|I]; simpl; [assumption|]. specialize (H _ I). simpl in H. lra.
Qed.
Lemma ascending_ordering (f : nrow -> Q) rows : ascending rows ->
  (forall r r', n_mcs r <= n_mcs r' -> n_snr r <= n_snr r' -> n_mbps r <= n_mbps r' -> n_backoff r <= n_backoff r' -> f r <= f r') ->
  get_ordering (map f rows) = seq 0 (List.length rows).
Proof.
  intros A F. unfold get_ordering. rewrite sort_id by (apply ascending_ordered; auto).
  rewrite enum_fst, map_length. reflexivity.
Qed.
Lemma check_accepts mx mn mm rows : ascending rows ->
  (forall m, mm = Some m -> exists r, In r rows /\ m <= n_mcs r) ->
  exists t, check_table mx mn mm rows = Ok t.
Proof.
  intros A M. unfold check_table.
  rewrite !ascending_ordering by (auto || (intros; assumption)).
  rewrite (proj2 (same_order_true _ _) eq_refl). simpl negb. cbn iota.
  destruct mm as [m|]; simpl rbind; [|eauto]. destruct (M m eq_refl) as [r [I L]].
  destruct (py_max_q_ok (map n_mcs rows)) as [top [-> [_ T]]].
  { destruct rows; [destruct I|discriminate]. }
  simpl rbind. assert (B : Qle_bool m top = true).
  { apply qle_true. specialize (T (n_mcs r)). assert (n_mcs r <= top) by (apply T; apply in_map; exact I). lra. }
  rewrite B. simpl. eauto.
Qed.
Lemma read_reaches_check norm to_float raw mx mn mm t : read_mcs_table norm to_float raw mx mn mm = Ok t ->
  exists rows, check_table mx mn mm rows = Ok t /\
    exists header body cols, raw = Some (header :: body) /\ 
      find_columns (fst (with_backoff norm header body)) = Ok cols /\
      all_ok (parse_row to_float cols) (snd (with_backoff norm header body)) = Ok rows.
Proof.
  unfold read_mcs_table. destruct raw as [[|header body]|]; try discriminate.
  destruct (with_backoff norm header body) as [names rows'] eqn:W. destruct (negb _); [discriminate|].
  unfold rbind. destruct (find_columns names) as [cols|] eqn:F; [|discriminate].
  destruct (all_ok (parse_row to_float cols) rows') as [rows|] eqn:A; [|discriminate].
  intro H. exists rows. split; [exact H|]. exists header, body, cols. rewrite W. auto.
Qed.
Lemma indices_In f l : forall k i, In i (indices_from k f l) <-> (k <= i)%nat /\ exists x, nth_error l (i - k) = Some x /\ f x = true.
Proof.
  induction l as [|a l IH]; intros k i; simpl.
  - split; [intros []|]. intros [_ [x [H _]]]. destruct (i - k)%nat; discriminate.
  - assert (St : In i (indices_from (S k) f l) -> (k <= i)%nat /\ exists x, nth_error (a :: l) (i - k) = Some x /\ f x = true).
    { rewrite IH. intros [L [x [H1 H2]]]. split; [lia|]. exists x. replace (i - k)%nat with (S (i - S k)) by lia. auto. }
    assert (Bk : (k <= i)%nat -> i <> k -> (exists x, nth_error (a :: l) (i - k) = Some x /\ f x = true) -> In i (indices_from (S k) f l)).
    { intros L N [x [H1 H2]]. rewrite IH. split; [lia|]. exists x. replace (i - k)%nat with (S (i - S k)) in H1 by lia. auto. }
    destruct (f a) eqn:E.
    + split.
      * intros [<-|I]; [|auto]. split; [lia|]. exists a. rewrite Nat.sub_diag. auto.
      * intros [L X]. destruct (Nat.eq_dec i k) as [->|N]; [left; reflexivity|right; auto].
    + split; [auto|]. intros [L X]. apply Bk; auto. intros ->. destruct X as [x [H1 H2]]. rewrite Nat.sub_diag in H1.
      simpl in H1. congruence.
Qed.
Lemma indices_column f l i : indices_from 0 f l = [i] -> exists x, nth_error l i = Some x /\ f x = true.
Proof.
  intro H. assert (I : In i (indices_from 0 f l)) by (rewrite H; left; reflexivity).
  apply indices_In in I as [_ I]. rewrite Nat.sub_0_r in I. exact I.
Qed.
Lemma find_columns_inv names a b c d : find_columns names = Ok (a, b, (c, d)) ->
  indices_from 0 (contains "mcs") names = [a] /\ indices_from 0 (contains "snr") names = [b] /\
  indices_from 0 (contains "mbps") names = [c] /\ indices_from 0 (contains "tx_backoff") names = [d] /\
  a <> b /\ a <> c /\ b <> c /\ d <> a /\ d <> b /\ d <> c.
Proof.
  unfold find_columns. intro H.
  destruct (indices_from 0 (contains "mcs") names) as [|a' [|]]; try discriminate;
  destruct (indices_from 0 (contains "snr") names) as [|b' [|]]; try discriminate;
  destruct (indices_from 0 (contains "mbps") names) as [|c' [|]]; try discriminate;
  destruct (indices_from 0 (contains "tx_backoff") names) as [|d' [|]]; try discriminate.
  destruct (_ || _) eqn:O; [discriminate|]. injection H as -> -> -> ->.
  repeat (apply Bool.orb_false_elim in O as [O ?]).
  repeat match goal with H : beq _ _ = false |- _ => apply beq_false in H end. repeat split; auto.
Qed.
Lemma all_ok_combine {A B} (f : A -> result B) l : forall l', all_ok f l = Ok l' ->
  List.length l = List.length l' /\ forall x y, In (x, y) (combine l l') -> f x = Ok y.
Proof.
  induction l as [|a l IH]; simpl; intros l' H.
  - injection H as <-. split; [reflexivity|]. intros x y [].
  - unfold rbind in H. destruct (f a) as [b|] eqn:E; [|discriminate].
    destruct (all_ok f l) as [bs|]; [|discriminate]. injection H as <-. destruct (IH bs eq_refl) as [L C].
    simpl. split; [congruence|]. intros x y [[= <- <-]|I]; auto.
Qed.
Lemma cell_value to_float line i q : cell to_float line i = Ok q -> value to_float line i = Some q.
Proof. unfold cell, value. destruct (nth_error line i) as [s|]; [|discriminate]. destruct (to_float s); congruence. Qed.
Lemma parse_row_inv to_float a b c d line r : parse_row to_float (a, b, (c, d)) line = Ok r ->
  value to_float line a = Some (n_mcs r) /\ value to_float line b = Some (n_snr r) /\
  value to_float line c = Some (n_mbps r) /\ value to_float line d = Some (n_backoff r).
Proof.
  unfold parse_row, rbind. intro H.
  destruct (cell to_float line a) as [x|] eqn:Ea; [|discriminate]. destruct (cell to_float line b) as [y|] eqn:Eb; [|discriminate].
  destruct (cell to_float line c) as [z|] eqn:Ec; [|discriminate]. destruct (cell to_float line d) as [w|] eqn:Ed; [|discriminate].
  injection H as <-. simpl. auto using cell_value.
Qed.
Lemma set_nth_row_map l v : set_nth_row l v = map (fun r => (r ++ [v])%list) l.
Proof. induction l; simpl; congruence. Qed.
Lemma combine_map_l {A B C} (g : A -> C) (l : list A) : forall (l' : list B) x y, In (x, y) (combine l l') -> In (g x, y) (combine (map g l) l').
Proof.
  induction l as [|a l IH]; intros [|b l'] x y; simpl; auto. intros [[= <- <-]|I]; auto.
Qed.
Lemma read_file_rows norm to_float raw mx mn mm t : read_mcs_table norm to_float raw mx mn mm = Ok t ->
  exists header body rows, raw = Some (header :: body) /\ file_rows norm to_float header body rows /\
    check_table mx mn mm rows = Ok t.
Proof.
  unfold read_mcs_table. destruct raw as [[|header body]|]; try discriminate.
  destruct (with_backoff norm header body) as [names rows'] eqn:W.
  destruct (negb _) eqn:Sz; [discriminate|]. apply Bool.negb_false_iff in Sz. rewrite forallb_forall in Sz.
  unfold rbind. destruct (find_columns names) as [[[a b] [c d]]|] eqn:F; [|discriminate].
  destruct (all_ok _ rows') as [rows|] eqn:A; [|discriminate].
  intro H. exists header, body, rows. split; [reflexivity|]. split; [|exact H].
  apply find_columns_inv in F as [Fa [Fb [Fc [Fd [N1 [N2 [N3 [N4 [N5 N6]]]]]]]]]. apply all_ok_combine in A as [Ln A].
  assert (P : forall line r, In (line, r) (combine rows' rows) ->
    value to_float line a = Some (n_mcs r) /\ value to_float line b = Some (n_snr r) /\
    value to_float line c = Some (n_mbps r) /\ value to_float line d = Some (n_backoff r)).
  { intros line r I. apply parse_row_inv. auto. }
  unfold with_backoff in W. destruct (mem "tx_backoff"%string (map norm header)) eqn:M; injection W as <- <-.
  - assert (Col : forall key i, indices_from 0 (contains key) (map norm header) = [i] -> column_named norm header key i).
    { intros key i E. apply indices_column in E as [x [Ex Cx]]. rewrite nth_error_map in Ex.
      destruct (nth_error header i) as [n|] eqn:En; [|discriminate]. injection Ex as <-. exists n. auto. }
    exists a, b, c. do 6 (split; [auto|]). split; [intros line r I; apply P in I; tauto|].
    split; [exact Ln|]. left. exists d. do 4 (split; [auto|]). intros line r I. apply P in I. tauto.
  - rewrite set_nth_row_map in *.
    assert (Hl : List.length header = 3%nat).
    { assert (I : In (map norm header ++ ["tx_backoff"%string])%list ((map norm header ++ ["tx_backoff"%string]) :: map (fun r => (r ++ ["0"%string])%list) body)%list) by (left; reflexivity).
      apply Sz in I. apply Nat.eqb_eq in I. rewrite app_length, map_length in I. simpl in I. lia. }
    assert (Col : forall key i, contains key "tx_backoff" = false ->
              indices_from 0 (contains key) (map norm header ++ ["tx_backoff"%string]) = [i] -> column_named norm header key i).
    { intros key i N E. apply indices_column in E as [x [Ex Cx]].
      destruct (Nat.lt_ge_cases i (List.length (map norm header))) as [L|L].
      - rewrite nth_error_app1 in Ex by exact L. rewrite nth_error_map in Ex.
        destruct (nth_error header i) as [n|] eqn:En; [|discriminate]. injection Ex as <-. exists n. auto.
      - rewrite nth_error_app2 in Ex by exact L. destruct (i - List.length (map norm header))%nat as [|[|]]; try discriminate.
        simpl in Ex. injection Ex as <-. congruence. }
    assert (Rw : forall line r, In (line, r) (combine body rows) -> List.length line = 3%nat /\
       value to_float (line ++ ["0"%string]) a = Some (n_mcs r) /\ value to_float (line ++ ["0"%string]) b = Some (n_snr r) /\
       value to_float (line ++ ["0"%string]) c = Some (n_mbps r) /\ value to_float (line ++ ["0"%string]) d = Some (n_backoff r)).
    { intros line r I. split.
      - assert (J : In (line ++ ["0"%string])%list ((map norm header ++ ["tx_backoff"%string]) :: map (fun r => (r ++ ["0"%string])%list) body)%list).
        { right. apply in_map_iff. exists line. split; [reflexivity|]. apply in_combine_l in I. exact I. }
        apply Sz in J. apply Nat.eqb_eq in J. rewrite app_length in J. simpl in J. lia.
      - apply (combine_map_l (fun r => (r ++ ["0"%string])%list)) in I. apply P in I. exact I. }
    assert (Va : forall key i, column_named norm header key i -> (i < 3)%nat).
    { intros key i [n [E _]]. rewrite <- Hl. apply nth_error_Some. congruence. }
    assert (V3 : forall line i q, List.length line = 3%nat -> (i < 3)%nat -> value to_float (line ++ ["0"%string]) i = Some q -> value to_float line i = Some q).
    { intros line i q L I E. unfold value in *. rewrite nth_error_app1 in E by lia. exact E. }
    pose proof (Col "mcs"%string a eq_refl Fa) as Ca. pose proof (Col "snr"%string b eq_refl Fb) as Cb.
    pose proof (Col "mbps"%string c eq_refl Fc) as Cc.
    assert (Ld : d = 3%nat).
    { assert (I : In 3%nat (indices_from 0 (contains "tx_backoff") (map norm header ++ ["tx_backoff"%string]))).
      { apply indices_In. split; [lia|]. exists "tx_backoff"%string. split; [|reflexivity].
        rewrite nth_error_app2; rewrite map_length, Hl; reflexivity. }
      rewrite Fd in I. destruct I as [->|[]]. reflexivity. }
    exists a, b, c. do 6 (split; [auto|]). split.
    { intros line r I. apply Rw in I as [L [I1 [I2 [I3 _]]]]. split; [apply V3; eauto|]. split; apply V3; eauto. }
    split; [rewrite map_length in Ln; exact Ln|]. right. split.
    + intros i [n [En Cn]]. assert (Li : (i < 3)%nat) by (apply (Va "tx_backoff"%string); exists n; auto).
      assert (I : In i (indices_from 0 (contains "tx_backoff") (map norm header ++ ["tx_backoff"%string]))).
      { apply indices_In. split; [lia|]. exists (norm n). split; [|exact Cn].
        rewrite Nat.sub_0_r, nth_error_app1 by (rewrite map_length; lia). rewrite nth_error_map, En. reflexivity. }
      rewrite Fd in I. destruct I as [C|[]]. lia.
    + intros line r I. apply Rw in I as [L [_ [_ [_ I]]]]. subst d. unfold value in I.
      rewrite nth_error_app2 in I by lia. rewrite L in I. simpl in I. exact I.
Qed.
Lemma read_spec norm to_float raw mx mn mm t : read_mcs_table norm to_float raw mx mn mm = Ok t ->
  exists header body rows, raw = Some (header :: body) /\ file_rows norm to_float header body rows /\
    consistent rows /\ selection (permitted mx mn mm) rows t /\ consistent_table t.
Proof.
  intro H. apply read_file_rows in H as [header [body [rows [E [F C]]]]]. exists header, body, rows.
  split; [exact E|]. split; [exact F|]. pose proof (check_consistent _ _ _ _ _ C) as C1.
  pose proof (check_selection _ _ _ _ _ C) as C2. split; [exact C1|]. split; [exact C2|].
  apply (selection_consistent _ _ _ C1 C2).
Qed.
