(** Proofs of C22. *)
From Coq Require Import QArith.
From Verif Require Import Base Dict QLib MonadLib LosBatchModel LosBatchSpec.

Section Batch.
Variable conf : lsite -> lsite -> Q.
Variable sites : list lsite.
Hypothesis Hs : symmetric conf.
Hypothesis Hp : positional conf sites.
Definition memo_ok (m : dict (position * position) Q) : Prop :=
  forall k1 k2 q, dget m (k1, k2) = Some q -> exists a b, In a sites /\ In b sites /\ ls_pos a = k1 /\ ls_pos b = k2 /\ conf a b = q.
Lemma found_links c : found c (conf (site_at sites (c_first c)) (site_at sites (c_second c))) = links_of conf sites c.
Proof.
  unfold found, links_of. destruct (Qlt_le_dec 0 _) as [H|H].
  - apply qle_false in H. now rewrite H.
  - apply qle_true in H. now rewrite H.
Qed.
Lemma at_site i : (i < List.length sites)%nat -> at_index sites i = Ok (site_at sites i) /\ In (site_at sites i) sites.
Proof. intros H. unfold at_index, site_at. rewrite (nth_error_nth' sites no_site H). split; [reflexivity|]. now apply nth_In. Qed.
Lemma batch_step_ok m out c : memo_ok m -> (c_first c < List.length sites)%nat -> (c_second c < List.length sites)%nat ->
  exists m', batch_step conf sites (m, out) c = Ok (m', out ++ links_of conf sites c) /\ memo_ok m'.
Proof.
  intros Hm H1 H2. unfold batch_step. destruct (at_site _ H1) as (E1 & I1). destruct (at_site _ H2) as (E2 & I2). rewrite E1, E2. cbn [rbind].
  set (s1 := site_at sites (c_first c)) in *. set (s2 := site_at sites (c_second c)) in *. rewrite <- found_links. fold s1 s2.
  destruct (dget m (ls_pos s1, ls_pos s2)) as [q|] eqn:G1.
  - destruct (Hm _ _ _ G1) as (a & b & Ha & Hb & Pa & Pb & <-). rewrite (Hp a b s1 s2); auto. eauto.
  - destruct (dget m (ls_pos s2, ls_pos s1)) as [q|] eqn:G2.
    + destruct (Hm _ _ _ G2) as (a & b & Ha & Hb & Pa & Pb & <-). rewrite (Hp a b s2 s1), (Hs s2 s1); auto. eauto.
    + eexists. split; [reflexivity|]. intros k1 k2 q. rewrite dget_set. destruct (beq_spec (k1, k2) (ls_pos s1, ls_pos s2)) as [E|_]; [|apply Hm].
      intros Eq. injection Eq as <-. injection E as -> ->. exists s1, s2. auto.
Qed.
Lemma batch_loop_ok l : forall m out, memo_ok m -> in_range sites l -> batch_loop conf sites (m, out) l = Ok (out ++ direct conf sites l).
Proof.
  induction l as [|c l IH]; intros m out Hm Hr; cbn [batch_loop direct flat_map].
  - now rewrite app_nil_r.
  - destruct (batch_step_ok m out c Hm) as (m' & E & Hm'); try apply (Hr c (or_introl eq_refl)). rewrite E. cbn [rbind]. rewrite IH; [|exact Hm'|intros x Hx; apply Hr; now right].
    fold (direct conf sites l). now rewrite app_assoc.
Qed.
Lemma batch_ok l : in_range sites l -> compute_los_batch conf sites l = Ok (direct conf sites l).
Proof. intros H. unfold compute_los_batch. rewrite (batch_loop_ok l [] []); [reflexivity| |exact H]. intros k1 k2 q E. discriminate. Qed.
End Batch.

(** ** slices *)
Lemma slice_eq size l i : slice size l i = firstn size (skipn (i * size) l).
Proof.
  unfold slice. set (n := List.length l). destruct (Nat.le_gt_cases n (i * size)) as [H|H].
  - rewrite skipn_all2 by exact H. now rewrite !firstn_nil.
  - destruct (Nat.le_gt_cases ((i + 1) * size) n) as [H1|H1].
    + rewrite Nat.min_l by exact H1. f_equal. lia.
    + rewrite Nat.min_r by lia. assert (L : List.length (skipn (i * size) l) = (n - i * size)%nat) by apply skipn_length.
      rewrite <- L at 1. rewrite firstn_all. symmetry. apply firstn_all2. rewrite L. lia.
Qed.
Lemma skip_skip {A} (l : list A) : forall a b, skipn a (skipn b l) = skipn (a + b) l.
Proof.
  intros a b. revert l. induction b as [|b IH]; intros l; [now rewrite Nat.add_0_r|]. destruct l as [|x l]; [now rewrite !skipn_nil|].
  rewrite Nat.add_succ_r. cbn [skipn]. apply IH.
Qed.
Lemma take_take {A} : forall a b (l : list A), firstn a l ++ firstn b (skipn a l) = firstn (a + b) l.
Proof. induction a as [|a IH]; intros b l; [reflexivity|]. destruct l as [|x l]; [cbn; now rewrite !firstn_nil|]. cbn. now rewrite IH. Qed.
Lemma concat_slices size (l : list candidate) : (0 < size)%nat -> forall k s, List.concat (map (fun i => firstn size (skipn (i * size) l)) (seq s k)) = firstn (k * size) (skipn (s * size) l).
Proof.
  intros Hsz. induction k as [|k IH]; intros s; [reflexivity|]. cbn [seq map List.concat]. rewrite IH.
  assert (E : skipn (S s * size) l = skipn size (skipn (s * size) l)) by (rewrite skip_skip; reflexivity). rewrite E. apply take_take.
Qed.
Lemma batches_concat size l : (0 < size)%nat -> List.concat (batches size l) = l.
Proof.
  intros Hsz. unfold batches. erewrite map_ext by (intros; apply slice_eq). rewrite concat_slices by exact Hsz. cbn [skipn Nat.mul]. apply firstn_all2.
  assert (H := Nat.div_mod (List.length l + size - 1) size ltac:(lia)). assert (B := Nat.mod_upper_bound (List.length l + size - 1) size ltac:(lia)). nia.
Qed.
Lemma batches_incl size l b : In b (batches size l) -> incl b l.
Proof.
  unfold batches. rewrite in_map_iff. intros (i & <- & _). rewrite slice_eq. intros x Hx.
  rewrite <- (firstn_skipn (i * size) l). apply in_app_iff. right. rewrite <- (firstn_skipn size (skipn (i * size) l)). apply in_app_iff. now left.
Qed.
(** ** the pool *)
Lemma set_slot_nth {A} (l : list A) : forall i j a, nth_error (set_slot l i a) j = if (i =? j)%nat then (match nth_error l j with Some _ => Some a | None => None end) else nth_error l j.
Proof.
  induction l as [|x l IH]; intros [|i] [|j] a; cbn; try reflexivity.
  - destruct (i =? j)%nat; reflexivity.
  - apply IH.
Qed.
Lemma set_slot_length {A} (l : list A) : forall i a, List.length (set_slot l i a) = List.length l.
Proof. induction l as [|x l IH]; intros [|i] a; cbn; auto. Qed.
Lemma pool_fold {A B} (f : A -> result B) (xs : list A) : forall finish slots, List.length slots = List.length xs ->
  let r := fold_left (fun slots i => match nth_error xs i with Some x => set_slot slots i (Some (f x)) | None => slots end) finish slots in
  List.length r = List.length xs /\
  forall i x, nth_error xs i = Some x -> nth_error r i = Some (Some (f x)) \/ (~ In i finish /\ nth_error r i = nth_error slots i).
Proof.
  induction finish as [|k finish IH]; intros slots Hl; cbn [fold_left].
  - split; [exact Hl|]. intros i x Hx. right. auto.
  - destruct (nth_error xs k) as [y|] eqn:Ek.
    + destruct (IH (set_slot slots k (Some (f y)))) as (L & H); [now rewrite set_slot_length|]. split; [exact L|]. intros i x Hx. destruct (H i x Hx) as [E|(N & E)]; [now left|].
      rewrite set_slot_nth in E. destruct (Nat.eqb_spec k i) as [->|Nk].
      * left. rewrite E. rewrite Hx in Ek. injection Ek as <-. destruct (nth_error slots i) eqn:En; [reflexivity|]. apply nth_error_None in En. assert (i < List.length xs)%nat by (apply nth_error_Some; congruence). lia.
      * right. split; [|exact E]. intros [->|Hin]; [contradiction|auto].
    + destruct (IH slots Hl) as (L & H). split; [exact L|]. intros i x Hx. destruct (H i x Hx) as [E|(N & E)]; [now left|]. right. split; [|exact E].
      intros [->|Hin]; [congruence|auto].
Qed.
Lemma nth_error_ext {A} (l r : list A) : (forall i, nth_error l i = nth_error r i) -> l = r.
Proof.
  revert r. induction l as [|x l IH]; intros [|y r] H; [reflexivity|discriminate (H 0%nat)|discriminate (H 0%nat)|].
  assert (E := H 0%nat). injection E as ->. f_equal. apply IH. intros i. exact (H (S i)).
Qed.
Lemma pool_map {A B} (f : A -> result B) xs finish : all_finish (List.length xs) finish -> pool_run f xs finish = map (fun x => Some (f x)) xs.
Proof.
  intros Hf. destruct (pool_fold f xs finish (map (fun _ => None) xs)) as (L & H); [now rewrite map_length|]. fold (pool_run f xs finish) in L, H.
  apply nth_error_ext. intros i. rewrite nth_error_map. destruct (nth_error xs i) as [x|] eqn:E; cbn [option_map].
  - destruct (H i x E) as [E1|(N & _)]; [exact E1|]. exfalso. apply N, Hf. apply nth_error_Some. congruence.
  - apply nth_error_None. apply nth_error_None in E. lia.
Qed.
Lemma read_map {A B} (f : A -> result B) (g : A -> B) xs : (forall x, In x xs -> f x = Ok (g x)) -> read_slots (map (fun x => Some (f x)) xs) = Ok (map g xs).
Proof.
  induction xs as [|x xs IH]; intros H; [reflexivity|]. cbn [map read_slots]. rewrite (H x (or_introl eq_refl)). cbn [rbind].
  rewrite IH by (intros y Hy; apply H; now right). reflexivity.
Qed.
Lemma compute_los_direct conf sites size finish l : (0 < size)%nat -> symmetric conf -> positional conf sites -> in_range sites l ->
  all_finish (List.length (batches size l)) finish -> compute_los conf sites size finish l = Ok (direct conf sites l).
Proof.
  intros Hsz Hs Hp Hr Hf. unfold compute_los. rewrite (pool_map _ _ _ Hf), (read_map _ (direct conf sites)).
  - cbn [rbind]. f_equal. rewrite <- (batches_concat size l Hsz) at 2. unfold direct. generalize (batches size l). intros bs.
    induction bs as [|b bs IH]; [reflexivity|]. cbn [map List.concat]. rewrite IH, flat_map_app. reflexivity.
  - intros b Hb. apply batch_ok; auto. intros c Hc. apply Hr. eapply batches_incl; eauto.
Qed.

(** ** candidates *)
Lemma candidate_iff types n c : In c (candidate_links types n) <-> exists i j a b, (i < n)%nat /\ (i < j)%nat /\ nth_error types i = Some a /\ nth_error types j = Some b /\
  ((bi_directional a b = true /\ c = mkCand i j true) \/ (directed a b = true /\ c = mkCand i j false) \/ (directed b a = true /\ c = mkCand j i false)).
Proof.
  unfold candidate_links. rewrite in_flat_map. split.
  - intros (i & Hi & H). apply in_flat_map in H. destruct H as (j & Hj & H). apply in_seq in Hi, Hj. unfold pair_candidate in H.
    destruct (nth_error types i) as [a|] eqn:Ea; [|destruct H]. destruct (nth_error types j) as [b|] eqn:Eb; [|destruct H].
    exists i, j, a, b. split; [lia|]. split; [lia|]. split; [auto|]. split; [auto|].
    destruct (bi_directional a b) eqn:X; [destruct H as [<-|[]]; auto|]. destruct (directed a b) eqn:Y; [destruct H as [<-|[]]; auto|].
    destruct (directed b a) eqn:Z; [destruct H as [<-|[]]; auto|destruct H].
  - intros (i & j & a & b & Hi & Hj & Ea & Eb & H). assert (Lj : (j < List.length types)%nat) by (apply nth_error_Some; congruence).
    exists i. split; [apply in_seq; lia|]. apply in_flat_map. exists j. split; [apply in_seq; lia|]. unfold pair_candidate. rewrite Ea, Eb.
    destruct H as [(H & ->)|[(H & ->)|(H & ->)]].
    + rewrite H. now left.
    + assert (bi_directional a b = false) by (destruct a, b; try discriminate; reflexivity). rewrite H0, H. now left.
    + assert (bi_directional a b = false) by (destruct a, b; try discriminate; reflexivity). assert (directed a b = false) by (destruct a, b; try discriminate; reflexivity). rewrite H0, H1, H. now left.
Qed.
Lemma candidates_in_range types n (sites : list lsite) : List.length types = List.length sites -> in_range sites (candidate_links types n).
Proof.
  intros L c Hc. apply candidate_iff in Hc. destruct Hc as (i & j & a & b & _ & _ & Ea & Eb & H). rewrite <- L.
  assert (i < List.length types)%nat by (apply nth_error_Some; congruence). assert (j < List.length types)%nat by (apply nth_error_Some; congruence).
  destruct H as [(_ & ->)|[(_ & ->)|(_ & ->)]]; cbn; auto.
Qed.

(** ** all links found *)
Definition may_send (a b : site_type) : bool := bi_directional a b || directed a b.
Lemma found_iff conf sites types n : symmetric conf -> List.length types = List.length sites -> forall tx rx q,
  In (mkValid tx rx q) (direct conf sites (candidate_links types n)) <->
  (exists a b, nth_error types tx = Some a /\ nth_error types rx = Some b /\ may_send a b = true) /\ tx <> rx /\ (Nat.min tx rx < n)%nat /\
  q = conf (site_at sites tx) (site_at sites rx) /\ (0 < q)%Q.
Proof.
  intros Hs L tx rx q. unfold direct. rewrite in_flat_map. unfold may_send. split.
  - intros (c & Hc & H). apply candidate_iff in Hc. destruct Hc as (i & j & a & b & Hi & Hj & Ea & Eb & Hc). unfold links_of in H.
    destruct (Qlt_le_dec 0 _) as [Hq|]; [|destruct H]. destruct Hc as [(T & ->)|[(T & ->)|(T & ->)]]; cbn [c_first c_second c_both] in *.
    + destruct H as [H|[H|[]]]; injection H as <- <- <-.
      * split; [exists a, b; rewrite T; auto|]. split; [lia|]. split; [lia|]. auto.
      * split; [exists b, a; destruct a, b; try discriminate; auto|]. split; [lia|]. split; [lia|]. split; [apply Hs|exact Hq].
    + destruct H as [H|[]]; injection H as <- <- <-. split; [exists a, b; rewrite T, orb_true_r; auto|]. split; [lia|]. split; [lia|]. auto.
    + destruct H as [H|[]]; injection H as <- <- <-. split; [exists b, a; rewrite T, orb_true_r; auto|]. split; [lia|]. split; [lia|]. auto.
  - intros ((a & b & Ea & Eb & T) & Hne & Hmin & -> & Hq). apply orb_true_iff in T.
    assert (In0 : forall c, links_of conf sites c = (mkValid (c_first c) (c_second c) (conf (site_at sites (c_first c)) (site_at sites (c_second c))) :: (if c_both c then [mkValid (c_second c) (c_first c) (conf (site_at sites (c_first c)) (site_at sites (c_second c)))] else [])) \/ (conf (site_at sites (c_first c)) (site_at sites (c_second c)) <= 0)%Q).
    { intros c. unfold links_of. destruct (Qlt_le_dec 0 _) as [|Hle]; [now left|]. now right. }
    destruct (Nat.lt_ge_cases tx rx) as [Hlt|Hge].
    + destruct T as [T|T].
      * exists (mkCand tx rx true). split; [apply candidate_iff; exists tx, rx, a, b; repeat split; auto; lia|].
        destruct (In0 (mkCand tx rx true)) as [->|Hle]; [left; reflexivity|]. cbn in Hle. exfalso. apply (Qlt_not_le _ _ Hq Hle).
      * exists (mkCand tx rx false). split; [apply candidate_iff; exists tx, rx, a, b; repeat split; auto; lia|].
        destruct (In0 (mkCand tx rx false)) as [->|Hle]; [left; reflexivity|]. cbn in Hle. exfalso. apply (Qlt_not_le _ _ Hq Hle).
    + destruct T as [T|T].
      * assert (T' : bi_directional b a = true) by (destruct a, b; try discriminate; reflexivity).
        exists (mkCand rx tx true). split; [apply candidate_iff; exists rx, tx, b, a; repeat split; auto; lia|].
        destruct (In0 (mkCand rx tx true)) as [->|Hle].
        -- cbn. right. left. f_equal. apply Hs.
        -- cbn in Hle. rewrite (Hs _ _) in Hle. exfalso. apply (Qlt_not_le _ _ Hq Hle).
      * exists (mkCand tx rx false). split; [apply candidate_iff; exists rx, tx, b, a; repeat split; auto; lia|].
        destruct (In0 (mkCand tx rx false)) as [->|Hle]; [left; reflexivity|]. cbn in Hle. exfalso. apply (Qlt_not_le _ _ Hq Hle).
Qed.
Lemma found_links_iff conf sites types n : symmetric conf -> List.length types = List.length sites -> forall tx rx q,
  In (mkValid tx rx q) (direct conf sites (candidate_links types n)) <->
  (exists a b, nth_error types tx = Some a /\ nth_error types rx = Some b /\ a <> CN /\ ~ (a = POP /\ b = POP)) /\ tx <> rx /\ (Nat.min tx rx < n)%nat /\
  q = conf (site_at sites tx) (site_at sites rx) /\ (0 < q)%Q.
Proof.
  intros Hs L tx rx q. rewrite found_iff by auto.
  assert (E : forall a b, may_send a b = true <-> a <> CN /\ ~ (a = POP /\ b = POP)).
  { intros a b. destruct a, b; cbn; split; intros H; try discriminate; try reflexivity; try (split; [discriminate|intros (X & Y); discriminate]); destruct H as (H1 & H2); exfalso; auto. }
  split; intros ((a & b & Ea & Eb & T) & R); (split; [exists a, b; split; [auto|split; [auto|now apply E]]|exact R]).
Qed.
