(** Proofs of C24 and C25. *)
From Coq Require Import QArith Permutation.
From Verif Require Import Base Dict TopologyModel MonadLib LosRangeModel LosBatchModel LosPickModel LosPickSpec LosPickProofs.

Lemma dedupe_In l x : In x (dedupe l) <-> In x l.
Proof.
  unfold dedupe. enough (H : forall s, In x (fold_left (fun s x => sadd x s) l s) <-> In x s \/ In x l) by (rewrite H; cbn; tauto).
  induction l as [|a l IH]; intros s; cbn; [tauto|]. rewrite IH, sadd_In. intuition congruence.
Qed.
Lemma dedupe_NoDup l : NoDup (dedupe l).
Proof.
  unfold dedupe. enough (H : forall s, NoDup s -> NoDup (fold_left (fun s x => sadd x s) l s)) by (apply H; constructor).
  induction l as [|a l IH]; intros s Hs; cbn; [assumption|]. apply IH. now apply sadd_NoDup.
Qed.
Lemma discard_NoDup {A} `{EqB A} (x : A) l : NoDup l -> NoDup (discard x l).
Proof. apply NoDup_filter'. Qed.
Lemma discard_len {A} `{EqB A} (x : A) l : NoDup l -> In x l -> List.length l = S (List.length (discard x l)).
Proof.
  unfold discard. induction l as [|a l IH]; intros ND H0; [destruct H0|]. inversion ND; subst. cbn. destruct (beq_spec x a) as [->|N]; cbn.
  - f_equal. clear - H3. induction l as [|b l IH]; cbn; [reflexivity|]. destruct (beq_spec a b) as [->|]; cbn; [exfalso; apply H3; now left|]. f_equal. apply IH. intros X. apply H3. now right.
  - f_equal. apply IH; [assumption|]. destruct H0; [congruence|assumption].
Qed.

Section Conn.
Variable types : list site_type.
Variable rx : list (list nat).
Variable picked : list nat.
Notation N := (List.length types).
Hypothesis RX : lists_over N rx.
Notation reach := (connected types rx picked).
(** the invariant of the search: [q] the sites still to be explored *)
Record cinv (c : conn) (q : list nat) (done : nat -> Prop) : Prop := {
  ci_nd1 : NoDup (k_connected c); ci_nd2 : NoDup (k_unconnected c); ci_nd3 : NoDup (k_connectable c); ci_nd4 : NoDup (k_other c);
  ci_picked : forall i, In i picked <-> In i (k_connected c) \/ In i (k_unconnected c);
  ci_apart : forall i, In i (k_connected c) -> ~ In i (k_unconnected c);
  ci_reach : forall i, In i (k_connected c) -> reach i;
  ci_able : forall j, In j (k_connectable c) -> (j < N)%nat /\ ~ In j picked /\ exists i, reach i /\ In j (neighbours rx i);
  ci_rest : forall j, In j (k_connectable c) \/ In j (k_other c) <-> (j < N)%nat /\ ~ In j picked;
  ci_apart2 : forall j, In j (k_connectable c) -> ~ In j (k_other c);
  ci_done : forall i, In i (k_connected c) -> In i q \/ done i;
  ci_queue : forall i, In i q -> In i (k_connected c) }.
Definition adj (c : conn) (done : nat -> Prop) : Prop :=
  forall i j, done i -> In j (neighbours rx i) -> ~ In j (k_unconnected c) /\ ~ In j (k_other c).
Lemma reach_lt i : reach i -> (i < N)%nat.
Proof. intros H. induction H as [i _ E|i j _ _ Hj _]; [apply nth_error_Some; congruence|]. eapply (proj2 RX); eauto. Qed.

(** exploring the neighbours of [i]: those before [ns] have been seen *)
Lemma visit_ok i : reach i -> forall ns c q done, incl ns (neighbours rx i) -> cinv c q done -> forall c' q', fold_left visit_step ns (c, q) = (c', q') ->
  cinv c' q' done /\ (List.length q' + List.length (k_unconnected c') = List.length q + List.length (k_unconnected c))%nat /\
  (forall j, In j ns -> ~ In j (k_unconnected c') /\ ~ In j (k_other c')) /\ incl (k_unconnected c') (k_unconnected c) /\ incl (k_other c') (k_other c).
Proof.
  intros Ri. induction ns as [|j ns IH]; intros c q done Hin I c' q' E.
  - cbn in E. inversion E; subst. split; [assumption|]. split; [reflexivity|]. split; [intros ? []|]. split; intros x; auto.
  - cbn [fold_left] in E. unfold visit_step at 2 in E. assert (Hj : In j (neighbours rx i)) by (apply Hin; now left).
    destruct (mem j (k_unconnected c)) eqn:Mu.
    + apply mem_In in Mu. set (c1 := mkConn _ _ _ _) in E.
      assert (Pj : In j picked) by (apply (ci_picked _ _ _ I); now right).
      assert (I1 : cinv c1 (q ++ [j]) done).
      { split; cbn [k_connected k_unconnected k_connectable k_other c1]; try apply I.
        - apply sadd_NoDup, I. - apply discard_NoDup, I.
        - intros k. rewrite sadd_In, discard_In, (ci_picked _ _ _ I). destruct (Nat.eq_dec k j) as [->|Nk]; intuition.
        - intros k. rewrite sadd_In, discard_In. intros [->|H] [H' Nk]; [congruence|]. now apply (ci_apart _ _ _ I) in H.
        - intros k. rewrite sadd_In. intros [->|H]; [eapply conn_hop; eauto|now apply (ci_reach _ _ _ I)].
        - intros k. rewrite sadd_In, in_app_iff. intros [->|H]; [left; right; now left|]. apply (ci_done _ _ _ I) in H. tauto.
        - intros k. rewrite in_app_iff, sadd_In. intros [H|[<-|[]]]; [right; now apply (ci_queue _ _ _ I)|now left]. }
      apply (IH c1 _ done) in E; [|intros x Hx; apply Hin; now right|exact I1]. destruct E as (J & Lq & S & U & O). split; [exact J|].
      assert (Ld := discard_len j (k_unconnected c) (ci_nd2 _ _ _ I) Mu). cbn [k_unconnected c1] in *. rewrite app_length in Lq. cbn [List.length] in Lq. split; [lia|].
      split; [|split; [intros x Hx; apply U in Hx; apply discard_In in Hx; tauto|exact O]].
      intros x [<-|Hx]; [|auto]. split; [intros X; apply U in X; apply discard_In in X; tauto|]. intros X. apply O in X. cbn in X.
      apply (proj2 (proj1 (ci_rest _ _ _ I j) (or_intror X))). exact Pj.
    + destruct (mem j (k_other c)) eqn:Mo.
      * apply mem_In in Mo. apply mem_not_In in Mu. set (c1 := mkConn _ _ _ _) in E.
        assert (Rj := proj1 (ci_rest _ _ _ I j) (or_intror Mo)).
        assert (I1 : cinv c1 q done).
        { split; cbn [k_connected k_unconnected k_connectable k_other c1]; try apply I.
          - apply sadd_NoDup, I. - apply discard_NoDup, I.
          - intros k. rewrite sadd_In. intros [->|H]; [split; [tauto|]; split; [tauto|]; eauto|now apply (ci_able _ _ _ I)].
          - intros k. rewrite sadd_In, discard_In, <- (ci_rest _ _ _ I). destruct (Nat.eq_dec k j) as [->|Nk]; intuition.
          - intros k. rewrite sadd_In, discard_In. intros [->|H] [H' Nk]; [congruence|]. now apply (ci_apart2 _ _ _ I) in H. }
        apply (IH c1 _ done) in E; [|intros x Hx; apply Hin; now right|exact I1]. destruct E as (J & Lq & S & U & O). split; [exact J|]. cbn [k_unconnected c1] in *. split; [exact Lq|].
        split; [|split; [exact U|intros x Hx; apply O in Hx; apply discard_In in Hx; tauto]].
        intros x [<-|Hx]; [|auto]. split; [intros X; apply U in X; contradiction|]. intros X. apply O in X. cbn in X. apply discard_In in X. tauto.
      * apply mem_not_In in Mo. apply mem_not_In in Mu. apply (IH c _ done) in E; [|intros x Hx; apply Hin; now right|exact I]. destruct E as (J & Lq & S & U & O). split; [exact J|]. split; [exact Lq|].
        split; [|split; assumption]. intros x [<-|Hx]; [|auto]. split; intros X; [apply U in X|apply O in X]; contradiction.
Qed.
Lemma bfs_ok : forall fuel c q done, cinv c q done -> adj c done -> (List.length q + List.length (k_unconnected c) <= fuel)%nat ->
  exists c' done', bfs fuel rx c q = Ok c' /\ cinv c' [] done' /\ adj c' done' /\ incl (k_unconnected c') (k_unconnected c).
Proof.
  assert (Z : forall fuel c, bfs fuel rx c [] = Ok c) by (intros [|fuel] c; reflexivity).
  induction fuel as [|fuel IH]; intros c q done I A L; (destruct q as [|i q]; [exists c, done; rewrite Z; split; [reflexivity|split; [assumption|split; [assumption|intros x Hx; exact Hx]]]|]).
  - cbn in L. lia.
  - cbn [bfs]. assert (Ri : reach i) by (apply (ci_reach _ _ _ I), (ci_queue _ _ _ I); now left).
    rewrite at_neighbours by (rewrite (proj1 RX); now apply reach_lt). cbn [rbind].
    destruct (fold_left visit_step (neighbours rx i) (c, q)) as [c1 q1] eqn:E.
    assert (I0 : cinv c q (fun k => done k \/ k = i)).
    { split; try apply I.
      - intros k Hk. apply (ci_done _ _ _ I) in Hk. destruct Hk as [[->|H]|H]; auto.
      - intros k Hk. apply (ci_queue _ _ _ I). now right. }
    apply (visit_ok i Ri _ _ _ (fun k => done k \/ k = i)) in E; [|intros x Hx; exact Hx|exact I0]. destruct E as (J & Lq & S & U & O).
    destruct (IH _ _ (fun k => done k \/ k = i) J) as (c' & done' & E' & I' & A' & U'); [|cbn in L; lia|exists c', done'; split; [exact E'|split; [exact I'|split; [exact A'|intros x Hx; apply U, U', Hx]]]].
    intros a b [Ha| ->] Hb; [|now apply S]. destruct (A a b Ha Hb) as [X Y]. split; intros H; [apply X, U, H|apply Y, O, H].
Qed.
Lemma pops_ok : forall l k0 c q, (forall m t, nth_error l m = Some t -> nth_error types (k0 + m) = Some t) -> cinv c q (fun _ => False) ->
  forall c' q', fold_left pop_step (enumerate_from k0 l) (c, q) = (c', q') ->
  cinv c' q' (fun _ => False) /\ (List.length q' + List.length (k_unconnected c') = List.length q + List.length (k_unconnected c))%nat /\
  incl (k_unconnected c') (k_unconnected c) /\ (forall m, nth_error l m = Some POP -> ~ In (k0 + m)%nat (k_unconnected c')).
Proof.
  induction l as [|t l IH]; intros k0 c q Ht I c' q' E.
  - cbn in E. inversion E; subst. split; [assumption|]. split; [reflexivity|]. split; [intros x Hx; exact Hx|]. intros [|m] X; discriminate.
  - cbn [enumerate_from fold_left] in E. unfold pop_step at 2 in E. cbn [fst snd] in E.
    assert (Ht' : forall m t0, nth_error l m = Some t0 -> nth_error types (S k0 + m) = Some t0) by (intros m t0 X; replace (S k0 + m)%nat with (k0 + S m)%nat by lia; now apply Ht).
    destruct (beq_spec t POP) as [->|Nt]; cbn [andb] in E.
    + assert (T0 : nth_error types k0 = Some POP) by (specialize (Ht 0%nat POP eq_refl); now rewrite Nat.add_0_r in Ht).
      destruct (mem k0 (k_unconnected c)) eqn:M.
      * apply mem_In in M. set (c1 := mkConn _ _ _ _) in E. assert (Pk : In k0 picked) by (apply (ci_picked _ _ _ I); now right).
        assert (I1 : cinv c1 (q ++ [k0]) (fun _ => False)).
        { split; cbn [k_connected k_unconnected k_connectable k_other c1]; try apply I.
          - apply sadd_NoDup, I. - apply discard_NoDup, I.
          - intros k. rewrite sadd_In, discard_In, (ci_picked _ _ _ I). destruct (Nat.eq_dec k k0) as [->|Nk]; intuition.
          - intros k. rewrite sadd_In, discard_In. intros [->|H] [H' Nk]; [congruence|]. now apply (ci_apart _ _ _ I) in H.
          - intros k. rewrite sadd_In. intros [->|H]; [now apply conn_pop|now apply (ci_reach _ _ _ I)].
          - intros k. rewrite sadd_In, in_app_iff. intros [->|H]; [left; right; now left|]. apply (ci_done _ _ _ I) in H. tauto.
          - intros k. rewrite in_app_iff, sadd_In. intros [H|[<-|[]]]; [right; now apply (ci_queue _ _ _ I)|now left]. }
        apply (IH _ _ _ Ht' I1) in E. destruct E as (J & Lq & U & P). split; [exact J|]. assert (Ld := discard_len k0 (k_unconnected c) (ci_nd2 _ _ _ I) M).
        cbn [k_unconnected c1] in *. rewrite app_length in Lq. cbn [List.length] in Lq. split; [lia|]. split; [intros x Hx; apply U, discard_In in Hx; tauto|].
        intros [|m] X; [rewrite Nat.add_0_r; intros Y; apply U, discard_In in Y; tauto|]. replace (k0 + S m)%nat with (S k0 + m)%nat by lia. now apply P.
      * apply mem_not_In in M. apply (IH _ _ _ Ht' I) in E. destruct E as (J & Lq & U & P). split; [exact J|]. split; [exact Lq|]. split; [exact U|].
        intros [|m] X; [rewrite Nat.add_0_r; intros Y; apply U in Y; contradiction|]. replace (k0 + S m)%nat with (S k0 + m)%nat by lia. now apply P.
    + apply (IH _ _ _ Ht' I) in E. destruct E as (J & Lq & U & P). split; [exact J|]. split; [exact Lq|]. split; [exact U|].
      intros [|m] X; [cbn in X; congruence|]. replace (k0 + S m)%nat with (S k0 + m)%nat by lia. now apply P.
Qed.
Lemma status_ok : exists c, get_site_connectable_status types rx picked = Ok c /\ partition types rx picked c.
Proof.
  unfold get_site_connectable_status. set (c0 := mkConn _ _ _ _). destruct (fold_left pop_step (enumerate_from 0 types) (c0, [])) as [c1 q1] eqn:E.
  assert (I0 : cinv c0 [] (fun _ => False)).
  { split; cbn [k_connected k_unconnected k_connectable k_other c0]; try (intros ? []); try apply NoDup_nil.
    - apply dedupe_NoDup.
    - apply NoDup_filter', seq_NoDup.
    - intros i. rewrite dedupe_In. cbn. tauto.
    - intros j. split; [intros [[]|H]|]. apply filter_In in H. destruct H as [H M]. apply in_seq in H. apply negb_true_iff, mem_not_In in M. rewrite dedupe_In in M. split; [lia|exact M].
      intros [H M]. right. apply filter_In. split; [apply in_seq; lia|]. apply negb_true_iff, mem_not_In. now rewrite dedupe_In. }
  apply (pops_ok types 0 c0 [] (fun m t X => X) I0) in E. destruct E as (I1 & L1 & U1 & P1). cbn [k_unconnected c0 List.length] in L1.
  destruct (bfs_ok (List.length (dedupe picked)) c1 q1 (fun _ => False) I1) as (c & done & Eb & I & A & U); [intros ? ? []|lia|].
  exists c. split; [exact Eb|].
  assert (PU : forall i, nth_error types i = Some POP -> ~ In i (k_unconnected c)).
  { intros i Ti X. apply U in X. now apply (P1 i Ti). }
  assert (RC : forall i, reach i -> In i (k_connected c)).
  { intros i R. induction R as [i Pi Ti|i j Ri IHi Hj Pj].
    - apply (ci_picked _ _ _ I) in Pi. destruct Pi as [|X]; [assumption|]. exfalso. now apply (PU i).
    - apply (ci_done _ _ _ I) in IHi. destruct IHi as [[]|Di]. destruct (A i j Di Hj) as [X _]. apply (ci_picked _ _ _ I) in Pj. tauto. }
  assert (DN' : forall i, reach i -> done i) by (intros i R; apply RC, (ci_done _ _ _ I) in R; destruct R as [[]|R]; exact R).
  split.
  - intros i. split; [apply I|apply RC].
  - intros i. split; [intros H; split; [apply (ci_picked _ _ _ I); now right|]; intros R; apply RC in R; now apply (ci_apart _ _ _ I) in R|].
    intros [H R]. apply (ci_picked _ _ _ I) in H. destruct H as [H|H]; [|assumption]. exfalso. now apply R, (ci_reach _ _ _ I).
  - intros j. split; [apply (ci_able _ _ _ I)|]. intros (L & Np & i & R & Hj). destruct (proj2 (ci_rest _ _ _ I j) (conj L Np)) as [H|H]; [assumption|]. exfalso. now apply (A i j (DN' i R) Hj).
  - intros j. split.
    + intros H. destruct (proj1 (ci_rest _ _ _ I j) (or_intror H)) as [L Np]. split; [exact L|]. split; [exact Np|]. intros (i & R & Hj). now apply (A i j (DN' i R) Hj).
    + intros (L & Np & X). destruct (proj2 (ci_rest _ _ _ I j) (conj L Np)) as [H|H]; [|assumption]. exfalso. apply X. now apply (ci_able _ _ _ I) in H.
  - split; [apply I|]. split; [apply I|]. split; apply I.
Qed.
End Conn.

Lemma partition_perm types rx picked c : lists_over (List.length types) rx -> (forall i, In i picked -> (i < List.length types)%nat) -> partition types rx picked c ->
  Permutation (k_connected c ++ k_unconnected c ++ k_connectable c ++ k_other c) (seq 0 (List.length types)).
Proof.
  intros RX PK P. destruct (pt_nodup _ _ _ _ P) as (N1 & N2 & N3 & N4).
  assert (RP : forall i, connected types rx picked i -> In i picked) by (intros i R; destruct R; assumption).
  apply NoDup_Permutation.
  - apply NoDup_app_iff_local; [exact N1| |].
    + apply NoDup_app_iff_local; [exact N2| |].
      * apply NoDup_app_iff_local; [exact N3|exact N4|]. intros x A B. apply (pt_connectable _ _ _ _ P) in A. apply (pt_other _ _ _ _ P) in B. tauto.
      * intros x A B. apply (pt_unconnected _ _ _ _ P) in A. apply in_app_iff in B. rewrite (pt_connectable _ _ _ _ P), (pt_other _ _ _ _ P) in B. tauto.
    + intros x A B. apply (pt_connected _ _ _ _ P) in A. rewrite !in_app_iff, (pt_unconnected _ _ _ _ P), (pt_connectable _ _ _ _ P), (pt_other _ _ _ _ P) in B. apply RP in A as A'. tauto.
  - apply seq_NoDup.
  - intros x. rewrite !in_app_iff, in_seq, (pt_unconnected _ _ _ _ P), (pt_other _ _ _ _ P). split.
    + rewrite (pt_connected _ _ _ _ P), (pt_connectable _ _ _ _ P). intros [A|[A|[A|A]]]; [apply RP, PK in A|destruct A as [A _]; apply PK in A|destruct A as [A _]|destruct A as [A _]]; lia.
    + intros [_ L]. cbn in L. destruct (in_dec Nat.eq_dec x picked) as [H|H].
      * destruct (in_dec Nat.eq_dec x (k_connected c)) as [C|C]; [now left|]. right. left. split; [exact H|]. intros R. now apply C, (pt_connected _ _ _ _ P).
      * destruct (in_dec Nat.eq_dec x (k_connectable c)) as [C|C]; [right; right; now left|]. right. right. right. split; [exact L|]. split; [exact H|]. intros R. apply C, (pt_connectable _ _ _ _ P). auto.
Qed.

(** ** select_additional_dns *)
Section Extra.
Variable types : list site_type.
Variables rx tx : list (list nat).
Variable picked : list nat.
Notation N := (List.length types).
Hypothesis RX : lists_over N rx.
Hypothesis TX : lists_over N tx.
Hypothesis INV : forall i j, In j (neighbours rx i) <-> In i (neighbours tx j).
Hypothesis PK : forall i, In i picked -> (i < N)%nat.
Notation avail := (available types rx picked).
Notation unc := (uncovered types rx picked).
Record einv (e : extra) : Prop := {
  ei_able : forall d, In d (k_connectable (e_conn e)) <-> avail (e_added e) d;
  ei_other : forall d, In d (k_other (e_conn e)) <-> (d < N)%nat /\ ~ In d picked /\ ~ In d (e_added e) /\ ~ exists i, (connected types rx picked i \/ In i (e_added e)) /\ In d (neighbours rx i);
  ei_cns : forall j, In j (e_cns e) <-> unc (e_added e) j;
  ei_queue : forall p, In p (e_queue e) -> (fst p < N)%nat /\ (snd p <= 3)%nat;
  ei_nodup : NoDup (e_added e);
  ei_good : forall k d, nth_error (e_added e) k = Some d -> good_choice types rx picked (firstn k (e_added e)) d;
  ei_tried : forall j, In j (e_cns e) -> In j (map fst (e_queue e)) \/ forall d, avail [] d -> ~ In j (neighbours rx d) }.
Definition weight (q : list (nat * nat)) : nat := list_sum (map (fun p => 4 - snd p)%nat q).

Lemma best_fold cns : forall ds o cov, (forall d, In d ds -> (d < N)%nat) ->
  (o = None -> cov = []) -> exists o' cov', foldM (best_step rx cns) (o, cov) ds = Ok (o', cov') /\
  (forall d, In d ds -> (List.length (filter (fun j => mem j cns) (neighbours rx d)) <= List.length cov')%nat) /\ (List.length cov <= List.length cov')%nat /\
  ((o' = o /\ cov' = cov) \/ exists d, In d ds /\ o' = Some d /\ cov' = filter (fun j => mem j cns) (neighbours rx d) /\ cov' <> []).
Proof.
  induction ds as [|d ds IH]; intros o cov L Ho.
  - exists o, cov. split; [reflexivity|]. split; [intros ? []|]. split; [lia|]. now left.
  - cbn [foldM]. unfold best_step at 1. rewrite at_neighbours by (rewrite (proj1 RX); apply L; now left). cbn [rbind snd].
    set (cv := filter (fun j => mem j cns) (neighbours rx d)). destruct (Nat.ltb_spec (List.length cov) (List.length cv)) as [Lt|Le].
    + destruct (IH (Some d) cv) as (o' & cov' & E & M & G & C); [intros; apply L; now right|discriminate|]. exists o', cov'. split; [exact E|].
      split; [intros d' [<-|H]; [exact G|now apply M]|]. split; [lia|]. right.
      destruct C as [[-> ->]|(d' & H & C)]; [exists d|exists d']; (split; [auto using in_eq, in_cons|]); [|exact C]. split; [reflexivity|]. split; [reflexivity|]. intros X. rewrite X in Lt. cbn in Lt. lia.
    + destruct (IH o cov) as (o' & cov' & E & M & G & C); [intros; apply L; now right|assumption|]. exists o', cov'. split; [exact E|].
      split; [intros d' [<-|H]; [fold cv; lia|now apply M]|]. split; [lia|]. destruct C as [C|(d' & H & C)]; [now left|]. right. exists d'. split; [now right|exact C].
Qed.
Lemma update_fold : forall ns c, (forall d, In d (k_connectable (fold_left update_step ns c)) <-> In d (k_connectable c) \/ In d (k_other c) /\ In d ns) /\
  (forall d, In d (k_other (fold_left update_step ns c)) <-> In d (k_other c) /\ ~ In d ns).
Proof.
  induction ns as [|j ns IH]; intros c; [cbn; split; intros d; tauto|]. cbn [fold_left]. destruct (IH (update_step c j)) as [A B].
  unfold update_step in *. destruct (mem j (k_other c)) eqn:M.
  - apply mem_In in M. cbn [k_connectable k_other] in *. split; intros d; [rewrite A|rewrite B]; rewrite ?sadd_In, ?discard_In; cbn; destruct (Nat.eq_dec d j) as [->|Nd]; intuition congruence.
  - apply mem_not_In in M. assert (X : forall d, In d (k_other c) -> j <> d) by (intros d H ->; contradiction).
    destruct (mem j (k_unconnected c)); cbn [k_connectable k_other] in *; split; intros d; [rewrite A|rewrite B|rewrite A|rewrite B]; cbn; specialize (X d); intuition congruence.
Qed.
Lemma length_filter_ext (u v : nat -> bool) l : (forall x, u x = true <-> v x = true) -> List.length (filter u l) = List.length (filter v l).
Proof. intros H. f_equal. apply filter_ext. intros x. specialize (H x). destruct (u x), (v x); intuition congruence. Qed.
Lemma weight_app q p : weight (q ++ [p]) = (weight q + (4 - snd p))%nat.
Proof. unfold weight. rewrite map_app, list_sum_app. cbn. lia. Qed.
Lemma extra_step_ok e cn tries rest : einv e -> e_queue e = (cn, tries) :: rest ->
  exists e', extra_step rx tx e cn tries rest = Ok e' /\ einv e' /\ (weight (e_queue e') < weight (e_queue e))%nat /\
  exists more, e_added e' = e_added e ++ more.
Proof.
  intros I Eq. destruct (ei_queue _ I (cn, tries)) as [Lc Lt]; [rewrite Eq; now left|]. cbn in Lc, Lt.
  assert (Q' : forall p, In p rest -> (fst p < N)%nat /\ (snd p <= 3)%nat) by (intros p Hp; apply (ei_queue _ I); rewrite Eq; now right).
  assert (Wq : weight (e_queue e) = (4 - tries + weight rest)%nat) by (rewrite Eq; reflexivity).
  unfold extra_step. destruct (mem cn (e_cns e)) eqn:M; cbn [negb].
  - apply mem_In in M. rewrite at_neighbours by (rewrite (proj1 TX); exact Lc). cbn [rbind].
    set (ds := filter (fun i => mem i (k_connectable (e_conn e))) (neighbours tx cn)).
    assert (Ds : forall d, In d ds <-> In cn (neighbours rx d) /\ avail (e_added e) d).
    { intros d. unfold ds. rewrite filter_In, mem_In, (ei_able _ I), INV. tauto. }
    assert (CnIn : forall d, In d ds -> In cn (filter (fun j => mem j (e_cns e)) (neighbours rx d))).
    { intros d Hd. apply filter_In. split; [now apply Ds|now apply mem_In]. }
    destruct (best_fold (e_cns e) ds None []) as (o & cov & E & Mx & _ & C); [intros d Hd; apply Ds in Hd; apply Hd|reflexivity|]. rewrite E. cbn [rbind].
    destruct C as [[-> ->]|(d & Hd & -> & Ec & Nc)].
    + eexists. split; [reflexivity|].
      assert (NoD : forall d, avail (e_added e) d -> ~ In cn (neighbours rx d)).
      { intros d Hd Hc. assert (Z : In d ds) by (apply Ds; auto). specialize (Mx d Z). apply CnIn in Z. destruct (filter (fun j => mem j (e_cns e)) (neighbours rx d)); [destruct Z|cbn in Mx; lia]. }
      split; [|split; [|exists []; cbn; now rewrite app_nil_r]].
      * split; cbn [e_conn e_added e_cns e_queue]; try apply I.
        -- destruct (Nat.ltb_spec tries 3); [|exact Q']. intros p Hp. apply in_app_iff in Hp. destruct Hp as [Hp|[<-|[]]]; [now apply Q'|cbn; lia].
        -- intros j Hj. destruct (Nat.eq_dec j cn) as [->|Nj].
           ++ right. intros d Hd Hc. apply (NoD d); [|assumption]. destruct Hd as (A & B & _ & i & [Hi|[]] & F). split; [exact A|]. split; [exact B|]. split; [|eauto].
              intros Hs. apply (ei_cns _ I) in Hj. destruct Hj as (_ & _ & _ & Z). now apply (Z d).
           ++ apply (ei_tried _ I) in Hj. rewrite Eq in Hj. cbn in Hj. destruct Hj as [[X|X]|X]; [congruence| |now right]. left. destruct (tries <? 3)%nat; [|exact X]. rewrite map_app, in_app_iff. now left.
      * cbn [e_queue]. rewrite Wq. destruct (Nat.ltb_spec tries 3); [rewrite weight_app; cbn [snd]; lia|lia].
    + assert (Ad := proj2 (proj1 (Ds d) Hd)). rewrite at_neighbours by (rewrite (proj1 RX); apply Ad). cbn [rbind].
      eexists. split; [reflexivity|].
      set (c1 := mkConn (sadd d (k_connected (e_conn e))) (k_unconnected (e_conn e)) (discard d (k_connectable (e_conn e))) (k_other (e_conn e))).
      destruct (update_fold (neighbours rx d) c1) as [UA UO]. cbn [k_connectable k_other c1] in UA, UO.
      split; [|split; [cbn [e_queue]; rewrite Wq; lia|cbn [e_added]; eauto]].
      split; cbn [e_conn e_added e_cns e_queue].
      * intros x. rewrite UA, discard_In, (ei_able _ I), (ei_other _ I). unfold available. split.
        -- intros [[(A & B & C & i & [Hi|Hi] & F) Nx]|[(A & B & C & D) Hx]]; (split; [exact A|]; split; [exact B|]; split; [rewrite in_app_iff; cbn; intros [?|[?|[]]]; try congruence; try contradiction|]).
           ++ exists i. split; [now left|exact F].
           ++ exists i. split; [right; apply in_app_iff; now left|exact F].
           ++ subst x. apply D. destruct Ad as (_ & _ & _ & i & Hi & F). eauto.
           ++ exists d. split; [right; apply in_app_iff; right; now left|exact Hx].
        -- intros (A & B & C & i & Hi & F). rewrite in_app_iff in C. cbn in C. destruct (in_dec Nat.eq_dec x (k_connectable (e_conn e))) as [Y|Y].
           ++ left. apply (ei_able _ I) in Y. split; [exact Y|]. intuition.
           ++ right. assert (Z : ~ exists i, (connected types rx picked i \/ In i (e_added e)) /\ In x (neighbours rx i)).
              { intros Z. apply Y, (ei_able _ I). split; [exact A|]. split; [exact B|]. split; [tauto|exact Z]. }
              split; [split; [exact A|]; split; [exact B|]; split; [tauto|exact Z]|]. rewrite in_app_iff in Hi. destruct Hi as [Hi|[Hi|[<-|[]]]]; [exfalso; apply Z; eauto|exfalso; apply Z; eauto|exact F].
      * intros x. rewrite UO, (ei_other _ I), in_app_iff. cbn. split.
        -- intros [(A & B & C & D) Hx]. split; [exact A|]. split; [exact B|]. split; [intros [?|[?|[]]]; [contradiction|]; subst x; apply D; destruct Ad as (_ & _ & _ & i & Hi & F); eauto|].
           intros (i & Hi & F). rewrite in_app_iff in Hi. destruct Hi as [Hi|[Hi|[<-|[]]]]; [apply D; eauto|apply D; eauto|contradiction].
        -- intros (A & B & C & D). split; [split; [exact A|]; split; [exact B|]; split; [tauto|]|].
           ++ intros (i & Hi & F). apply D. exists i. rewrite in_app_iff. split; [tauto|exact F].
           ++ intros Hx. apply D. exists d. rewrite in_app_iff. split; [right; right; now left|exact Hx].
      * intros j. rewrite filter_In, negb_true_iff, mem_not_In, Ec, filter_In, mem_In, (ei_cns _ I). unfold uncovered. split.
        -- intros [(A & B & C & D) Z]. split; [exact A|]. split; [exact B|]. split; [exact C|]. intros d' Hd' Hj. apply in_app_iff in Hd'. destruct Hd' as [Hd'|[<-|[]]]; [now apply (D d')|]. apply Z. auto 6.
        -- intros (A & B & C & D). split; [split; [exact A|]; split; [exact B|]; split; [exact C|]; intros d' Hd'; apply D, in_app_iff; now left|]. intros [Z _]. apply (D d); [apply in_app_iff; right; now left|exact Z].
      * exact Q'.
      * apply NoDup_app_iff_local; [apply I|constructor; [intros []|constructor]|]. intros x Hx [<-|[]]. now apply Ad.
      * intros k x Hk. destruct (Nat.lt_ge_cases k (List.length (e_added e))) as [L|L].
        -- rewrite nth_error_app1 in Hk by assumption. rewrite firstn_app. replace (k - List.length (e_added e))%nat with 0%nat by lia. cbn. rewrite app_nil_r. now apply (ei_good _ I).
        -- rewrite nth_error_app2 in Hk by assumption. destruct (k - List.length (e_added e))%nat as [|z] eqn:Ez; [|destruct z; discriminate]. cbn in Hk. inversion Hk; subst x.
           rewrite firstn_app, Ez. cbn. rewrite app_nil_r, firstn_all2 by assumption. split; [exact Ad|]. exists cn. split; [now apply (ei_cns _ I)|]. split; [now apply Ds|].
           intros d' u Ad' Hc Hu. assert (Z : forall x, u x = true <-> mem x (e_cns e) = true) by (intros x; rewrite Hu, mem_In, (ei_cns _ I); reflexivity).
           rewrite !(length_filter_ext u (fun j => mem j (e_cns e))) by exact Z. rewrite <- Ec. apply Mx. now apply Ds.
      * intros j Hj. apply filter_In in Hj. destruct Hj as [Hj Hn]. apply (ei_tried _ I) in Hj. rewrite Eq in Hj. cbn in Hj. destruct Hj as [[<-|X]|X]; [|now left|now right].
        apply negb_true_iff, mem_not_In in Hn. exfalso. apply Hn. rewrite Ec. now apply CnIn.
  - apply mem_not_In in M. eexists. split; [reflexivity|]. split; [|split; [cbn [e_queue]; rewrite Wq; lia|exists []; cbn; now rewrite app_nil_r]].
    split; cbn [e_conn e_added e_cns e_queue]; try apply I; try exact Q'. intros j Hj. assert (Z := Hj). apply (ei_tried _ I) in Hj. rewrite Eq in Hj. cbn in Hj. destruct Hj as [[<-|X]|X]; [contradiction|now left|now right].
Qed.
Lemma extra_loop_ok : forall fuel e, einv e -> (weight (e_queue e) <= fuel)%nat -> exists e', extra_loop fuel rx tx e = Ok (e_added e') /\ einv e' /\ e_queue e' = [].
Proof.
  induction fuel as [|fuel IH]; intros e I L.
  - destruct (e_queue e) as [|[cn t] rest] eqn:Eq.
    + exists e. cbn. rewrite Eq. auto.
    + assert (X := ei_queue _ I (cn, t)). rewrite Eq in X. destruct (X (or_introl eq_refl)) as [_ Y]. cbn in Y. change (4 - t + weight rest <= 0)%nat in L. lia.
  - cbn [extra_loop]. destruct (e_queue e) as [|[cn t] rest] eqn:Eq; [exists e; auto|].
    destruct (extra_step_ok e cn t rest I Eq) as (e1 & E1 & I1 & W1 & _). rewrite E1. cbn [rbind]. apply IH; [exact I1|]. rewrite Eq in W1. lia.
Qed.
Lemma weight_ones l : weight (map (fun i : nat => (i, 1%nat)) l) = (3 * List.length l)%nat.
Proof.
  induction l as [|a l IH]; [reflexivity|]. change (3 + weight (map (fun i : nat => (i, 1%nat)) l) = 3 * S (List.length l))%nat. rewrite IH. lia.
Qed.
Lemma select_ok order : enumerates order -> exists sel, select_additional_dns order types rx tx picked = Ok sel /\ NoDup sel /\
  (forall k d, nth_error sel k = Some d -> good_choice types rx picked (firstn k sel) d) /\
  (forall j d, uncovered types rx picked [] j -> available types rx picked [] d -> In j (neighbours rx d) -> exists d', In d' sel /\ In j (neighbours rx d')).
Proof.
  intros Ho. unfold select_additional_dns. destruct (status_ok types rx picked RX) as (c & E & P). rewrite E. cbn [rbind].
  rewrite (mapM_pure _ (fun i => (i, beq (nth i types DN) CN))).
  2:{ intros i Hi. apply (pt_unconnected _ _ _ _ P) in Hi. destruct Hi as [Hi _]. apply PK in Hi. unfold at_index. rewrite (nth_error_nth' types DN Hi). reflexivity. }
  cbn [rbind]. set (s := map fst (filter (fun p => snd p) (map (fun i => (i, beq (nth i types DN) CN)) (k_unconnected c)))).
  assert (Hs : forall j, In j s <-> uncovered types rx picked [] j).
  { intros j. unfold s. rewrite in_map_iff. split.
    - intros ([i b] & <- & H). apply filter_In in H. destruct H as [H T]. cbn in T. subst b. apply in_map_iff in H. destruct H as (i' & Ei & H). injection Ei as -> Eb. cbn.
      apply beq_true in Eb. apply (pt_unconnected _ _ _ _ P) in H. destruct H as [H R]. split; [exact H|]. split; [rewrite <- Eb; apply nth_error_nth'; now apply PK|]. split; [exact R|]. intros ? [].
    - intros (A & B & C & _). exists (j, true). split; [reflexivity|]. apply filter_In. split; [|reflexivity]. apply in_map_iff. exists j. split; [f_equal; rewrite (nth_error_nth _ _ _ B); reflexivity|]. apply (pt_unconnected _ _ _ _ P). auto. }
  assert (NDs : NoDup s).
  { unfold s. assert (X : forall l, map fst (filter (fun p => snd p) (map (fun i => (i, beq (nth i types DN) CN)) l)) = filter (fun i => beq (nth i types DN) CN) l).
    { induction l as [|a l IH]; cbn; [reflexivity|]. destruct (beq (nth a types DN) CN); cbn; now rewrite IH. }
    rewrite X. apply NoDup_filter'. apply (pt_nodup _ _ _ _ P). }
  assert (Po := Ho s NDs). set (e0 := mkExtra _ _ _ _).
  destruct (extra_loop_ok (3 * List.length (order s)) e0) as (e & El & I & Qe).
  - split; cbn [e_conn e_added e_cns e_queue e0].
    + intros d. rewrite (pt_connectable _ _ _ _ P). unfold available. cbn. split; [intros (A & B & i & R & H); split; [exact A|]; split; [exact B|]; split; [tauto|]; eauto|].
      intros (A & B & _ & i & [R|[]] & H). eauto.
    + intros d. rewrite (pt_other _ _ _ _ P). cbn. split; [intros (A & B & C); split; [exact A|]; split; [exact B|]; split; [tauto|]; intros (i & [R|[]] & H); eauto|].
      intros (A & B & _ & C). split; [exact A|]. split; [exact B|]. intros (i & R & H). apply C. eauto.
    + exact Hs.
    + intros p Hp. apply in_map_iff in Hp. destruct Hp as (i & <- & Hi). cbn. split; [|lia]. apply (Permutation_in _ (Permutation_sym Po)), Hs in Hi. apply PK, Hi.
    + constructor.
    + intros [|k] d X; discriminate.
    + intros j Hj. left. rewrite map_map. cbn. rewrite map_id. now apply (Permutation_in _ Po).
  - cbn [e_queue e0]. rewrite weight_ones. lia.
  - exists (e_added e). split; [exact El|]. split; [apply I|]. split; [apply I|]. intros j d Hj Hd Hin.
    destruct (in_dec Nat.eq_dec j (e_cns e)) as [X|X].
    + apply (ei_tried _ I) in X. rewrite Qe in X. destruct X as [[]|X]. exfalso. now apply (X d).
    + assert (Y : ~ uncovered types rx picked (e_added e) j) by (intros Y; apply X; now apply (ei_cns _ I)).
      assert (forall l, (forall d, In d l -> ~ In j (neighbours rx d)) \/ exists d', In d' l /\ In j (neighbours rx d')) as Dec.
      { induction l as [|a l IH]; [left; intros ? []|]. destruct (in_dec Nat.eq_dec j (neighbours rx a)) as [Z|Z]; [right; exists a; split; [now left|exact Z]|].
        destruct IH as [IH|(d' & A & B)]; [left; intros d' [<-|H]; auto|right; exists d'; split; [now right|exact B]]. }
      destruct (Dec (e_added e)) as [Z|Z]; [|exact Z]. exfalso. apply Y. destruct Hj as (A & B & C & _). split; [exact A|]. split; [exact B|]. split; [exact C|exact Z].
Qed.
End Extra.
