(** Proofs for C35: the sector limits. *)
From Coq Require Import QArith Lia.
From Verif Require Import Base Dict QLib TopologyModel TopologySpec TopologyProofs TopologyLemmas GraphSpec SetupModel MonadLib LosPickProofs OpsProofs DeployModel DeploySpec DeployProofs.
Local Open Scope list_scope.

Definition step_c (d : dict string (dict string string)) (q : string * link) :=
  match l_sectors (snd q) with None => d | Some (a, b) => set2 d (key_id a) (key_id b) (l_id (snd q)) end.
Definition at_ab (a b : string) (q : string * link) : Prop := exists x y, l_sectors (snd q) = Some (x, y) /\ key_id x = a /\ key_id y = b.
Lemma step_wf2 L : forall d, wf2 d -> wf2 (fold_left step_c L d).
Proof.
  induction L as [|q L IH]; intros d W; cbn; [exact W|]. apply IH. unfold step_c. destruct (l_sectors (snd q)) as [[a b]|]; [|exact W]. now apply wf2_set2.
Qed.
Lemma step_get2 L a b v : forall d, (forall q, In q L -> at_ab a b q -> l_id (snd q) = v) -> (forall u, get2 d a b = Some u -> u = v) ->
  (get2 (fold_left step_c L d) a b = Some v <-> get2 d a b = Some v \/ exists q, In q L /\ at_ab a b q).
Proof.
  induction L as [|q L IH]; intros d H Hd; cbn [fold_left].
  - split; [auto|]. intros [E|(q & [] & _)]. exact E.
  - assert (S : forall u, get2 (step_c d q) a b = Some u <-> (at_ab a b q /\ u = l_id (snd q)) \/ (~ at_ab a b q /\ get2 d a b = Some u)).
    { intros u. unfold step_c, at_ab. destruct (l_sectors (snd q)) as [[x y]|].
      - rewrite get2_set2. destruct (beq_spec a (key_id x)) as [->|N]; cbn [andb].
        + destruct (beq_spec b (key_id y)) as [->|N].
          * split; [intros E; left; split; [eauto|congruence]|]. intros [[_ ->]|[F _]]; [reflexivity|exfalso; eauto 6].
          * split; [intros E; right; split; [|exact E]|]. { intros (x' & y' & E' & E1 & E2). injection E' as <- <-. congruence. }
            intros [[(x' & y' & E' & E1 & E2) _]|[_ E]]; [injection E' as <- <-; congruence|exact E].
        + split; [intros E; right; split; [|exact E]|]. { intros (x' & y' & E' & E1 & E2). injection E' as <- <-. congruence. }
          intros [[(x' & y' & E' & E1 & E2) _]|[_ E]]; [injection E' as <- <-; congruence|exact E].
      - split; [intros E; right; split; [|exact E]|]. { intros (x' & y' & E' & _). discriminate. }
        intros [[(x' & y' & E' & _) _]|[_ E]]; [discriminate|exact E]. }
    rewrite IH; [|intros q' Hq; apply H; now right|].
    2: { intros u Hu. apply S in Hu. destruct Hu as [[Ha ->]|[_ Hu]]; [apply H; [now left|exact Ha]|auto]. }
    rewrite S. split.
    + intros [[[Ha _]|[_ E]]|(q' & Hq & Ha)]; [right; exists q; cbn; auto|now left|right; exists q'; cbn; auto].
    + assert (D : at_ab a b q \/ ~ at_ab a b q).
      { unfold at_ab. destruct (l_sectors (snd q)) as [[x y]|]; [|right; intros (x & y & E & _); discriminate].
        destruct (string_dec (key_id x) a) as [A|A]; [destruct (string_dec (key_id y) b) as [B|B]; [left; eauto|]|]; right; intros (x' & y' & E & F1 & F2); injection E as <- <-; congruence. }
      intros [E|(q' & [<-|Hq] & Ha)].
      * destruct D as [D|D]; [left; left; split; [exact D|symmetry; apply H; [now left|exact D]]|auto].
      * left; left. split; [exact Ha|symmetry; apply H; [now left|exact Ha]].
      * right. eauto.
Qed.

Section Limits.
Variables (t : topo) (W : well_formed t) (Hs : sectors_stored t).
Notation conn := (sector_connectivity t).
Lemma conn_wf2 : wf2 conn.
Proof. apply (step_wf2 (t_links t) []). split; [constructor|discriminate]. Qed.
Lemma same_ends k l a b k' l' a' b' : link_stored t k l -> l_sectors l = Some (a, b) -> link_stored t k' l' -> l_sectors l' = Some (a', b') ->
  key_id a = key_id a' -> key_id b = key_id b' -> k = k' /\ l = l' /\ a = a' /\ b = b'.
Proof.
  intros E S E' S' Ha Hb. destruct (Hs _ _ _ _ E S) as (A1 & A2 & (x & X1 & X2) & (y & Y1 & Y2)). destruct (Hs _ _ _ _ E' S') as (A1' & A2' & (x' & X1' & X2') & (y' & Y1' & Y2')).
  unfold sector_stored in *. rewrite Ha in X1. rewrite Hb in Y1. assert (x = x') by congruence. assert (y = y') by congruence. subst x' y'.
  assert (a = a') by congruence. assert (b = b') by congruence. subst a' b'. destruct W as (_ & _ & _ & _ & _ & _ & C & _).
  destruct (C _ _ E) as (K & _). destruct (C _ _ E') as (K' & _). assert (k = k') by (rewrite K, K'; unfold l_id; congruence).
  subst k'. unfold link_stored in *. assert (l = l') by congruence. auto.
Qed.
Definition conn_at (s r k : string) : Prop := exists l a b, link_stored t k l /\ l_sectors l = Some (a, b) /\ key_id a = s /\ key_id b = r.
Lemma conn_get2 s r k : get2 conn s r = Some k <-> conn_at s r k.
Proof.
  assert (Wl : dwf (t_links t)) by apply W.
  assert (Id : forall q, In q (t_links t) -> link_stored t (l_id (snd q)) (snd q)).
  { intros [k' l] Hin. apply In_dget in Hin; [|exact Wl]. destruct W as (_ & _ & _ & _ & _ & _ & C & _). destruct (C _ _ Hin) as (-> & _). exact Hin. }
  assert (U : forall q q', In q (t_links t) -> In q' (t_links t) -> at_ab s r q -> at_ab s r q' -> l_id (snd q) = l_id (snd q')).
  { intros q q' H H' (x & y & E & E1 & E2) (x' & y' & E' & E1' & E2'). apply (same_ends _ _ _ _ _ _ _ _ (Id q H) E (Id q' H') E'); congruence. }
  assert (F : forall v, (exists q, In q (t_links t) /\ at_ab s r q /\ l_id (snd q) = v) <-> conn_at s r v).
  { intros v. unfold conn_at. split.
    - intros (q & Hq & (x & y & E & E1 & E2) & <-). exists (snd q), x, y. auto.
    - intros (l & a & b & E & S & E1 & E2). exists (v, l). split; [now apply dget_In|]. split; [exists a, b; auto|]. destruct W as (_ & _ & _ & _ & _ & _ & C & _). now destruct (C _ _ E). }
  change conn with (fold_left step_c (t_links t) []).
  assert (D : (exists q, In q (t_links t) /\ at_ab s r q) \/ ~ exists q, In q (t_links t) /\ at_ab s r q).
  { clear. induction (t_links t) as [|q L [IH|IH]]; [right; intros (q & [] & _)|left; destruct IH as (q' & ? & ?); exists q'; cbn; auto|].
    destruct (l_sectors (snd q)) as [[x y]|] eqn:E.
    - destruct (string_dec (key_id x) s) as [A|A]; [destruct (string_dec (key_id y) r) as [B|B]; [left; exists q; split; [now left|exists x, y; auto]|]|];
        right; intros (q' & [<-|Hq] & (x' & y' & E' & E1 & E2)); try (apply IH; exists q'; split; [exact Hq|exists x', y'; auto]); congruence.
    - right; intros (q' & [<-|Hq] & (x' & y' & E' & E1 & E2)); [congruence|]. apply IH; exists q'; split; [exact Hq|exists x', y'; auto]. }
  destruct D as [(q & Hq & Ha)|D].
  - pose proof (proj2 (step_get2 (t_links t) s r (l_id (snd q)) [] (fun q' H' A' => U _ _ H' Hq A' Ha) (fun u (E : None = Some u) => match E with end)) (or_intror (ex_intro _ q (conj Hq Ha)))) as G.
    rewrite G. rewrite <- F. split.
    + intros E. injection E as <-. eauto.
    + intros (q' & Hq' & Ha' & <-). f_equal. apply U; auto.
  - assert (N : get2 (fold_left step_c (t_links t) []) s r = None).
    { destruct (get2 (fold_left step_c (t_links t) []) s r) as [v|] eqn:E; [|reflexivity]. exfalso.
      pose proof (proj1 (step_get2 (t_links t) s r v [] (fun q' H' A' => match D (ex_intro _ q' (conj H' A')) with end) (fun u (E : None = Some u) => match E with end)) E) as [G|G]; [discriminate|auto]. }
    rewrite N. rewrite <- F. split; [discriminate|]. intros (q & Hq & Ha & _). exfalso. eauto.
Qed.
Lemma row_In s r k : In (r, k) (row conn s) <-> conn_at s r k.
Proof.
  rewrite <- conn_get2. unfold get2. rewrite <- dget_In_iff; [reflexivity|]. apply wf2_row, conn_wf2.
Qed.
Lemma row_NoDup s : NoDup (dkeys (row conn s)).
Proof. apply (wf2_row conn s), conn_wf2. Qed.
Lemma row_ks_NoDup s : NoDup (map snd (row conn s)).
Proof using W Hs.
  assert (U : forall q q', In q (row conn s) -> In q' (row conn s) -> snd q = snd q' -> q = q').
  { intros [r k] [r' k'] H H'. cbn [snd]. intros <-. apply row_In in H, H'. destruct H as (l & a & b & E & S & E1 & E2), H' as (l' & a' & b' & E' & S' & E1' & E2').
    unfold link_stored in *. assert (l = l') by congruence. subst l'. congruence. }
  pose proof (NoDup_map_inv fst _ (row_NoDup s)) as N. induction (row conn s) as [|q L IH]; cbn [map]; [constructor|]. inversion N as [|? ? Nq N']; subst.
  constructor; [|apply IH; [intros q1 q2 H1 H2; apply U; now right|exact N']]. intros Hin. apply in_map_iff in Hin. destruct Hin as (q' & E & Hq). apply Nq. rewrite <- (U q' q); [exact Hq|now right|now left|exact E].
Qed.

(** the connections of one kind *)
Definition is_conn (cn : bool) (q : string * string) : bool :=
  match dget (t_links t) (snd q), dget (t_sectors t) (fst q) with Some l, Some x => active (l_status l) && Bool.eqb (k_cn (x_key x)) cn | _, _ => false end.
Lemma count_ok L : forall c, (forall q, In q L -> (exists l, dget (t_links t) (snd q) = Some l) /\ exists x, dget (t_sectors t) (fst q) = Some x) ->
  count_connections t L c = Ok (fst c + List.length (filter (is_conn false) L), snd c + List.length (filter (is_conn true) L))%nat.
Proof.
  induction L as [|[r k] L IH]; intros [c1 c2] H; cbn [count_connections filter].
  - cbn. now rewrite !Nat.add_0_r.
  - destruct (H _ (or_introl eq_refl)) as [[l El] [x Ex]]. cbn [fst snd] in El, Ex. assert (V : forall cn, is_conn cn (r, k) = active (l_status l) && Bool.eqb (k_cn (x_key x)) cn) by (intros cn; unfold is_conn; cbn [fst snd]; now rewrite El, Ex). rewrite !V. clear V. unfold sector_of. rewrite El, Ex. cbn [rbind].
    assert (H' : forall q, In q L -> (exists l, dget (t_links t) (snd q) = Some l) /\ exists x, dget (t_sectors t) (fst q) = Some x) by (intros q Hq; apply H; now right).
    destruct (active (l_status l)); cbn [andb]; [|apply IH; exact H'].
    destruct (k_cn (x_key x)); cbn [Bool.eqb]; rewrite IH by exact H'; cbn [fst snd List.length]; f_equal; f_equal; lia.
Qed.
Lemma row_known s q : In q (row conn s) -> (exists l, dget (t_links t) (snd q) = Some l) /\ exists x, dget (t_sectors t) (fst q) = Some x.
Proof.
  destruct q as [r k]. intros H. apply row_In in H. destruct H as (l & a & b & E & S & E1 & E2). cbn [fst snd]. split; [exists l; exact E|].
  destruct (Hs _ _ _ _ E S) as (_ & _ & _ & (y & Y & _)). exists y. now rewrite <- E2.
Qed.
Lemma conn_ks s cn k : In k (map snd (filter (is_conn cn) (row conn s))) <-> connection t s cn k.
Proof.
  rewrite in_map_iff. unfold connection. split.
  - intros ([r k'] & E & H). cbn in E. subst k'. apply filter_In in H. destruct H as [H C]. apply row_In in H. destruct H as (l & a & b & E & S & E1 & E2).
    unfold is_conn in C. cbn [fst snd] in C. unfold link_stored in E. rewrite E in C. destruct (Hs _ _ _ _ E S) as (_ & _ & _ & (y & Y & Yk)). unfold sector_stored in Y. rewrite E2 in Y. rewrite Y in C.
    apply andb_true_iff in C. destruct C as [C1 C2]. apply act_iff in C1. apply Bool.eqb_prop in C2. exists l, a, b. assert (k_cn b = cn) by congruence. auto 8.
  - intros (l & a & b & E & A & S & E1 & C). exists (key_id b, k). split; [reflexivity|]. apply filter_In. split; [apply row_In; exists l, a, b; auto|].
    unfold is_conn. cbn [fst snd]. unfold link_stored in E. rewrite E. destruct (Hs _ _ _ _ E S) as (_ & _ & _ & (y & Y & Yk)). unfold sector_stored in Y. rewrite Y, Yk, C.
    apply act_iff in A. rewrite A. now destruct cn.
Qed.
Lemma conn_counted s cn : counted (connection t s cn) (List.length (filter (is_conn cn) (row conn s))).
Proof using W Hs.
  exists (map snd (filter (is_conn cn) (row conn s))). split; [apply NoDup_map_filter, row_ks_NoDup|]. split; [intros k; apply conn_ks|apply map_length].
Qed.
Lemma counted_inj P n m : counted P n -> counted P m -> n = m.
Proof.
  intros (l & N & H & <-) (l' & N' & H' & <-). apply Nat.le_antisymm; apply NoDup_incl_length; auto; intros x Hx; [apply H', H, Hx|apply H, H', Hx].
Qed.
Variables (a b : Z).
Definition exceeds (s : string) : Prop := exists dn cn, counted (connection t s false) dn /\ counted (connection t s true) cn /\ (Z.of_nat dn > a \/ Z.of_nat dn + Z.of_nat cn > b)%Z.
Lemma one_sector s : exists v, sector_violation t a b s = Ok v /\ (v <> None <-> exceeds s) /\
  (forall l, v = Some l -> NoDup l /\ forall x, In x l <-> linked_sector t s x).
Proof using W Hs.
  unfold sector_violation. rewrite count_ok by (intros q Hq; eapply row_known; eauto). cbn [rbind fst snd Nat.add].
  set (n := List.length (filter (is_conn false) (row conn s))). set (m := List.length (filter (is_conn true) (row conn s))).
  assert (X : ((a <? Z.of_nat n)%Z || (b <? Z.of_nat n + Z.of_nat m)%Z) = true <-> exceeds s).
  { rewrite orb_true_iff, !Z.ltb_lt. split.
    - intros H. exists n, m. split; [apply conn_counted|]. split; [apply conn_counted|lia].
    - intros (n' & m' & Hn & Hm & H). rewrite (counted_inj _ _ _ Hn (conn_counted s false)), (counted_inj _ _ _ Hm (conn_counted s true)) in H. fold n m in H. lia. }
  destruct ((a <? Z.of_nat n)%Z || (b <? Z.of_nat n + Z.of_nat m)%Z).
  - assert (T : exists l, filterM (fun n => do x <- sector_of t n ; Ok (active (x_status x))) (dkeys (row conn s)) = Ok l).
    { assert (K : forall r, In r (dkeys (row conn s)) -> exists x, dget (t_sectors t) r = Some x) by (intros r Hr; apply in_map_iff in Hr; destruct Hr as (q & <- & Hq); apply (row_known s q Hq)).
      induction (dkeys (row conn s)) as [|r L IH]; [exists []; reflexivity|]. destruct (K r (or_introl eq_refl)) as [x Ex]. destruct IH as [l El]; [intros; apply K; now right|].
      cbn [filterM]. unfold sector_of at 1. rewrite Ex. cbn [rbind]. rewrite El. cbn [rbind]. eauto. }
    destruct T as [l El]. rewrite El. cbn [rbind]. exists (Some l). split; [reflexivity|]. split; [split; [intros _; now apply X|discriminate]|].
    intros l' E. injection E as <-. apply filterM_ok in El. destruct El as (_ & H & N). split; [apply N, row_NoDup|].
    intros x. rewrite H. unfold linked_sector. split.
    + intros [Hx E]. apply in_map_iff in Hx. destruct Hx as ([r k] & Er & Hq). cbn in Er. subst r. apply row_In in Hq. destruct Hq as (li & p & q & E1 & E2 & E3 & E4).
      unfold sector_of in E. destruct (dget (t_sectors t) x) as [y|] eqn:Ey; [|discriminate]. cbn [rbind] in E. injection E as E. apply act_iff in E. exists k, li, p, q, y. unfold sector_stored. auto 10.
    + intros (k & li & p & q & y & E1 & E2 & E3 & E4 & E5 & E6). split; [apply in_map_iff; exists (x, k); split; [reflexivity|apply row_In; exists li, p, q; auto]|].
      unfold sector_of. unfold sector_stored in E5. rewrite E5. cbn [rbind]. apply act_iff in E6. now rewrite E6.
  - exists None. split; [reflexivity|]. split; [|discriminate]. split; [congruence|]. intros H. apply X in H. discriminate.
Qed.
Lemma sectors_loop ks : forall acc, exists r, sector_violations t a b ks acc = Ok r /\
  (forall s, dmem r s = true <-> dmem acc s = true \/ (In s ks /\ exceeds s)) /\
  ((forall s l, dget acc s = Some l -> NoDup l /\ forall x, In x l <-> linked_sector t s x) -> forall s l, dget r s = Some l -> NoDup l /\ forall x, In x l <-> linked_sector t s x).
Proof using W Hs.
  induction ks as [|k ks IH]; intros acc; cbn [sector_violations].
  - exists acc. split; [reflexivity|]. split; [intros s; cbn; tauto|auto].
  - destruct (one_sector k) as (v & Ev & V1 & V2). rewrite Ev. cbn [rbind]. destruct (IH (match v with Some l => dset acc k l | None => acc end)) as (r & Er & R1 & R2).
    exists r. split; [exact Er|]. split.
    + intros s. rewrite R1. destruct v as [l|].
      * assert (X : exceeds k) by (apply V1; discriminate). unfold dmem at 1. rewrite dget_set. destruct (beq_spec s k) as [->|N].
        { cbn [In]. tauto. } fold (dmem acc s). cbn [In]. intuition congruence.
      * assert (X : ~ exceeds k) by (intros F; apply V1 in F; congruence). cbn [In]. intuition congruence.
    + intros H. apply R2. destruct v as [l|]; [|exact H]. intros s l'. rewrite dget_set. destruct (beq_spec s k) as [->|N]; [|apply H]. intros E. injection E as <-. now apply V2.
Qed.
Lemma limits_exact : exists r, find_sector_limit_violations t a b = Ok r /\ dwf r /\
  (forall s, (exists l, dget r s = Some l) <-> over_limit t a b s) /\
  (forall s l, dget r s = Some l -> NoDup l /\ forall x, In x l <-> linked_sector t s x).
Proof using W Hs.
  unfold find_sector_limit_violations. match goal with |- context [sector_violations t a b ?ks []] => destruct (sectors_loop ks []) as (r & Er & R1 & R2) end.
  exists r. split; [exact Er|]. split; [|split].
  - clear R1 R2. revert Er. match goal with |- sector_violations t a b ?ks [] = _ -> _ => generalize ks end. intros ks.
    assert (G : forall acc, dwf acc -> sector_violations t a b ks acc = Ok r -> dwf r); [|apply G; constructor].
    induction ks as [|k ks IH]; intros acc Wa; cbn [sector_violations]; [intros E; injection E as <-; exact Wa|].
    intros E. apply rbind_ok in E. destruct E as (v & _ & E). apply IH in E; [exact E|]. destruct v; [now apply dwf_set|exact Wa].
  - intros s. pose proof (R1 s) as R. rewrite dmem_Some in R. rewrite R. unfold over_limit, dmem. cbn [dget]. unfold dkeys. rewrite in_map_iff.
    assert (Wx : dwf (t_sectors t)) by apply W. split.
    + intros [F|[(q & E & Hx) X]]; [discriminate|]. destruct q as [k x]. cbn in E. subst k. apply filter_In in Hx. destruct Hx as [Hx C]. cbn [snd] in C. apply andb_true_iff in C. rewrite negb_true_iff, act_iff in C.
      split; [exists x; split; [now apply In_dget|exact C]|exact X].
    + intros [(x & E & C1 & C2) X]. right. split; [|exact X]. exists (s, x). split; [reflexivity|]. apply filter_In. split; [now apply dget_In|]. cbn [snd]. apply act_iff in C2. now rewrite C1, C2.
  - apply R2. discriminate.
Qed.
End Limits.
