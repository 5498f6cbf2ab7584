(** Proofs about the dynamic programme of SecPlaceModel.v. *)
From Coq Require Import QArith Qround Qabs Lqa Sorted.
From Verif Require Import Base QLib SecPlaceModel.
Local Open Scope Q_scope.
Local Open Scope list_scope.

Lemma lt_q_true a b : lt_q a b = true <-> a < b.
Proof. unfold lt_q. rewrite Bool.negb_true_iff. apply qle_false. Qed.
Lemma lt_q_false a b : lt_q a b = false <-> b <= a.
Proof. unfold lt_q. rewrite Bool.negb_false_iff. apply qle_true. Qed.

Section Dp.
Variables (cands : list cand) (width : Q).
Notation N := (List.length cands).
Notation az := (az cands).
Notation met := (met cands).
Hypothesis Mono : forall i j, (i < j < N)%nat -> az i < az j.
Hypothesis Below : forall i, (i < N)%nat -> az i < 360.
Hypothesis Wpos : 0 < width.

Section First.
Variable first : nat.
(** [x] may follow [c] *)
Definition ok (c x : nat) : Prop := (c < x < N)%nat /\ width <= az x - az c /\ width <= az first + 360 - az x.

Lemma relax_spec c m nexts : StronglySorted lt nexts -> (forall x, In x nexts -> (c < x < N)%nat) -> forall r j,
  relax cands width first c m nexts r j =
    if existsb (Nat.eqb j) nexts && negb (lt_q (az j - az c) width) && negb (lt_q (az first + FULL - az j) width)
    then match r j with
         | Some (old, p) => if lt_q (m + met j) old then Some (m + met j, c) else r j
         | None => Some (m + met j, c)
         end
    else r j.
Proof.
  induction nexts as [|x t IH]; intros S R r j; cbn [relax existsb]; [reflexivity|].
  inversion S as [|? ? S' F]; subst. assert (R' : forall y, In y t -> (c < y < N)%nat) by (intros y Hy; apply R; now right).
  assert (Nin : existsb (Nat.eqb x) t = false).
  { destruct (existsb (Nat.eqb x) t) eqn:E; [|reflexivity]. apply existsb_exists in E. destruct E as (y & Hy & E). apply Nat.eqb_eq in E. subst y.
    rewrite Forall_forall in F. specialize (F x Hy). lia. }
  destruct (lt_q (az x - az c) width) eqn:E1.
  - rewrite (IH S' R'). destruct (Nat.eqb_spec j x) as [->|Nj]; [|reflexivity]. rewrite Nin, E1. reflexivity.
  - destruct (lt_q (az first + FULL - az x) width) eqn:E2.
    + (* break *)
      destruct (Nat.eqb j x || existsb (Nat.eqb j) t) eqn:Ej; [|reflexivity].
      replace (lt_q (az first + FULL - az j) width) with true; [now rewrite Bool.andb_false_r|].
      symmetry. apply lt_q_true. apply lt_q_true in E2. apply Bool.orb_true_iff in Ej. destruct Ej as [Ej|Ej].
      * apply Nat.eqb_eq in Ej. now subst.
      * apply existsb_exists in Ej. destruct Ej as (y & Hy & Ey). apply Nat.eqb_eq in Ey. subst y. rewrite Forall_forall in F.
        assert (az x < az j) by (apply Mono; split; [apply F, Hy|apply R', Hy]). lra.
    + rewrite (IH S' R'). destruct (Nat.eqb_spec j x) as [->|Nj].
      * rewrite Nin, E1, E2. cbn [orb andb negb]. unfold upd. destruct (r x) as [[old p]|] eqn:Er; [destruct (lt_q (m + met x) old)|]; rewrite ?Nat.eqb_refl, ?Er; reflexivity.
      * cbn [orb]. assert (X : match r x with Some (old, _) => if lt_q (m + met x) old then upd r x (m + met x, c) else r | None => upd r x (m + met x, c) end j = r j).
        { unfold upd. destruct (r x) as [[old p]|]; [destruct (lt_q (m + met x) old)|]; try reflexivity; now rewrite (proj2 (Nat.eqb_neq j x) Nj). }
        rewrite X. reflexivity.
Qed.

Lemma seq_sorted n : forall s, StronglySorted lt (seq s n).
Proof. induction n as [|n IH]; intros s; cbn; constructor; [apply IH|]. apply Forall_forall. intros x Hx. apply in_seq in Hx. lia. Qed.
Lemma ok_bool c j : (c < N)%nat -> existsb (Nat.eqb j) (seq (S c) (N - S c)) && negb (lt_q (az j - az c) width) && negb (lt_q (az first + FULL - az j) width) = true <-> ok c j.
Proof.
  intros Hc. rewrite !Bool.andb_true_iff, existsb_exists, !Bool.negb_true_iff, !lt_q_false. unfold ok, FULL. split.
  - intros (((y & Hy & E) & A) & B). apply Nat.eqb_eq in E. subst y. apply in_seq in Hy. split; [lia|]. split; assumption.
  - intros (A & B & C). split; [split|]; [|assumption..]. exists j. split; [apply in_seq; lia|apply Nat.eqb_refl].
Qed.

(** entries of a row against the previous row *)
Definition sound (r nr : row) (done : nat -> Prop) : Prop := forall j m c, nr j = Some (m, c) -> exists mc p, r c = Some (mc, p) /\ done c /\ ok c j /\ m = mc + met j.
Definition complete (r nr : row) (done : nat -> Prop) : Prop := forall c mc p j, r c = Some (mc, p) -> done c -> ok c j -> exists m c', nr j = Some (m, c') /\ m <= mc + met j.
Lemma next_row_spec r : (forall j v, r j = Some v -> (j < N)%nat) -> sound r (next_row cands width first r) (fun _ => True) /\ complete r (next_row cands width first r) (fun _ => True).
Proof.
  intros HN. unfold next_row.
  assert (X : forall k nr, (k <= N)%nat -> sound r nr (fun c => (c < N - k)%nat) -> complete r nr (fun c => (c < N - k)%nat) ->
    let nr' := fold_left (fun nr c => match r c with Some (m, _) => relax cands width first c m (seq (S c) (N - S c)) nr | None => nr end) (seq (N - k) k) nr in
    sound r nr' (fun _ => True) /\ complete r nr' (fun _ => True)).
  { induction k as [|k IH]; intros nr Hk Sn Cn; cbv zeta.
    - cbn [seq fold_left]. split.
      + intros j m c H. destruct (Sn j m c H) as (mc & p & A & _ & B). exists mc, p. auto.
      + intros c mc p j A _ B. apply (Cn c mc p j A); [|exact B]. specialize (HN c _ A). lia.
    - replace (seq (N - S k) (S k)) with ((N - S k) :: seq (N - k) k)%nat by (cbn [seq]; f_equal; f_equal; lia). cbn [fold_left].
      set (c0 := (N - S k)%nat). assert (Hc0 : (c0 < N)%nat) by lia.
      apply IH; [lia| |].
      + destruct (r c0) as [[m0 p0]|] eqn:Er.
        * intros j m c H. rewrite relax_spec in H; [|apply seq_sorted|intros x Hx; apply in_seq in Hx; lia].
          destruct (existsb _ _ && _ && _) eqn:Eo.
          -- apply ok_bool in Eo; [|exact Hc0]. destruct (nr j) as [[old p]|] eqn:En.
             ++ destruct (lt_q (m0 + met j) old).
                ** injection H as <- <-. exists m0, p0. split; [exact Er|]. split; [lia|]. auto.
                ** injection H as <- <-. destruct (Sn _ _ _ En) as (mc & q & A & B & C). exists mc, q. split; [exact A|]. split; [lia|exact C].
             ++ injection H as <- <-. exists m0, p0. split; [exact Er|]. split; [lia|]. auto.
          -- destruct (Sn _ _ _ H) as (mc & q & A & B & C). exists mc, q. split; [exact A|]. split; [lia|exact C].
        * intros j m c H. destruct (Sn _ _ _ H) as (mc & q & A & B & C). exists mc, q. split; [exact A|]. split; [lia|exact C].
      + intros c mc p j A B C. destruct (Nat.eq_dec c c0) as [->|Nc].
        * rewrite A. rewrite relax_spec; [|apply seq_sorted|intros x Hx; apply in_seq in Hx; lia]. rewrite (proj2 (ok_bool c0 j Hc0) C).
          destruct (nr j) as [[old q]|]; [destruct (lt_q (mc + met j) old) eqn:El|].
          -- do 2 eexists. split; [reflexivity|lra].
          -- apply lt_q_false in El. eauto.
          -- do 2 eexists. split; [reflexivity|lra].
        * destruct (Cn c mc p j A) as (m & c' & D & E); [lia|exact C|]. destruct (r c0) as [[m0 p0]|]; [|eauto].
          rewrite relax_spec; [|apply seq_sorted|intros x Hx; apply in_seq in Hx; lia]. rewrite D. destruct (existsb _ _ && _ && _); [|eauto].
          destruct (lt_q (m0 + met j) m) eqn:El; [|eauto]. apply lt_q_true in El. do 2 eexists. split; [reflexivity|lra]. }
  specialize (X N (fun _ => None) (le_n N)). rewrite Nat.sub_diag in X. apply X.
  - intros j m c H. discriminate.
  - intros c mc p j A B. lia.
Qed.

(** chains of nodes, last one first *)
Inductive rchain : list nat -> Prop :=
| rc_one : (first < N)%nat -> rchain [first]
| rc_more x c l : rchain (c :: l) -> ok c x -> rchain (x :: c :: l).
Fixpoint cost (l : list nat) : Q := match l with [] => 0 | x :: t => cost t + met x end.

Lemma rows_length k : List.length (rows cands width first k) = S k.
Proof. induction k as [|k IH]; [reflexivity|]. cbn [rows]. destruct (rows cands width first k) as [|r t]; [discriminate|]. cbn in *. lia. Qed.
Lemma rows_spec k : (first < N)%nat -> exists r t, rows cands width first k = r :: t /\
  (forall j v, r j = Some v -> (j < N)%nat) /\
  (forall j m c, r j = Some (m, c) -> forall acc, exists l, rchain (j :: l) /\ List.length l = k /\ cost (j :: l) == m /\ backtrack (r :: t) j acc = rev (j :: l) ++ acc) /\
  (forall j l, rchain (j :: l) -> List.length l = k -> exists m c, r j = Some (m, c) /\ m <= cost (j :: l)).
Proof.
  intros Hf. induction k as [|k (r & t & E & HN & Sd & Cm)].
  - cbn [rows]. do 2 eexists. split; [reflexivity|]. split; [|split].
    + intros j v. destruct (Nat.eqb_spec j first); [now subst|discriminate].
    + intros j m c H acc. destruct (Nat.eqb_spec j first) as [->|]; [|discriminate]. injection H as <- <-. exists []. split; [now constructor|]. split; [reflexivity|]. split; [cbn; lra|reflexivity].
    + intros j [|y l] H L; [|discriminate]. inversion H; subst. rewrite Nat.eqb_refl. do 2 eexists. split; [reflexivity|cbn; lra].
  - cbn [rows]. rewrite E. destruct (next_row_spec r HN) as [Ns Nc]. do 2 eexists. split; [reflexivity|]. split; [|split].
    + intros j [m c] H. destruct (Ns j m c H) as (_ & _ & _ & _ & O & _). destruct O. lia.
    + intros j m c H acc. destruct (Ns j m c H) as (mc & p & Hc & _ & O & ->). destruct (Sd c mc p Hc (j :: acc)) as (l & R & L & C & B).
      exists (c :: l). split; [now constructor|]. split; [cbn; lia|]. split; [cbn [cost] in *; lra|].
      cbn [backtrack] in *. rewrite H. rewrite B. cbn [rev]. rewrite <- !app_assoc. reflexivity.
    + intros j [|c l] R L; [discriminate|]. injection L as L. inversion R as [|? ? ? Rc O]; subst. destruct (Cm c l Rc eq_refl) as (mc & p & Hc & Lc).
      destruct (Nc c mc p j Hc I O) as (m & c' & A & B). exists m, c'. split; [exact A|]. cbn [cost] in *. lra.
Qed.

(** a chain goes on by at least the width *)
Lemma rchain_head x l : rchain (x :: l) -> (x < N)%nat.
Proof. intros H. inversion H; subst; [assumption|]. match goal with O : ok _ _ |- _ => destruct O; lia end. Qed.
Lemma rchain_length x l : rchain (x :: l) -> az first + inject_Z (Z.of_nat (List.length l)) * width <= az x.
Proof.
  revert x. induction l as [|c l IH]; intros x H; inversion H; subst; cbn [List.length].
  - change (inject_Z (Z.of_nat 0)) with 0. lra.
  - match goal with O : ok _ _, R : rchain (c :: l) |- _ => specialize (IH c R); destruct O as (_ & O & _) end.
    rewrite Nat2Z.inj_succ. unfold Z.succ. rewrite inject_Z_plus. change (inject_Z 1) with 1. lra.
Qed.
End First.

Lemma argmin_spec r l : forall best,
  match argmin r l best with
  | Some (m, i) => (best = Some (m, i) \/ (In i l /\ exists c, r i = Some (m, c))) /\
      (forall j mj c, In j l -> r j = Some (mj, c) -> m <= mj) /\ (forall b k, best = Some (b, k) -> m <= b)
  | None => best = None /\ forall j, In j l -> r j = None
  end.
Proof.
  induction l as [|i l IH]; intros best; cbn [argmin].
  - destruct best as [[m i]|]; [|split; [reflexivity|intros j []]]. split; [now left|]. split; [intros j mj c []|]. intros b k E. injection E as -> _. lra.
  - set (b' := match r i with Some (m, _) => match best with Some (b, _) => if lt_q m b then Some (m, i) else best | None => Some (m, i) end | None => best end).
    specialize (IH b'). destruct (argmin r l b') as [[m k]|] eqn:E.
    + destruct IH as (A & B & C). split; [|split].
      * destruct A as [A|(A & c & Hc)]; [|right; split; [now right|eauto]]. subst b'.
        destruct (r i) as [[mi ci]|] eqn:Er; [|now left]. destruct best as [[b kb]|]; [destruct (lt_q mi b)|]; [|now left|]; injection A as -> ->; right; (split; [now left|eauto]).
      * intros j mj c [<-|Hj] Hr; [|eauto]. subst b'. rewrite Hr in C. destruct best as [[b kb]|]; [destruct (lt_q mj b) eqn:El|].
        -- apply (C mj i eq_refl).
        -- apply lt_q_false in El. specialize (C b kb eq_refl). lra.
        -- apply (C mj i eq_refl).
      * intros b kb ->. subst b'. destruct (r i) as [[mi ci]|]; [|apply (C b kb eq_refl)]. destruct (lt_q mi b) eqn:El; [|apply (C b kb eq_refl)].
        apply lt_q_true in El. specialize (C mi i eq_refl). lra.
    + destruct IH as (A & B). subst b'. destruct (r i) as [[mi ci]|] eqn:Er; [destruct best as [[b kb]|]; [destruct (lt_q mi b)|]; discriminate|]. split; [exact A|].
      intros j [<-|Hj]; auto.
Qed.

(** [l] (first node first) is a placement of [n] nodes beginning with [f] *)
Definition chain (n f : nat) (l : list nat) : Prop := exists x t, rchain f (x :: t) /\ l = rev (x :: t) /\ List.length l = n.
Definition lcost (l : list nat) : Q := cost (rev l).

Lemma rounds_spec n : (1 <= n)%nat -> forall k bm bp, (k <= N)%nat ->
  let firsts := seq (N - k) k in
  (rounds cands width n firsts bm bp = bp /\ forall f l, In f firsts -> chain n f l -> bm <= lcost l) \/
  (exists p f, rounds cands width n firsts bm bp = Some p /\ In f firsts /\ chain n f p /\ lcost p < bm /\
     forall f' l, In f' firsts -> chain n f' l -> lcost p <= lcost l).
Proof.
  intros Hn. induction k as [|k IH]; intros bm bp Hk; cbv zeta.
  - left. split; [reflexivity|]. intros f l [].
  - replace (seq (N - S k) (S k)) with ((N - S k) :: seq (N - k) k)%nat by (cbn [seq]; f_equal; f_equal; lia).
    set (f := (N - S k)%nat). assert (Hf : (f < N)%nat) by lia. cbn [rounds].
    destruct (Qle_bool (FULL - inject_Z (Z.of_nat n - 1) * width) (az f)) eqn:Eb.
    + (* no room for n nodes any more *)
      left. split; [reflexivity|]. intros f' l Hf' (x & t & R & -> & L). exfalso. apply qle_true in Eb. unfold FULL in Eb.
      pose proof (rchain_length f' x t R) as H. pose proof (rchain_head f' x t R) as Hx. specialize (Below x Hx).
      rewrite rev_length in L. cbn in L. assert (Z.of_nat n - 1 = Z.of_nat (List.length t))%Z as Ez by lia. rewrite Ez in Eb.
      assert (az f <= az f'). { destruct Hf' as [<-|Hf']; [lra|]. apply in_seq in Hf'. assert (az f < az f') by (apply Mono; lia). lra. }
      lra.
    + destruct (rows_spec f (n - 1) Hf) as (r & t & E & HN & Sd & Cm). rewrite E.
      assert (Done : forall l, chain n f l -> exists x u c m, l = rev (x :: u) /\ r x = Some (m, c) /\ m <= cost (x :: u) /\ In x (seq 0 N)).
      { intros l (x & u & R & -> & L). rewrite rev_length in L. cbn in L. destruct (Cm x u R) as (m & c & A & B); [lia|]. exists x, u, c, m. split; [reflexivity|]. split; [exact A|]. split; [exact B|]. apply in_seq. specialize (HN _ _ A). lia. }
      pose proof (argmin_spec r (seq 0 N) None) as Am. destruct (argmin r (seq 0 N) None) as [[m i]|].
      * destruct Am as (A & B & _). destruct A as [A|(Hi & c & Hr)]; [discriminate|]. destruct (Sd i m c Hr []) as (u & Ru & Lu & Cu & Bu).
        assert (Ch : chain n f (rev (i :: u))). { exists i, u. split; [exact Ru|]. split; [reflexivity|]. rewrite rev_length. cbn. lia. }
        assert (Lc : lcost (rev (i :: u)) == m) by (unfold lcost; rewrite rev_involutive; exact Cu).
        assert (Best : forall l, chain n f l -> m <= lcost l).
        { intros l Hl. destruct (Done l Hl) as (x & u' & c' & m' & -> & Hr' & Le & Hin). unfold lcost. rewrite rev_involutive. specialize (B x m' c' Hin Hr'). eapply Qle_trans; eauto. }
        rewrite Bu, app_nil_r. destruct (lt_q m bm) eqn:El.
        -- apply lt_q_true in El. destruct (IH m (Some (rev (i :: u)))) as [(E1 & H1)|(p & f' & E1 & Hf' & Cp & Lp & Hp)]; [lia| |].
           ++ right. exists (rev (i :: u)), f. split; [exact E1|]. split; [now left|]. split; [exact Ch|]. split; [lra|]. intros f' l [<-|Hf'] Hl; [rewrite Lc; auto|rewrite Lc; eapply H1; eauto].
           ++ right. exists p, f'. split; [exact E1|]. split; [now right|]. split; [exact Cp|]. split; [lra|]. intros f2 l [<-|Hf2] Hl; [specialize (Best l Hl); lra|eauto].
        -- apply lt_q_false in El. destruct (IH bm bp) as [(E1 & H1)|(p & f' & E1 & Hf' & Cp & Lp & Hp)]; [lia| |].
           ++ left. split; [exact E1|]. intros f' l [<-|Hf'] Hl; [specialize (Best l Hl); lra|eauto].
           ++ right. exists p, f'. split; [exact E1|]. split; [now right|]. split; [exact Cp|]. split; [exact Lp|]. intros f2 l [<-|Hf2] Hl; [specialize (Best l Hl); lra|eauto].
      * destruct Am as (_ & B). assert (No : forall l, ~ chain n f l).
        { intros l Hl. destruct (Done l Hl) as (x & u' & c' & m' & _ & Hr' & _ & Hin). rewrite (B x Hin) in Hr'. discriminate. }
        destruct (IH bm bp) as [(E1 & H1)|(p & f' & E1 & Hf' & Cp & Lp & Hp)]; [lia| |].
        -- left. split; [exact E1|]. intros f' l [<-|Hf'] Hl; [exfalso; eapply No; eauto|eauto].
        -- right. exists p, f'. split; [exact E1|]. split; [now right|]. split; [exact Cp|]. split; [exact Lp|]. intros f2 l [<-|Hf2] Hl; [exfalso; eapply No; eauto|eauto].
Qed.
Lemma rounds_all n bm : (1 <= n)%nat ->
  match rounds cands width n (seq 0 N) bm None with
  | Some p => (exists f, chain n f p) /\ lcost p < bm /\ forall f l, chain n f l -> lcost p <= lcost l
  | None => forall f l, chain n f l -> bm <= lcost l
  end.
Proof.
  intros Hn. pose proof (rounds_spec n Hn N bm None (le_n N)) as X. rewrite Nat.sub_diag in X. cbv zeta in X.
  assert (In_first : forall f l, chain n f l -> In f (seq 0 N)).
  { intros f l (x & t & R & _). apply in_seq. clear - R. remember (x :: t) as y. revert x t Heqy. induction R; intros; [lia|]. injection Heqy as -> <-. specialize (IHR _ _ eq_refl). exact IHR. }
  destruct X as [(E & H)|(p & f & E & Hf & Cp & Lp & Hp)]; rewrite E.
  - intros f l Hl. eapply H; eauto.
  - split; [exists f; exact Cp|]. split; [exact Lp|]. intros f' l Hl. eapply Hp; [eapply In_first|]; exact Hl.
Qed.
End Dp.
