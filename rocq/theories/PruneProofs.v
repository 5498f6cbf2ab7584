(** Proofs for C15. *)
From Coq Require Import QArith Qabs Lqa Lia.
From Verif Require Import Base Dict QLib RfModel RfProofs PruneModel PruneSpec.
Local Open Scope Q_scope.

Lemma gtb_true x y : gtb x y = true <-> y < x.
Proof. unfold gtb. rewrite Bool.negb_true_iff. apply qle_false. Qed.
Lemma gtb_false x y : gtb x y = false <-> x <= y.
Proof. unfold gtb. rewrite Bool.negb_false_iff. apply qle_true. Qed.

(** ** net flow under the change of one edge *)
Definition delta (v w : string) (r : Q) : Q := if String.eqb w v then r else 0.
Lemma net_reduce fl i j x r v : dget fl (i, j) = Some x ->
  net (dset fl (i, j) (x - r)) v == net fl v - delta v i r + delta v j r.
Proof.
  unfold net, outflow, inflow, delta. induction fl as [|[[a b] y] fl IH]; intro H; [discriminate|].
  cbn [dget dset] in *. destruct (beq (i, j) (a, b)) eqn:E.
  - apply beq_true in E. injection E as <- <-. injection H as ->. cbn [sumq fst snd].
    destruct (String.eqb i v), (String.eqb j v); lra.
  - specialize (IH H). cbn [sumq fst snd]. destruct (String.eqb a v), (String.eqb b v), (String.eqb i v), (String.eqb j v); lra.
Qed.

(** ** number of edges carrying at least epsilon *)
Definition active (fl : dict edge Q) : nat := List.length (filter (fun p => Qle_bool epsilon (snd p)) fl).
Lemma active_le fl e x y : dget fl e = Some x -> y <= x -> (active (dset fl e y) <= active fl)%nat.
Proof.
  unfold active. induction fl as [|[e' z] fl IH]; intros H L; [discriminate|]. cbn [dget dset] in *.
  destruct (beq e e') eqn:E.
  - injection H as ->. cbn [filter snd]. destruct (Qle_bool epsilon y) eqn:A; destruct (Qle_bool epsilon x) eqn:B; cbn; try lia.
    qb. lra.
  - specialize (IH H L). cbn [filter snd]. destruct (Qle_bool epsilon z); cbn; lia.
Qed.
Lemma active_lt fl e x y : dget fl e = Some x -> epsilon <= x -> y < epsilon -> (active (dset fl e y) < active fl)%nat.
Proof.
  unfold active. induction fl as [|[e' z] fl IH]; intros H L1 L2; [discriminate|]. cbn [dget dset] in *.
  destruct (beq e e') eqn:E.
  - injection H as ->. cbn [filter snd]. apply qle_true in L1. apply qle_false in L2. rewrite L1, L2. cbn. lia.
  - specialize (IH H L1 L2). cbn [filter snd]. destruct (Qle_bool epsilon z); cbn; lia.
Qed.
Lemma active_bound fl : (active fl <= List.length fl)%nat.
Proof. unfold active. induction fl as [|p fl IH]; cbn; [lia|]. destruct (Qle_bool _ _); cbn; lia. Qed.
Lemma dkeys_set_present {K V} `{EqB K} (d : dict K V) k v w : dget d k = Some w -> dkeys (dset d k v) = dkeys d.
Proof. intro E. rewrite dkeys_set. assert (M : dmem d k = true) by (apply dmem_Some; eauto). rewrite M. reflexivity. Qed.

Lemma split_unique {A} (w : A) : forall a c d b, NoDup (a ++ w :: d) -> (a ++ w :: d)%list = (c ++ w :: b)%list -> d = b.
Proof.
  induction a as [|y a IH]; intros [|y' c] d b N Q; cbn in Q, N.
  - congruence.
  - injection Q as -> Q. inversion N; subst. exfalso. apply H1. apply in_or_app. right. left. reflexivity.
  - injection Q as -> Q. inversion N; subst. exfalso. apply H1. apply in_or_app. right. left. reflexivity.
  - injection Q as _ Q. inversion N; subst. eapply IH; eauto.
Qed.

(** ** states *)
Definition mark (st : pstate) (i : string) : pstate := mkP (p_flows st) (dset (p_free st) i true).
Section Inv.
Variable K : list edge.               (* the edges *)
Variable N : nat.                     (* the number of locations *)

Record inv (st : pstate) : Prop := mkInv {
  inv_keys : dkeys (p_flows st) = K;
  inv_ends : forall u v, In (u, v) K -> (exists b, dget (p_free st) v = Some b) /\ u <> v;
  inv_locs : List.length (dkeys (p_free st)) = N;
  inv_order : exists L, NoDup L /\ (forall v, In v L <-> dget (p_free st) v = Some true) /\
    forall a u b v x, L = (a ++ u :: b)%list -> dget (p_flows st) (u, v) = Some x -> epsilon < x -> In v b }.

Record below (st st' : pstate) : Prop := mkBelow {
  b_flow : forall e x, dget (p_flows st) e = Some x -> exists x', dget (p_flows st') e = Some x' /\ x' <= x /\ (0 <= x -> 0 <= x');
  b_keys : dkeys (p_free st') = dkeys (p_free st);
  b_free : forall v, dget (p_free st) v = Some true -> dget (p_free st') v = Some true;
  b_active : (active (p_flows st') <= active (p_flows st))%nat }.
Lemma below_refl st : below st st.
Proof. constructor; auto. intros e x H. exists x. split; [exact H|]. split; [lra|auto]. Qed.
Lemma below_trans a b c : below a b -> below b c -> below a c.
Proof.
  intros [A1 A2 A3 A4] [B1 B2 B3 B4]. constructor; [|congruence|auto|lia].
  intros e x H. destruct (A1 e x H) as [y [Hy [L1 P1]]]. destruct (B1 e y Hy) as [z [Hz [L2 P2]]].
  exists z. split; [exact Hz|]. split; [lra|auto].
Qed.
Lemma below_reduce st e x r : dget (p_flows st) e = Some x -> 0 <= r -> r <= x -> below st (p_reduce st e x r).
Proof.
  intros H P L. constructor; cbn [p_flows p_free p_reduce mark]; auto.
  - intros e' y Hy. rewrite dget_set. destruct (beq e' e) eqn:E.
    + apply beq_true in E. subst e'. rewrite H in Hy. injection Hy as <-. exists (x - r). split; [reflexivity|]. split; intros; lra.
    + exists y. split; [exact Hy|]. split; [lra|auto].
  - apply (active_le _ _ x); [exact H|lra].
Qed.
Lemma inv_reduce st e x r : inv st -> dget (p_flows st) e = Some x -> 0 <= r -> inv (p_reduce st e x r).
Proof.
  intros [I1 I2 I3 [L [N1 [N2 N3]]]] H P. constructor; cbn [p_flows p_free p_reduce mark]; auto.
  - rewrite (dkeys_set_present _ _ _ x H). exact I1.
  - exists L. split; [exact N1|]. split; [exact N2|]. intros a u b v y EL Hy Ly. rewrite dget_set in Hy.
    match type of Hy with context [beq ?a ?b] => destruct (beq a b) eqn:E end.
    + apply beq_true in E. subst e. assert (y = x - r) by congruence. subst y. apply (N3 a u b v x); auto. lra.
    + apply (N3 a u b v y); auto.
Qed.
Definition settled (st : pstate) (i j : string) : Prop :=
  forall x, dget (p_flows st) (i, j) = Some x -> epsilon < x -> dget (p_free st) j = Some true.
Lemma settled_below st st' i j y : below st st' -> dget (p_flows st) (i, j) = Some y -> settled st i j -> settled st' i j.
Proof.
  intros B E S x H L. destruct (b_flow _ _ B _ _ E) as [x' [E' [L' _]]]. rewrite H in E'. injection E' as <-.
  apply (b_free _ _ B). apply (S y E). lra.
Qed.
Lemma inv_mark st i : inv st -> dget (p_free st) i = Some false -> (forall j, In (i, j) K -> settled st i j) -> inv (mark st i).
Proof.
  intros [I1 I2 I3 [L [N1 [N2 N3]]]] F S. constructor; cbn [p_flows p_free p_reduce mark]; auto.
  - intros u v I. destruct (I2 u v I) as [[b E] D]. split; [|exact D]. rewrite dget_set. destruct (beq v i); eauto.
  - rewrite (dkeys_set_present _ _ _ false F). exact I3.
  - exists (i :: L). split.
    { constructor; [|exact N1]. intro C. apply N2 in C. congruence. }
    split.
    { intro v. rewrite dget_set. cbn [In]. destruct (beq v i) eqn:E.
      - apply beq_true in E. subst v. split; auto.
      - apply beq_false in E. rewrite N2. split; [intros [C|C]; [congruence|exact C]|auto]. }
    intros a u b v x EL Hx Lx. destruct a as [|w a].
    + injection EL as <- <-. apply N2.
      assert (Iv : In (i, v) K) by (rewrite <- I1; apply In_dkeys; eauto). exact (S v Iv x Hx Lx).
    + injection EL as _ EL. apply (N3 a u b v x EL Hx Lx).
Qed.
Lemma below_mark st i : dget (p_free st) i = Some false -> below st (mark st i).
Proof.
  intro F. constructor; cbn [p_flows p_free p_reduce mark]; auto.
  - intros e x H. exists x. split; [exact H|]. split; [lra|auto].
  - apply (dkeys_set_present _ _ _ false F).
  - intros v H. rewrite dget_set. destruct (beq v i); auto.
Qed.

(** ** what a call of the inner function guarantees *)
Definition pre (i : string) (mins : dict string Q) (st : pstate) : Prop :=
  inv st /\ dget (p_free st) i = Some false /\ ~ In i (dkeys mins) /\ NoDup (dkeys mins) /\
  (forall k, In k (dkeys mins) -> dget (p_free st) k = Some false) /\
  (forall k m, dget mins k = Some m -> epsilon <= m).
Definition unchanged (mins : dict string Q) (st st' : pstate) : Prop :=
  forall u, In u (dkeys mins) -> dget (p_free st') u = dget (p_free st) u /\
    forall v, dget (p_flows st') (u, v) = dget (p_flows st) (u, v).
Definition found (i : string) (mins : dict string Q) (st st' : pstate) (k : string) (red : Q) : Prop :=
  exists m, dget mins k = Some m /\ epsilon <= red /\ red <= m /\
    ((active (p_flows st') < active (p_flows st))%nat \/ red == m) /\
    forall v, net (p_flows st') v == net (p_flows st) v - delta v i red + delta v k red.
Definition post (i : string) (mins : dict string Q) (st : pstate) (a : answer) (st' : pstate) : Prop :=
  inv st' /\ below st st' /\ unchanged mins st st' /\
  match a with
  | None => dget (p_free st') i = Some true /\ forall v, net (p_flows st') v == net (p_flows st) v
  | Some (k, red) => found i mins st st' k red
  end.

Lemma unchanged_trans m a b c : unchanged m a b -> unchanged m b c -> unchanged m a c.
Proof.
  intros A B u I. destruct (A u I) as [A1 A2], (B u I) as [B1 B2]. split; [congruence|]. intro v. rewrite B2. apply A2.
Qed.
Lemma pre_room i mins st : pre i mins st -> (List.length mins < N)%nat.
Proof.
  intros [I [F [Ni [Nd [Fr _]]]]].
  assert (L : (List.length (i :: dkeys mins) <= List.length (dkeys (p_free st)))%nat).
  { apply NoDup_incl_length; [constructor; assumption|]. intros k [<-|H]; apply In_dkeys; eauto. }
  rewrite (inv_locs _ I) in L. cbn in L. unfold dkeys in L. rewrite map_length in L. lia.
Qed.

(** dictionaries of minima *)
Lemma lower_keys m x : dkeys (lower_all m x) = dkeys m.
Proof. unfold lower_all, dkeys. rewrite map_map. reflexivity. Qed.
Lemma dget_lower m x k : dget (lower_all m x) k = option_map (fun y => qmin2 y x) (dget m k).
Proof. induction m as [|[k' y] m IH]; cbn; [reflexivity|]. destruct (beq k k'); [reflexivity|exact IH]. Qed.
Lemma lower_length m x : List.length (lower_all m x) = List.length m.
Proof. apply map_length. Qed.

(** [latest] describes the path to [i] extended by an edge carrying [x] *)
Definition extends (i : string) (mins latest : dict string Q) (x : Q) : Prop :=
  dkeys latest = (dkeys mins ++ [i])%list /\
  (forall y, dget latest i = Some y -> y == x) /\
  (forall k y, k <> i -> dget latest k = Some y -> exists m, dget mins k = Some m /\ y <= m /\ y <= x /\ (y == m \/ y == x)) /\
  (forall k m, dget latest k = Some m -> epsilon <= m).
Lemma extends_first i mins x : ~ In i (dkeys mins) -> epsilon <= x -> (forall k m, dget mins k = Some m -> epsilon <= m) ->
  extends i mins (dset (lower_all mins x) i x) x.
Proof.
  intros Ni Lx E. assert (Dn : dget (lower_all mins x) i = None).
  { apply dget_None_keys. rewrite lower_keys. exact Ni. }
  assert (C : forall k y, k <> i -> dget (dset (lower_all mins x) i x) k = Some y ->
            exists m, dget mins k = Some m /\ y <= m /\ y <= x /\ (y == m \/ y == x)).
  { intros k y Hk H. rewrite dget_set_neq in H by exact Hk. rewrite dget_lower in H.
    destruct (dget mins k) as [m|]; [|discriminate]. cbn in H. injection H as <-. exists m. split; [reflexivity|].
    destruct (qmin2_spec m x) as [[->| ->] [L1 L2]]; (split; [lra|]); (split; [lra|]); first [left; lra | right; lra]. }
  split; [|split; [|split]].
  - rewrite dkeys_set. assert (M : dmem (lower_all mins x) i = false) by (apply dmem_None; exact Dn).
    rewrite M, lower_keys. reflexivity.
  - intros y H. rewrite dget_set_eq in H. injection H as <-. lra.
  - exact C.
  - intros k m H. destruct (beq k i) eqn:B.
    + apply beq_true in B. subst k. rewrite dget_set_eq in H. injection H as <-. exact Lx.
    + apply beq_false in B. destruct (C k m B H) as [m' [Hm [_ [_ [->| ->]]]]]; [eauto|exact Lx].
Qed.
Lemma extends_again i mins latest x x' : extends i mins latest x -> x' <= x -> epsilon <= x' -> extends i mins (lower_all latest x') x'.
Proof.
  intros [E1 [E2 [E3 E4]]] L Le. split; [rewrite lower_keys; exact E1|]. split.
  { intros y H. rewrite dget_lower in H. destruct (dget latest i) as [z|] eqn:Ez; [|discriminate]. cbn in H. injection H as <-.
    specialize (E2 z eq_refl). destruct (qmin2_spec z x') as [[->| ->] [L1 L2]]; lra. }
  split.
  { intros k y Hk H. rewrite dget_lower in H. destruct (dget latest k) as [z|] eqn:Ez; [|discriminate]. cbn in H. injection H as <-.
    destruct (E3 k z Hk Ez) as [m [Hm [L1 [L2 [Q|Q]]]]]; exists m; (split; [exact Hm|]);
    destruct (qmin2_spec z x') as [[->| ->] [L3 L4]]; (split; [lra|]); (split; [lra|]);
      first [left; lra | right; lra]. }
  intros k m H. rewrite dget_lower in H. destruct (dget latest k) as [z|] eqn:Ez; [|discriminate]. cbn in H. injection H as <-.
  specialize (E4 k z Ez). destruct (qmin2_spec z x') as [[->| ->] _]; lra.
Qed.

Section Rec.
Variable rec : string -> dict string Q -> pstate -> result (answer * pstate).
Variable bound : nat.
Variable i : string.
Variable mins : dict string Q.
Hypothesis rec_ok : forall j latest st, (List.length latest = S (List.length mins))%nat -> pre j latest st ->
  exists a st', rec j latest st = Ok (a, st') /\ post j latest st a st'.
Hypothesis bound_ok : (List.length K < bound)%nat.
Hypothesis Ni : ~ In i (dkeys mins).
Hypothesis Nd : NoDup (dkeys mins).

Definition apost (j : string) (st : pstate) (a : answer) (st' : pstate) : Prop :=
  inv st' /\ below st st' /\ unchanged mins st st' /\ dget (p_free st') i = Some false /\
  match a with
  | None => settled st' i j /\ forall v, net (p_flows st') v == net (p_flows st) v
  | Some (k, red) => found i mins st st' k red
  end.

Lemma again_ok : forall n j latest st x, (active (p_flows st) < n)%nat -> inv st ->
  dget (p_free st) i = Some false -> dget (p_free st) j = Some false ->
  (forall k, In k (dkeys mins) -> dget (p_free st) k = Some false) ->
  ~ In j (dkeys mins) -> j <> i -> dget (p_flows st) (i, j) = Some x -> epsilon <= x ->
  extends i mins latest x ->
  exists a st', again rec i n j latest st = Ok (a, st') /\ apost j st a st'.
Proof.
  induction n as [|n IH]; intros j latest st x Hn I Fi Fj Fm Nj Nji Ex Lx X; [lia|].
  destruct X as [X1 [X2 [X3 X4]]].
  assert (Ii : In i (dkeys latest)) by (rewrite X1; apply in_or_app; right; left; reflexivity).
  assert (Im : forall u, In u (dkeys mins) -> In u (dkeys latest)) by (intros u H; rewrite X1; apply in_or_app; auto).
  destruct (rec_ok j latest st) as [a [st1 [E P]]].
  { transitivity (List.length (dkeys latest)); [unfold dkeys; rewrite map_length; reflexivity|].
    rewrite X1, app_length. unfold dkeys. rewrite map_length. cbn. lia. }
  { split; [exact I|]. split; [exact Fj|]. rewrite X1. split.
    - intro C. apply in_app_or in C as [C|[C|[]]]; [auto|congruence].
    - split; [|split; [|exact X4]].
      + clear - Ni Nd. induction (dkeys mins) as [|k l IHl]; cbn.
        * constructor; [auto|constructor].
        * inversion Nd; subst. constructor; [|apply IHl; [intro C; apply Ni; right; exact C|assumption]].
          intro C. apply in_app_or in C as [C|[C|[]]]; [contradiction|]. apply Ni. left. auto.
      + intros k C. apply in_app_or in C as [C|[<-|[]]]; auto. }
  cbn [again]. rewrite E. cbn [rbind]. destruct P as [I1 [B1 [U1 P]]].
  assert (Ui : dget (p_free st1) i = Some false) by (rewrite (proj1 (U1 i Ii)); exact Fi).
  assert (Um : unchanged mins st st1) by (intros u H; apply U1; auto).
  assert (Ex1 : dget (p_flows st1) (i, j) = Some x) by (rewrite (proj2 (U1 i Ii)); exact Ex).
  destruct a as [[k red]|].
  2:{ destruct P as [P1 P2]. exists None, st1. split; [reflexivity|]. split; [exact I1|]. split; [exact B1|].
      split; [exact Um|]. split; [exact Ui|]. split; [|exact P2]. intros y _ _. exact P1. }
  rewrite Ex1. destruct P as [m [Hm [R1 [R2 [R3 R4]]]]].
  assert (Hmx : m <= x).
  { destruct (beq k i) eqn:Q; [apply beq_true in Q; subst k; rewrite (X2 m Hm); lra|].
    apply beq_false in Q. destruct (X3 k m Q Hm) as [_ [_ [_ [L _]]]]. exact L. }
  assert (R0 : 0 <= red) by (apply Qle_trans with epsilon; [discriminate|exact R1]).
  assert (I2 : inv (p_reduce st1 (i, j) x red)) by (apply inv_reduce; auto).
  assert (B2 : below st1 (p_reduce st1 (i, j) x red)) by (apply below_reduce; auto; lra).
  assert (U2 : unchanged mins st1 (p_reduce st1 (i, j) x red)).
  { intros u Hu. split; [reflexivity|]. intro v. cbn. apply dget_set_neq. intros [= -> _]. contradiction. }
  assert (Nt : forall v, net (p_flows (p_reduce st1 (i, j) x red)) v == net (p_flows st) v - delta v i red + delta v k red).
  { intro v. cbn [p_flows p_reduce]. rewrite (net_reduce _ _ _ _ _ _ Ex1), R4. lra. }
  destruct (beq k i) eqn:Q; cbn [negb].
  2:{ apply beq_false in Q. exists (Some (k, red)), (p_reduce st1 (i, j) x red). split; [reflexivity|].
      split; [exact I2|]. split; [apply (below_trans _ st1); assumption|].
      split; [apply (unchanged_trans _ _ st1); assumption|]. split; [exact Ui|].
      destruct (X3 k m Q Hm) as [m' [Hm' [L1 [L2 C]]]]. exists m'. split; [exact Hm'|]. split; [exact R1|]. split; [lra|].
      split; [|exact Nt]. pose proof (b_active _ _ B1) as A1. pose proof (b_active _ _ B2) as A2.
      destruct R3 as [R3|R3]; [left; lia|]. destruct C as [C|C]; [right; lra|]. left.
      assert (active (p_flows (p_reduce st1 (i, j) x red)) < active (p_flows st1))%nat; [|lia].
      cbn [p_flows p_reduce]. apply (active_lt _ _ x); [exact Ex1|exact Lx|]. assert (x - red == 0) as -> by lra. reflexivity. }
  apply beq_true in Q. subst k.
  assert (D : (active (p_flows (p_reduce st1 (i, j) x red)) < active (p_flows st))%nat).
  { pose proof (b_active _ _ B1) as A1. pose proof (b_active _ _ B2) as A2. destruct R3 as [R3|R3]; [lia|].
    rewrite (X2 m Hm) in R3.
    assert (active (p_flows (p_reduce st1 (i, j) x red)) < active (p_flows st1))%nat; [|lia].
    cbn [p_flows p_reduce]. apply (active_lt _ _ x); [exact Ex1|exact Lx|]. assert (x - red == 0) as -> by lra. reflexivity. }
  assert (Nt' : forall v, net (p_flows (p_reduce st1 (i, j) x red)) v == net (p_flows st) v) by (intro v; rewrite Nt; lra).
  assert (Hj : In (i, j) K) by (rewrite <- (inv_keys _ I); apply In_dkeys; eauto).
  destruct (inv_ends _ I1 _ _ Hj) as [[fr Efr] _]. cbn [p_free p_reduce]. rewrite Efr.
  destruct (gtb epsilon (Qabs (x - red)) || fr) eqn:Stop.
  - exists None, (p_reduce st1 (i, j) x red). split; [reflexivity|]. split; [exact I2|].
    split; [apply (below_trans _ st1); assumption|]. split; [apply (unchanged_trans _ _ st1); assumption|].
    split; [exact Ui|]. split; [|exact Nt']. intros y Hy Ly. cbn in Hy. rewrite dget_set_eq in Hy. injection Hy as <-.
    apply Bool.orb_prop in Stop as [Stop| ->]; [|exact Efr]. apply gtb_true in Stop.
    pose proof (Qle_Qabs (x - red)). lra.
  - apply Bool.orb_false_elim in Stop as [S1 ->]. apply gtb_false in S1.
    assert (Ab : Qabs (x - red) == x - red) by (apply Qabs_pos; lra).
    destruct (IH j (lower_all latest (x - red)) (p_reduce st1 (i, j) x red) (x - red)) as [a [st' [E' P']]].
    + lia.
    + exact I2.
    + exact Ui.
    + exact Efr.
    + intros k Hk. cbn. rewrite (proj1 (Um k Hk)). auto.
    + exact Nj.
    + exact Nji.
    + cbn. apply dget_set_eq.
    + lra.
    + apply (extends_again i mins latest x); [split; [|split; [|split]]; assumption|lra|lra].
    + exists a, st'. split; [exact E'|]. destruct P' as [P1 [P2 [P3 [P4 P5]]]]. split; [exact P1|].
      assert (B : below st st') by (apply (below_trans _ _ _ B1); apply (below_trans _ _ _ B2); exact P2).
      split; [exact B|].
      split; [apply (unchanged_trans _ _ _ _ Um); apply (unchanged_trans _ _ _ _ U2); exact P3|]. split; [exact P4|].
      destruct a as [[k r]|].
      * destruct P5 as [m' [Q1 [Q2 [Q3 [Q4 Q5]]]]]. exists m'. split; [exact Q1|]. split; [exact Q2|]. split; [exact Q3|].
        split; [destruct Q4 as [Q4|Q4]; [left; lia|right; exact Q4]|]. intro v. rewrite Q5, Nt'. lra.
      * destruct P5 as [Q1 Q2]. split; [exact Q1|]. intro v. rewrite Q2. apply Nt'.
Qed.

Lemma each_ok : forall js st, inv st -> dget (p_free st) i = Some false ->
  (forall k, In k (dkeys mins) -> dget (p_free st) k = Some false) ->
  (forall k m, dget mins k = Some m -> epsilon <= m) ->
  (forall j, In j js -> In (i, j) K) -> (forall j, In (i, j) K -> In j js \/ settled st i j) ->
  exists a st', each rec bound i mins js st = Ok (a, st') /\ post i mins st a st'.
Proof.
  induction js as [|j js IH]; intros st I Fi Fm Fe Jk Jd.
  - exists None, (mark st i). split; [reflexivity|].
    assert (S : forall j, In (i, j) K -> settled st i j) by (intros j H; destruct (Jd j H) as [[]|S]; exact S).
    split; [apply inv_mark; auto|]. split; [apply below_mark; exact Fi|]. split.
    + intros u Hu. cbn. split; [|reflexivity]. apply dget_set_neq. intros ->. contradiction.
    + cbn. split; [apply dget_set_eq|]. intro v. lra.
  - assert (Hj : In (i, j) K) by (apply Jk; left; reflexivity).
    assert (Ex : exists x, dget (p_flows st) (i, j) = Some x) by (apply In_dkeys; rewrite (inv_keys _ I); exact Hj).
    destruct Ex as [x Ex]. destruct (inv_ends _ I _ _ Hj) as [[fr Efr] Dj]. cbn [each]. rewrite Ex, Efr.
    assert (Skip : settled st i j -> exists a st', each rec bound i mins js st = Ok (a, st') /\ post i mins st a st').
    { intro S. apply IH; auto.
      - intros k Hk. apply Jk. right. exact Hk.
      - intros k Hk. destruct (Jd k Hk) as [[<-|C]|C]; auto. }
    destruct (gtb x epsilon) eqn:G; cbn [negb].
    2:{ apply Skip. intros y Hy Ly. rewrite Ex in Hy. injection Hy as <-. apply gtb_false in G. lra. }
    destruct fr; [apply Skip; intros y _ _; exact Efr|]. apply gtb_true in G.
    assert (Lx : epsilon <= x) by lra.
    pose proof (extends_first i mins x Ni Lx Fe) as X.
    destruct (dget mins j) as [mj|] eqn:Mj.
    + assert (Hl : exists m, dget (dset (lower_all mins x) i x) j = Some m).
      { apply In_dkeys. rewrite (proj1 X). apply in_or_app. left. apply In_dkeys. eauto. }
      destruct Hl as [m Hm]. rewrite Hm. exists (Some (j, m)), (p_reduce st (i, j) x m). split; [reflexivity|].
      destruct X as [_ [_ [X3 X4]]]. destruct (X3 j m (fun H => Dj (eq_sym H)) Hm) as [m' [Hm' [L1 [L2 C]]]].
      rewrite Mj in Hm'. injection Hm' as <-. specialize (X4 j m Hm).
      assert (R0 : 0 <= m) by (apply Qle_trans with epsilon; [discriminate|exact X4]).
      split; [apply inv_reduce; auto|]. split; [apply below_reduce; auto|]. split.
      * intros u Hu. split; [reflexivity|]. intro v. cbn. apply dget_set_neq. intros [= -> _]. contradiction.
      * exists mj. split; [exact Mj|]. split; [exact X4|]. split; [exact L1|]. split.
        { destruct C as [C|C]; [right; exact C|left]. cbn [p_flows p_reduce]. apply (active_lt _ _ x); [exact Ex|exact Lx|].
          assert (x - m == 0) as -> by lra. reflexivity. }
        intro v. cbn [p_flows p_reduce]. apply net_reduce. exact Ex.
    + destruct (again_ok bound j (dset (lower_all mins x) i x) st x) as [a [st1 [E P]]]; auto.
      { apply Nat.le_lt_trans with (List.length K); [|exact bound_ok]. rewrite <- (inv_keys _ I). unfold dkeys.
        rewrite map_length. apply active_bound. }
      { apply dget_None_keys. exact Mj. }
      rewrite E. cbn [rbind]. destruct P as [P1 [P2 [P3 [P4 P5]]]]. destruct a as [[k red]|].
      * exists (Some (k, red)), st1. split; [reflexivity|]. split; [exact P1|]. split; [exact P2|]. split; [exact P3|]. exact P5.
      * destruct P5 as [Q1 Q2]. destruct (IH st1) as [a [st' [E' P']]]; auto.
        { intros k Hk. rewrite (proj1 (P3 k Hk)). auto. }
        { intros k Hk. apply Jk. right. exact Hk. }
        { intros k Hk. destruct (Jd k Hk) as [[<-|C]|C]; auto. right.
          assert (Ey : exists y, dget (p_flows st) (i, k) = Some y) by (apply In_dkeys; rewrite (inv_keys _ I); exact Hk).
          destruct Ey as [y Ey]. apply (settled_below st st1 i k y); auto. }
        exists a, st'. split; [exact E'|]. destruct P' as [T1 [T2 [T3 T4]]]. split; [exact T1|].
        split; [apply (below_trans _ _ _ P2 T2)|]. split; [apply (unchanged_trans _ _ _ _ P3 T3)|].
        destruct a as [[k red]|].
        { destruct T4 as [m [W1 [W2 [W3 [W4 W5]]]]]. exists m. split; [exact W1|]. split; [exact W2|]. split; [exact W3|]. split.
          - pose proof (b_active _ _ P2). destruct W4 as [W4|W4]; [left; lia|right; exact W4].
          - intro v. rewrite W5, Q2. lra. }
        { destruct T4 as [W1 W2]. split; [exact W1|]. intro v. rewrite W2. apply Q2. }
Qed.
End Rec.

Lemma prune_ok succ bound : (forall i j, In j (succ i) <-> In (i, j) K) -> (List.length K < bound)%nat ->
  forall fuel i mins st, (N <= List.length mins + fuel)%nat -> pre i mins st ->
  exists a st', prune fuel bound succ i mins st = Ok (a, st') /\ post i mins st a st'.
Proof.
  intros Hs Hb. induction fuel as [|f IH]; intros i mins st Hf P.
  - apply pre_room in P. lia.
  - cbn [prune]. destruct P as [I [F [Ni [Nd [Fr E]]]]]. apply each_ok; auto.
    + intros j latest st' L P. apply IH; [lia|exact P].
    + intros j H. apply Hs. exact H.
    + intros j H. left. apply Hs. exact H.
Qed.

Lemma all_locations_ok succ bound depth : (forall i j, In j (succ i) <-> In (i, j) K) -> (List.length K < bound)%nat -> (N <= depth)%nat ->
  forall locs st, inv st -> (forall l, In l locs -> exists b, dget (p_free st) l = Some b) ->
  exists st', all_locations depth bound succ locs st = Ok st' /\ inv st' /\ below st st' /\
    (forall l, In l locs -> dget (p_free st') l = Some true) /\ forall v, net (p_flows st') v == net (p_flows st) v.
Proof.
  intros Hs Hb Hd. induction locs as [|l locs IH]; intros st I H.
  - exists st. split; [reflexivity|]. split; [exact I|]. split; [apply below_refl|]. split; [intros l []|]. intro v. lra.
  - assert (One : exists st1, until_free bound (prune depth bound succ l []) l st = Ok st1 /\ inv st1 /\ below st st1 /\
      dget (p_free st1) l = Some true /\ forall v, net (p_flows st1) v == net (p_flows st) v).
    { destruct bound as [|b']; [lia|]. cbn [until_free]. destruct (H l) as [fr Efr]; [left; reflexivity|]. rewrite Efr.
      destruct fr.
      - exists st. split; [reflexivity|]. split; [exact I|]. split; [apply below_refl|]. split; [exact Efr|]. intro v. lra.
      - destruct (prune_ok succ (S b') Hs Hb depth l [] st) as [a [st1 [E P]]].
        { cbn. exact Hd. }
        { split; [exact I|]. split; [exact Efr|]. split; [intros []|]. split; [constructor|]. split; [intros k []|discriminate]. }
        rewrite E. cbn [rbind snd]. destruct P as [P1 [P2 [_ P3]]]. destruct a as [[k red]|].
        + destruct P3 as [m [C _]]. discriminate.
        + destruct P3 as [P3 P4]. exists st1. split; [|auto]. destruct b'; cbn [until_free]; rewrite P3; reflexivity. }
    destruct One as [st1 [E [I1 [B1 [F1 N1]]]]]. cbn [all_locations]. rewrite E. cbn [rbind].
    destruct (IH st1 I1) as [st' [E' [I' [B' [F' N']]]]].
    { intros k Hk. destruct (H k) as [b Eb]; [right; exact Hk|]. apply In_dkeys. rewrite (b_keys _ _ B1). apply In_dkeys. eauto. }
    exists st'. split; [exact E'|]. split; [exact I'|]. split; [apply (below_trans _ _ _ B1 B')|]. split.
    + intros k [<-|Hk]; [apply (b_free _ _ B'); exact F1|auto].
    + intro v. rewrite N'. apply N1.
Qed.
Lemma inv_acyclic st : inv st -> (forall u v, In (u, v) K -> dget (p_free st) u = Some true) -> acyclic_above (p_flows st) epsilon.
Proof.
  intros [I1 I2 _ [L [N1 [N2 N3]]]] F v W.
  assert (Src : forall u w x, dget (p_flows st) (u, w) = Some x -> In u L).
  { intros u w x H. apply N2. apply (F u w). rewrite <- I1. apply In_dkeys. eauto. }
  assert (Lt : forall u w, walk (p_flows st) epsilon u w -> exists a b, L = (a ++ u :: b)%list /\ In w b).
  { intros u w H. induction H as [u w f H1 H2|u w z f H1 H2 H3 IH].
    - destruct (in_split u L (Src _ _ _ H1)) as [a [b E]]. exists a, b. split; [exact E|]. apply (N3 a u b w f E H1 H2).
    - destruct (in_split u L (Src _ _ _ H1)) as [a [b E]]. exists a, b. split; [exact E|].
      pose proof (N3 a u b w f E H1 H2) as Iw. destruct IH as [a' [b' [E' Iz]]].
      apply in_split in Iw as [c [d Ed]]. rewrite E in N1. subst b.
      assert (Q : (a ++ u :: c ++ w :: d)%list = (a' ++ w :: b')%list) by congruence.
      assert (Db : d = b').
      { rewrite app_comm_cons, app_assoc in Q. rewrite app_comm_cons, app_assoc in N1.
        apply (split_unique _ _ _ _ _ N1 Q). }
      subst d. apply in_or_app. right. right. exact Iz. }
  destruct (Lt v v W) as [a [b [E Iv]]]. rewrite E in N1. apply NoDup_remove_2 in N1. apply N1. apply in_or_app. auto.
Qed.
End Inv.

(** ** the whole function *)
Lemma succs_In fl i j : In j (succs fl i) <-> In (i, j) (dkeys fl).
Proof.
  unfold succs. rewrite in_map_iff. split.
  - intros [[a b] [<- H]]. apply filter_In in H as [H E]. apply beq_true in E. cbn in *. subst a. exact H.
  - intro H. exists (i, j). split; [reflexivity|]. apply filter_In. split; [exact H|]. apply beq_refl.
Qed.
Lemma free_start (locs : list string) : forall d : dict string bool, (forall l, In l (dkeys (fold_left (fun d l => dset d l false) locs d)) <-> In l (dkeys d) \/ In l locs) /\
  (forall l, dget (fold_left (fun d l => dset d l false) locs d) l = if mem l locs then Some false else dget d l) /\
  (List.length (dkeys (fold_left (fun d l => dset d l false) locs d)) <= List.length (dkeys d) + List.length locs)%nat.
Proof.
  induction locs as [|a locs IH]; intro d; cbn [fold_left].
  - split; [intro l; cbn; tauto|]. split; [reflexivity|]. cbn. lia.
  - destruct (IH (dset d a false)) as [A [B C]]. split; [|split].
    + intro l. rewrite A. rewrite !In_dkeys. rewrite dget_set. cbn [In]. destruct (beq l a) eqn:E.
      * apply beq_true in E. subst l. split; [auto|]. intros _. left. eauto.
      * apply beq_false in E. split; [intros [H|H]; auto|]. intros [H|[H|H]]; auto. congruence.
    + intro l. rewrite B. rewrite dget_set. cbn [mem]. destruct (beq l a); cbn [orb]; destruct (mem l locs); reflexivity.
    + rewrite dkeys_set in C. destruct (dmem d a); [cbn in *; lia|]. rewrite app_length in C. cbn in *. lia.
Qed.
Lemma copy_get (l : dict edge Q) : forall d e, NoDup (dkeys l) ->
  dget (fold_left (fun d p => dset d (fst p) (snd p)) l d) e = match dget l e with Some x => Some x | None => dget d e end.
Proof.
  induction l as [|[e' x] l IH]; intros d e N; cbn [fold_left]; [reflexivity|].
  cbn in N. inversion N as [|? ? N1 N2]; subst. rewrite IH by exact N2. cbn [fst snd dget]. rewrite dget_set.
  destruct (beq e e') eqn:E; [|reflexivity]. apply beq_true in E. subst e'. apply dget_None_keys in N1. rewrite N1. reflexivity.
Qed.
Lemma copy_keys (l : dict edge Q) : forall d, (forall e, In e (dkeys l) -> In e (dkeys d)) ->
  dkeys (fold_left (fun d p => dset d (fst p) (snd p)) l d) = dkeys d.
Proof.
  induction l as [|[e x] l IH]; intros d H; cbn [fold_left fst snd]; [reflexivity|].
  assert (K : dkeys (dset d e x) = dkeys d).
  { rewrite dkeys_set. assert (M : dmem d e = true) by (apply dmem_keys; apply H; left; reflexivity). rewrite M. reflexivity. }
  rewrite IH, K; [reflexivity|]. intros e' He'. rewrite K. apply H. right. exact He'.
Qed.
Lemma zero_get (links : list edge) : forall (d : dict edge Q) e, dget (fold_left (fun d l => dset d l 0) links d) e = if mem e links then Some 0 else dget d e.
Proof.
  induction links as [|a links IH]; intros d e; cbn [fold_left mem]; [reflexivity|].
  rewrite IH, dget_set. destruct (beq e a); cbn [orb]; destruct (mem e links); reflexivity.
Qed.
Lemma zero_wf (links : list edge) : forall d : dict edge Q, dwf d -> dwf (fold_left (fun d l => dset d l 0) links d).
Proof. induction links as [|a links IH]; intros d W; cbn [fold_left]; [exact W|]. apply IH. apply dwf_set. exact W. Qed.

(** sums over dictionaries with the same content *)
Lemma sumq_app {A} (f : A -> Q) a b : sumq f (a ++ b) == sumq f a + sumq f b.
Proof. induction a as [|x a IH]; cbn; [lra|]. rewrite IH. lra. Qed.
Lemma sumq_perm {A} (f : A -> Q) a b : Permutation.Permutation a b -> sumq f a == sumq f b.
Proof. induction 1; cbn; lra. Qed.
Lemma sumq_zero {A} (f : A -> Q) l : (forall x, In x l -> f x == 0) -> sumq f l == 0.
Proof. induction l as [|x l IH]; cbn; intro H; [lra|]. rewrite IH by auto. rewrite (H x) by auto. lra. Qed.
Lemma sumq_extend (f : (string * string) * Q -> Q) (d l : dict edge Q) : dwf d -> dwf l ->
  (forall e x, dget l e = Some x -> dget d e = Some x) ->
  (forall e x, dget d e = Some x -> dget l e = None -> x = 0) -> (forall e, f (e, 0) == 0) ->
  sumq f d == sumq f l.
Proof.
  revert d. induction l as [|[e x] l IH]; intros d Wd Wl Sub Ext Z.
  - cbn [sumq]. apply sumq_zero. intros [e x] H. rewrite (Ext e x); [apply Z| |reflexivity]. apply In_dget; assumption.
  - inversion Wl as [|? ? N1 N2]; subst.
    assert (G : dget d e = Some x) by (apply Sub; cbn; rewrite beq_refl; reflexivity).
    apply dget_In in G as G'. apply in_split in G' as [a [b ->]].
    assert (Wab : NoDup (dkeys (a ++ b)) /\ ~ In e (dkeys (a ++ b))).
    { unfold dwf, dkeys in Wd. rewrite map_app in Wd. cbn in Wd. split.
      - unfold dkeys. rewrite map_app. apply NoDup_remove_1 in Wd. exact Wd.
      - unfold dkeys. rewrite map_app. apply NoDup_remove_2 in Wd. exact Wd. }
    destruct Wab as [Wab Ne].
    assert (Gt : forall e', e' <> e -> dget (a ++ (e, x) :: b) e' = dget (a ++ b) e').
    { intros e' He. clear - He. induction a as [|[k y] a IHa]; cbn [app dget].
      - apply beq_neq in He. rewrite He. reflexivity.
      - rewrite IHa. reflexivity. }
    assert (E : sumq f (a ++ (e, x) :: b) == f (e, x) + sumq f (a ++ b)) by (rewrite !sumq_app; cbn [sumq]; lra).
    rewrite E. cbn [sumq]. rewrite (IH (a ++ b)%list); [reflexivity|exact Wab|exact N2| | |exact Z].
    + intros e' y H. assert (He : e' <> e) by (intros ->; apply N1; apply (in_map fst) in H || (apply In_dkeys; eauto)).
      rewrite <- Gt by exact He. apply Sub. cbn. apply beq_neq in He. rewrite He. exact H.
    + intros e' y H H'. assert (He : e' <> e) by (intros ->; apply Ne; apply In_dkeys; eauto).
      apply (Ext e'); [rewrite Gt by exact He; exact H|]. cbn. apply beq_neq in He. rewrite He. exact H'.
Qed.
Lemma prune_loops_ok links locations flows : graph_ok links locations flows ->
  exists fl, prune_loops links locations flows = Ok fl /\ dwf fl /\ defined_on links fl /\
    (forall v, net fl v == net flows v) /\
    (forall e x, dget flows e = Some x -> exists y, dget fl e = Some y /\ y <= x /\ (0 <= x -> 0 <= y)) /\
    (forall e, dget flows e = None -> In e links -> dget fl e = Some 0) /\
    acyclic_above fl epsilon.
Proof.
  intros [W [Sub Ends]]. unfold prune_loops. set (free := fold_left _ locations _).
  destruct (free_start locations []) as [A [B C]]. fold free in A, B, C. cbn [dkeys List.length map Nat.add] in C.
  set (K := dkeys flows). set (N := List.length (dkeys free)).
  assert (Fr : forall l, In l locations -> dget free l = Some false).
  { intros l H. rewrite B. apply mem_In in H. rewrite H. reflexivity. }
  assert (I0 : inv K N (mkP flows free)).
  { constructor; cbn [p_flows p_free]; auto.
    - intros u v H. apply Sub in H. apply Ends in H as [H1 [H2 H3]]. cbn in *. split; [|exact H3]. exists false. auto.
    - exists []. split; [constructor|]. split; [|intros [|? ?]; discriminate].
      intro v. split; [intros []|]. rewrite B. destruct (mem v locations); discriminate. }
  destruct (all_locations_ok K N (succs flows) (S (List.length flows)) (S (List.length locations))) with (locs := dkeys free) (st := mkP flows free)
    as [st [E [I [Bl [F Nt]]]]].
  - intros i j. apply succs_In.
  - unfold K, dkeys. rewrite map_length. lia.
  - unfold N. lia.
  - exact I0.
  - intros l H. apply In_dkeys in H. exact H.
  - rewrite E. cbn [rbind]. set (base := fold_left (fun d l => dset d l 0) links []).
    assert (Kf : dkeys (p_flows st) = dkeys flows) by (apply (inv_keys _ _ _ I)).
    assert (Wst : NoDup (dkeys (p_flows st))) by (rewrite Kf; exact W).
    assert (Bk : forall e, In e (dkeys base) <-> In e links).
    { intro e. unfold base. rewrite In_dkeys, zero_get. cbn [dget]. destruct (mem e links) eqn:M.
      - apply mem_In in M. split; eauto.
      - apply mem_not_In in M. split; [intros [v H]; discriminate|contradiction]. }
    set (fl := fold_left _ (p_flows st) base).
    assert (Get : forall e, dget fl e = match dget (p_flows st) e with Some x => Some x | None => dget base e end)
      by (intro e; apply copy_get; exact Wst).
    assert (Ks : dkeys fl = dkeys base).
    { apply copy_keys. intros e H. apply Bk. apply Sub. rewrite <- Kf. exact H. }
    assert (Wb : dwf base) by (apply zero_wf; constructor).
    assert (Wf : dwf fl) by (unfold dwf; rewrite Ks; exact Wb).
    exists fl. split; [reflexivity|]. split; [exact Wf|]. split; [intro e; rewrite Ks; apply Bk|].
    assert (Ext : forall (f : (string * string) * Q -> Q), (forall e, f (e, 0) == 0) -> sumq f fl == sumq f (p_flows st)).
    { intros f Z. apply sumq_extend; auto.
      - intros e x H. rewrite Get, H. reflexivity.
      - intros e x H H'. rewrite Get, H' in H. unfold base in H. rewrite zero_get in H. destruct (mem e links); cbn in H; congruence. }
    split.
    { intro v. rewrite <- (Nt v). unfold net, outflow, inflow. cbn [p_flows].
      rewrite (Ext (fun p => if String.eqb (fst (fst p)) v then snd p else 0)) by (intro e; cbn; destruct (String.eqb _ _); reflexivity).
      rewrite (Ext (fun p => if String.eqb (snd (fst p)) v then snd p else 0)) by (intro e; cbn; destruct (String.eqb _ _); reflexivity).
      reflexivity. }
    split.
    { intros e x H. destruct (b_flow _ _ Bl e x H) as [y [Hy L]]. exists y. split; [rewrite Get, Hy; reflexivity|exact L]. }
    split.
    { intros e H Hl. rewrite Get. assert (Hn : dget (p_flows st) e = None).
      { apply dget_None_keys. rewrite Kf. apply dget_None_keys. exact H. }
      rewrite Hn. unfold base. rewrite zero_get. apply mem_In in Hl. rewrite Hl. reflexivity. }
    assert (Ac : acyclic_above (p_flows st) epsilon).
    { apply (inv_acyclic K N); [exact I|]. intros u v H. apply F. apply A. right. apply Sub in H. apply Ends in H. tauto. }
    intros v Wk. apply (Ac v). clear - Wk Get. revert Wk. generalize v at 1 3 as u. intros u Wk. 
    assert (Tr : forall u v x, dget fl (u, v) = Some x -> epsilon < x -> dget (p_flows st) (u, v) = Some x).
    { intros a b x H L. rewrite Get in H. destruct (dget (p_flows st) (a, b)); [exact H|]. unfold base in H. rewrite zero_get in H.
      destruct (mem _ _); [|discriminate]. injection H as <-. exfalso. revert L. apply Qle_not_lt. discriminate. }
    induction Wk as [a b x H L|a b c x H L _ IH]; [apply walk_one with x; auto|apply walk_cons with b x; auto].
Qed.
