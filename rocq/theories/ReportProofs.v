(** Proofs about the flow statistics of the report. *)
From Coq Require Import QArith Qabs Lqa Lia.
From Verif Require Import Base Dict QLib MonadLib SetupModel LosRangeModel TopologyModel TopologySpec GraphSpec RfModel TpcModel TpcSpec CountModel ReportModel ReportSpec.
From Verif Require TpcFinalProofs LosTopoProofs.
Local Open Scope Q_scope.
Local Open Scope list_scope.

Lemma act_planned st : active st = true <-> planned st.
Proof. unfold planned. destruct st; cbn; split; intros H; try discriminate; try destruct H as [H|H]; try discriminate; auto. Qed.
Lemma near0_iff x : near0 x = true <-> Qabs x <= tolerance.
Proof.
  change (near0 x) with (is_close (Fin x) (Fin 0)). rewrite TpcFinalProofs.close_nearly. cbn [nearly]. unfold tolerance. assert (E : x - 0 == x) by ring. rewrite E.
  assert (P := Qabs_nonneg x). change (Qabs 0) with 0. lra.
Qed.
Lemma near0_pos x : 0 <= x -> (near0 x = true <-> x <= tolerance).
Proof. intros H. rewrite near0_iff, Qabs_pos by auto. tauto. Qed.
Lemma flip l l' : ends l' = back l <-> opposite_ways l l'.
Proof. unfold ends, back, opposite_ways. split; [intros [= A B]; auto|intros [-> ->]; reflexivity]. Qed.
Lemma flip_sym l l' : opposite_ways l l' <-> opposite_ways l' l.
Proof. unfold opposite_ways. split; intros [A B]; auto. Qed.
Lemma percent_uses flow cap l : uses flow cap l (percent flow cap l).
Proof.
  unfold uses, percent, assigned, flow_of. change (l_tx l, l_rx l) with (ends l). destruct (Qle_bool (cap l) 0) eqn:E; qb.
  - split; intros H; [lra|reflexivity].
  - split; intros H; [field_simplify; [reflexivity|intros C; rewrite C in *; lra]|lra].
Qed.
Lemma uses_fun flow cap l u u' : uses flow cap l u -> uses flow cap l u' -> u == u'.
Proof.
  intros [A B] [A' B']. destruct (qle_case (cap l) 0) as [H|H].
  - rewrite (B H), (B' H). reflexivity.
  - specialize (A H). specialize (A' H). apply (Qmult_inj_r u u' (cap l)); [intros C; rewrite C in H; lra|]. now rewrite A, A'.
Qed.
Lemma percent_nonneg flow cap l : 0 <= assigned flow l -> 0 <= percent flow cap l.
Proof.
  intros H. unfold percent. unfold assigned in H. change (l_tx l, l_rx l) with (ends l) in H. fold (flow_of flow (ends l)) in H. destruct (Qle_bool (cap l) 0) eqn:E; qb; [lra|].
  apply Qmult_le_0_compat; [lra|]. apply Qle_shift_div_l; [exact E|lra].
Qed.
Lemma percent_le flow cap l : 0 <= assigned flow l <= cap l -> percent flow cap l <= 100.
Proof.
  intros H. unfold percent. unfold assigned in H. change (l_tx l, l_rx l) with (ends l) in H. fold (flow_of flow (ends l)) in H. destruct (Qle_bool (cap l) 0) eqn:E; qb; [lra|].
  assert (flow_of flow (ends l) / cap l <= 1); [|lra]. apply Qle_shift_div_r; [exact E|lra].
Qed.

Section Util.
Variables (flow : dict edge Q) (cap : link -> Q).
Notation pc := (percent flow cap).
Notation act l := (active (l_status l) = true).
Definition near2 (l l' : link) : bool := near0 (pc l) || near0 (pc l').
Definition kept (u : dict edge Q) (l : link) : Prop := dget u (ends l) <> None.
Record uinv (u : dict edge Q) (L : list link) : Prop := {
  u_sound : forall e q, dget u e = Some q -> exists l, In l L /\ act l /\ ends l = e /\ q = pc l;
  u_alone : forall l, In l L -> act l -> (forall l', In l' L -> act l' -> ends l' <> back l) -> kept u l;
  u_pair : forall l l', In l L -> In l' L -> act l -> act l' -> ends l' = back l ->
    (near2 l l' = false /\ kept u l /\ kept u l') \/
    (near2 l l' = true /\ ((kept u l /\ ~ kept u l' /\ pc l' <= pc l) \/ (kept u l' /\ ~ kept u l /\ pc l <= pc l'))) }.
Lemma near2_sym l l' : near2 l l' = near2 l' l.
Proof. unfold near2. apply orb_comm. Qed.
Lemma ends_back l l' : ends l' = back l <-> ends l = back l'.
Proof. rewrite !flip. apply flip_sym. Qed.

Lemma util_inv L : NoDup (map ends L) -> (forall l, In l L -> l_tx l <> l_rx l) -> uinv (active_link_utilization flow cap L) L /\ dwf (active_link_utilization flow cap L).
Proof.
  unfold active_link_utilization. induction L as [|x L IH] using rev_ind; intros ND NS.
  { split; [|constructor]. split; [discriminate|intros l []|intros l l' []]. }
  rewrite map_app in ND. assert (Nx : ~ In (ends x) (map ends L)).
  { cbn in ND. apply NoDup_remove_2 in ND. now rewrite app_nil_r in ND. }
  assert (NL : NoDup (map ends L)). { cbn in ND. apply NoDup_remove_1 in ND. now rewrite app_nil_r in ND. }
  destruct (IH NL) as [[I1 I2 I3] W]; [intros l Hl; apply NS, in_app_iff; auto|]. rewrite fold_left_app. cbn [fold_left]. set (u := fold_left _ L []) in *. clearbody u.
  assert (Sx : ends x <> back x). { intros [= C _]. apply (NS x); [apply in_app_iff; right; now left|exact C]. }
  assert (Fr : forall l, In l L -> ends l <> ends x). { intros l Hl C. apply Nx. rewrite <- C. now apply in_map. }
  assert (Inx : forall l, In l (L ++ [x]) -> In l L \/ l = x). { intros l H. apply in_app_iff in H. destruct H as [H|[H|[]]]; auto. }
  unfold util_step. destruct (active (l_status x)) eqn:Ax.
  2:{ split; [|exact W]. split.
    - intros e q H. destruct (I1 e q H) as (l & Hl & R). exists l. split; [apply in_app_iff; auto|exact R].
    - intros l H A Alone. destruct (Inx l H) as [Hl| ->]; [|congruence]. apply (I2 l Hl A). intros l' Hl'. apply Alone, in_app_iff. auto.
    - intros l l' H H' A A' E. destruct (Inx l H) as [Hl| ->]; [|congruence]. destruct (Inx l' H') as [Hl'| ->]; [|congruence]. now apply I3. }
  set (u1 := dset u (ends x) (pc x)).
  assert (G : forall e, dget u1 e = if beq e (ends x) then Some (pc x) else dget u e) by (intros e; apply dget_set).
  assert (Gb : dget u1 (back x) = dget u (back x)). { rewrite G. destruct (beq_spec (back x) (ends x)); [congruence|reflexivity]. }
  rewrite Gb. destruct (dget u (back x)) as [r|] eqn:Eb.
  - (* the opposite direction was seen and is kept *)
    destruct (I1 _ _ Eb) as (y & Hy & Ay & Ey & ->).
    assert (Oy : forall l, In l (L ++ [x]) -> ends l = back x -> ends l = ends y) by (intros; congruence).
    (* entries other than those of x and y are unchanged *)
    assert (K : forall v, (forall e, e <> ends x -> e <> ends y -> dget v e = dget u e) -> (forall e q, dget v e = Some q -> dget u1 e = Some q) ->
       ((near2 x y = false /\ kept v x /\ kept v y) \/ (near2 x y = true /\ ((kept v x /\ ~ kept v y /\ pc y <= pc x) \/ (kept v y /\ ~ kept v x /\ pc x <= pc y)))) -> uinv v (L ++ [x])).
    { intros v Hv Hs Hp. assert (Uy : forall l, In l L -> ends l = ends y -> l = y).
      { clear - NL Hy. induction L as [|z L IH]; [intros l []|]. cbn in NL. inversion NL as [|? ? N1 N2]; subst. intros l Hl E.
        destruct Hl as [<-|Hl], Hy as [<-|Hy]; auto; exfalso; apply N1; [rewrite E|rewrite <- E]; now apply in_map. }
      assert (Kv : forall l, In l L -> ends l <> ends y -> (kept v l <-> kept u l)). { intros l Hl N. unfold kept. rewrite Hv; auto. tauto. }
      split.
      - intros e q H. apply Hs in H. rewrite G in H. destruct (beq_spec e (ends x)) as [->|N].
        + injection H as <-. exists x. repeat split; auto. apply in_app_iff. right. now left.
        + destruct (I1 e q H) as (l & Hl & R). exists l. split; [apply in_app_iff; auto|exact R].
      - intros l H A Alone. destruct (Inx l H) as [Hl| ->].
        + assert (N : ends l <> ends y). { intros C. rewrite (Uy l Hl C) in Alone. apply (Alone x); [apply in_app_iff; right; now left|exact Ax|]. apply ends_back. exact Ey. }
          apply (Kv l Hl N). apply (I2 l Hl A). intros l' Hl'. apply Alone, in_app_iff. auto.
        + exfalso. apply (Alone y); [apply in_app_iff; auto|exact Ay|exact Ey].
      - assert (X : forall l, In l L -> ends l = back x -> l = y) by (intros l Hl E; apply Uy; [exact Hl|congruence]).
        intros l l' H H' A A' E. destruct (Inx l H) as [Hl| ->]; destruct (Inx l' H') as [Hl'| ->].
        + assert (N : ends l <> ends y). { intros C. rewrite (Uy l Hl C) in E. apply (Fr l' Hl'). rewrite E. symmetry. apply ends_back. exact Ey. }
          assert (N' : ends l' <> ends y). { intros C. apply (Fr l Hl). apply ends_back in E. rewrite E, (Uy l' Hl' C). symmetry. apply ends_back. exact Ey. }
          rewrite !Kv by auto. now apply I3.
        + apply ends_back in E. rewrite (X l Hl E). rewrite (near2_sym y x). tauto.
        + rewrite (X l' Hl' E). exact Hp.
        + exfalso. congruence. }
    assert (Kx1 : dget u1 (ends x) = Some (pc x)) by (rewrite G, beq_refl; reflexivity).
    assert (Nxy : ends x <> ends y) by congruence.
    assert (Ky1 : dget u1 (ends y) = Some (pc y)). { rewrite Ey, Gb. reflexivity. }
    assert (W1 : dwf u1) by (now apply dwf_set).
    fold (near2 x y). destruct (near2 x y) eqn:En.
    + destruct (Qle_bool (pc x) (pc y)) eqn:Ec; cbn [negb]; qb.
      * split; [|now apply dwf_del]. apply K.
        -- intros e N1 N2. rewrite dget_del_neq by auto. rewrite G. destruct (beq_spec e (ends x)); [congruence|reflexivity].
        -- intros e q H. rewrite dget_del in H. destruct (beq e (ends x)); [discriminate|exact H].
        -- right. split; [reflexivity|]. right. unfold kept. rewrite dget_del_eq, (dget_del_neq _ _ (ends y)) by congruence. rewrite Ky1. repeat split; try congruence; tauto.
      * rewrite <- Ey. split; [|now apply dwf_del]. apply K.
        -- intros e N1 N2. rewrite dget_del_neq by auto. rewrite G. destruct (beq_spec e (ends x)); [congruence|reflexivity].
        -- intros e q H. rewrite dget_del in H. destruct (beq e (ends y)); [discriminate|exact H].
        -- right. split; [reflexivity|]. left. unfold kept. rewrite dget_del_eq, (dget_del_neq _ _ (ends x)) by congruence. rewrite Kx1. repeat split; try congruence; try tauto; lra.
    + split; [|exact W1]. apply K; auto.
      * intros e N1 N2. rewrite G. destruct (beq_spec e (ends x)); [congruence|reflexivity].
      * left. unfold kept. rewrite Kx1, Ky1. repeat split; congruence.
  - (* no opposite direction so far *)
    assert (No : forall l, In l L -> act l -> ends l <> back x).
    { intros l Hl A C. assert (Kl : kept u l). { apply (I2 l Hl A). intros l' Hl' A' C'. apply (Fr l' Hl'). rewrite C'. symmetry. apply ends_back. exact C. }
      apply Kl. now rewrite C. }
    assert (Ku : forall l, In l L -> (kept u1 l <-> kept u l)). { intros l Hl. unfold kept. rewrite G. destruct (beq_spec (ends l) (ends x)) as [C|]; [now apply Fr in C|tauto]. }
    split; [|now apply dwf_set]. split.
    + intros e q H. rewrite G in H. destruct (beq_spec e (ends x)) as [->|N].
      * injection H as <-. exists x. repeat split; auto. apply in_app_iff. right. now left.
      * destruct (I1 e q H) as (l & Hl & R). exists l. split; [apply in_app_iff; auto|exact R].
    + intros l H A Alone. destruct (Inx l H) as [Hl| ->].
      * apply Ku; [exact Hl|]. apply (I2 l Hl A). intros l' Hl'. apply Alone, in_app_iff. auto.
      * unfold kept. rewrite G, beq_refl. discriminate.
    + intros l l' H H' A A' E. destruct (Inx l H) as [Hl| ->]; destruct (Inx l' H') as [Hl'| ->].
      * rewrite !Ku by auto. now apply I3.
      * exfalso. apply ends_back in E. now apply (No l Hl A).
      * exfalso. now apply (No l' Hl' A').
      * exfalso. congruence.
Qed.
End Util.

(** Lists of numbers *)
Lemma qsum_sum l : qsum l == sum_of l.
Proof.
  unfold qsum, sum_of. assert (G : forall l a, fold_left Qplus l a == a + fold_right Qplus 0 l).
  { clear l. induction l as [|x l IH]; intros a; cbn; [ring|]. rewrite IH. ring. }
  rewrite G. ring.
Qed.
Lemma maxl_greatest x l : greatest_of (x :: l) (maxl (x :: l)).
Proof.
  cbn [maxl]. revert x. induction l as [|y l IH]; intros x; cbn [fold_left].
  - split; [exists x; split; [now left|reflexivity]|]. intros z [<-|[]]. lra.
  - destruct (IH (qmax2 x y)) as [(z & Hz & Ez) H]. assert (Q : (qmax2 x y = x /\ y <= x) \/ (qmax2 x y = y /\ x <= y)).
    { unfold qmax2. destruct (Qle_bool y x) eqn:E; qb; [left|right]; split; auto; lra. }
    split.
    + exists z. split; [|exact Ez]. destruct Hz as [<-|Hz]; [|cbn; auto]. destruct Q as [[-> _]|[-> _]]; cbn; auto.
    + assert (H0 := H _ (or_introl eq_refl)). intros z' [<-|[<-|Hz']]; [| |apply H; now right]; destruct Q as [[Q1 Q2]|[Q1 Q2]]; rewrite Q1 in *; lra.
Qed.
Lemma minl_least x l : least_of (x :: l) (minl (x :: l)).
Proof.
  cbn [minl]. revert x. induction l as [|y l IH]; intros x; cbn [fold_left].
  - split; [exists x; split; [now left|reflexivity]|]. intros z [<-|[]]. lra.
  - destruct (IH (qmin2 x y)) as [(z & Hz & Ez) H]. assert (Q : (qmin2 x y = x /\ x <= y) \/ (qmin2 x y = y /\ y <= x)).
    { unfold qmin2. destruct (Qle_bool x y) eqn:E; qb; [left|right]; split; auto; lra. }
    split.
    + exists z. split; [|exact Ez]. destruct Hz as [<-|Hz]; [|cbn; auto]. destruct Q as [[-> _]|[-> _]]; cbn; auto.
    + assert (H0 := H _ (or_introl eq_refl)). intros z' [<-|[<-|Hz']]; [| |apply H; now right]; destruct Q as [[Q1 Q2]|[Q1 Q2]]; rewrite Q1 in *; lra.
Qed.
Lemma qn_pos n : (0 < n)%nat -> 0 < qn n.
Proof. intros H. unfold qn. change 0 with (inject_Z 0). rewrite <- Zlt_Qlt. lia. Qed.
Lemma stats_summary l : summary l (m_avg (stats_of l)) (m_max (stats_of l)) (m_min (stats_of l)).
Proof.
  destruct l as [|x l]; cbn [summary stats_of m_avg m_max m_min]; [repeat split; reflexivity|]. split; [|split; [apply maxl_greatest|apply minl_least]].
  fold (qn (List.length (x :: l))). rewrite qsum_sum. field. assert (P := qn_pos (List.length (x :: l)) ltac:(cbn; lia)). intros C. rewrite C in P. lra.
Qed.

Section Topo.
Variables (t : topo).
Hypothesis W : well_formed t.
Lemma stored_In k l : link_stored t k l <-> In (k, l) (t_links t).
Proof. apply dget_In_iff. apply W. Qed.
Lemma ends_unique k l k' l' : link_stored t k l -> link_stored t k' l' -> ends l = ends l' -> k = k' /\ l = l'.
Proof.
  intros H H' E. destruct W as (_ & _ & _ & _ & [A _] & _). unfold ends in E. injection E as E1 E2.
  assert (X : edge_in (t_conn t) (l_tx l) (l_rx l) k) by (apply A; eauto). assert (Y : edge_in (t_conn t) (l_tx l) (l_rx l) k') by (apply A; eauto).
  assert (K : k = k') by (unfold edge_in in X, Y; destruct X as (r & X1 & X2); destruct Y as (r' & Y1 & Y2); congruence). subst k'. split; [reflexivity|]. unfold link_stored in *. congruence.
Qed.
Lemma vals_stored l : In l (dvals (t_links t)) <-> exists k, link_stored t k l.
Proof. apply In_dvals. apply W. Qed.
Lemma ends_nodup : NoDup (map ends (dvals (t_links t))).
Proof.
  unfold dvals. rewrite map_map. assert (H : forall k l, In (k, l) (t_links t) -> link_stored t k l) by (intros; now apply stored_In).
  assert (N : NoDup (map fst (t_links t))) by (apply W). revert H N. generalize (t_links t). intros d. induction d as [|[k l] d IH]; intros H N; cbn; [constructor|].
  cbn in N. inversion N as [|? ? N1 N2]; subst. constructor; [|apply IH; auto; intros; apply H; now right].
  intros C. apply in_map_iff in C. destruct C as ([k' l'] & E & H'). cbn in E. destruct (ends_unique k l k' l') as [-> _]; [apply H; now left|apply H; now right|auto|].
  apply N1. apply in_map_iff. now exists (k', l').
Qed.

Section Rep.
Variables (flow : dict edge Q) (cap : link -> Q).
Hypothesis NS : no_self_links t.
Notation util := (active_link_utilization flow cap (dvals (t_links t))).
Lemma topo_inv : uinv flow cap util (dvals (t_links t)) /\ dwf util.
Proof. apply util_inv; [exact ends_nodup|]. intros l H. apply vals_stored in H. destruct H as [k H]. exact (NS k l H). Qed.
Lemma plan_In l : plan_link t l <-> In l (dvals (t_links t)) /\ active (l_status l) = true.
Proof.
  unfold plan_link. rewrite vals_stored, act_planned. split; [intros (k & A & B); eauto|intros [(k & A) B]; eauto].
Qed.
Lemma kept_entry l : kept util l -> plan_link t l -> entry util l (percent flow cap l).
Proof.
  intros K P. unfold kept in K. destruct (dget util (ends l)) as [q|] eqn:E; [|congruence]. destruct topo_inv as [[I1 _ _] _]. destruct (I1 _ _ E) as (l' & H' & A' & E' & ->).
  apply vals_stored in H'. destruct H' as [k' H']. destruct P as (k & P & _). destruct (ends_unique _ _ _ _ H' P E') as [_ ->]. exact E.
Qed.
Lemma entries_exact e q : dget util e = Some q -> exists l, plan_link t l /\ entry util l q /\ e = (l_tx l, l_rx l) /\ uses flow cap l q.
Proof.
  intros E. destruct topo_inv as [[I1 _ _] _]. destruct (I1 _ _ E) as (l & H & A & <- & ->). exists l. split; [apply plan_In; auto|]. split; [exact E|]. split; [reflexivity|]. apply percent_uses.
Qed.
Lemma one_value l : plan_link t l -> (forall l', plan_link t l' -> 0 <= assigned flow l') ->
  ((forall l', plan_link t l' -> ~ opposite_ways l l') -> exists u, uses flow cap l u /\ entry util l u) /\
  (forall l' u u', plan_link t l' -> opposite_ways l l' -> uses flow cap l u -> uses flow cap l' u' ->
     (tolerance < u -> tolerance < u' -> exists q q', entry util l q /\ entry util l' q' /\ q == u /\ q' == u') /\
     (u <= tolerance \/ u' <= tolerance ->
        (exists q, entry util l q /\ q == u /\ no_entry util l' /\ u' <= tolerance /\ u' <= u) \/ (exists q, entry util l' q /\ q == u' /\ no_entry util l /\ u <= tolerance /\ u <= u'))).
Proof.
  intros P NN. destruct topo_inv as [[I1 I2 I3] _]. assert (P0 := P). apply plan_In in P0. destruct P0 as [Hl A]. split.
  - intros Alone. exists (percent flow cap l). split; [apply percent_uses|]. apply kept_entry; [|exact P]. apply I2; auto. intros l' H' A' C. apply (Alone l'); [apply plan_In; auto|now apply flip].
  - intros l' u u' P' O U U'. assert (P0 := P'). apply plan_In in P0. destruct P0 as [Hl' A'].
    assert (Eu := uses_fun _ _ _ _ _ (percent_uses flow cap l) U). assert (Eu' := uses_fun _ _ _ _ _ (percent_uses flow cap l') U').
    assert (N := percent_nonneg flow cap l (NN l P)). assert (N' := percent_nonneg flow cap l' (NN l' P')).
    specialize (I3 l l' Hl Hl' A A' (proj2 (flip l l') O)). unfold near2 in I3.
    assert (B : near0 (percent flow cap l) || near0 (percent flow cap l') = true <-> u <= tolerance \/ u' <= tolerance).
    { rewrite orb_true_iff, !near0_pos by auto. now rewrite Eu, Eu'. }
    assert (Nk : forall x, ~ kept util x -> no_entry util x). { intros x H. unfold kept in H. unfold no_entry. change (l_tx x, l_rx x) with (ends x). destruct (dget util (ends x)); [exfalso; apply H; discriminate|reflexivity]. }
    split.
    + intros T T'. destruct I3 as [(_ & K & K')|(C & _)]; [|apply B in C; lra].
      exists (percent flow cap l), (percent flow cap l'). split; [now apply kept_entry|]. split; [now apply kept_entry|]. auto.
    + intros T. apply B in T. destruct I3 as [(C & _)|(_ & [(K & K' & L)|(K & K' & L)])]; [congruence| |]; [left; exists (percent flow cap l)|right; exists (percent flow cap l')]; (split; [now apply kept_entry|]); (split; [assumption|]); (split; [now apply Nk|]); apply B in T; lra.
Qed.
(** the value reported for a link *)
Lemma reported l u : plan_link t l -> (forall l', plan_link t l' -> 0 <= assigned flow l') -> uses flow cap l u ->
  flow_of util (ends l) == u \/ (flow_of util (ends l) == 0 /\ 0 <= u <= tolerance).
Proof.
  intros P NN U. assert (Eu := uses_fun _ _ _ _ _ (percent_uses flow cap l) U). assert (N := percent_nonneg flow cap l (NN l P)).
  destruct (one_value l P NN) as [A B]. unfold flow_of. destruct (dget util (ends l)) as [q|] eqn:E.
  - left. destruct (entries_exact _ _ E) as (l' & (k' & P' & _) & _ & E' & U'). destruct P as (k & P & _). destruct (ends_unique _ _ _ _ P P' E') as [_ <-]. exact (uses_fun _ _ _ _ _ U' U).
  - right. split; [reflexivity|]. split; [lra|].
    destruct topo_inv as [[I1 I2 I3] _]. assert (P0 := P). apply plan_In in P0. destruct P0 as [Hl Ac].
    destruct (find (fun l' => active (l_status l') && beq (ends l') (back l)) (dvals (t_links t))) as [l'|] eqn:F.
    + apply find_some in F. destruct F as [H' F]. apply andb_true_iff in F. destruct F as [A' F]. apply beq_true in F. apply flip in F.
      assert (P' : plan_link t l') by (now apply plan_In). assert (U' := percent_uses flow cap l'). destruct (B l' u _ P' F U U') as [X Y].
      destruct (qle_case u tolerance) as [L|L]; [exact L|]. destruct (qle_case (percent flow cap l') tolerance) as [L'|L'].
      * destruct (Y (or_intror L')) as [(q & Eq & _)|(q & _ & _ & _ & L2 & _)]; [unfold entry in Eq; change (l_tx l, l_rx l) with (ends l) in Eq; congruence|lra].
      * destruct (X L L') as (q & _ & Eq & _). unfold entry in Eq. change (l_tx l, l_rx l) with (ends l) in Eq. congruence.
    + exfalso. apply (I2 l Hl Ac); [|exact E]. intros l' H' A' C. assert (Z := find_none _ _ F l' H'). cbn in Z. rewrite A', C, beq_refl in Z. discriminate.
Qed.
(** statistics of utilization *)
Lemma util_stats : (forall l', plan_link t l' -> 0 <= assigned flow l') ->
  ((forall l, ~ plan_link t l) -> stats_nonempty (dvals util) = Err PyZeroDivision) /\
  ((exists l, plan_link t l) -> exists s, stats_nonempty (dvals util) = Ok s /\ summary (dvals util) (m_avg s) (m_max s) (m_min s) /\
     (exists l u, plan_link t l /\ uses flow cap l u /\ m_max s == u) /\ (forall l u, plan_link t l -> uses flow cap l u -> u <= m_max s) /\
     (exists l u, plan_link t l /\ uses flow cap l u /\ m_min s == u)).
Proof.
  intros NN. destruct topo_inv as [_ Wu]. split.
  - intros No. unfold stats_nonempty. destruct (dvals util) as [|q r] eqn:E; [reflexivity|]. assert (H : In q (dvals util)) by (rewrite E; now left).
    apply In_dvals in H; [|exact Wu]. destruct H as [e H]. destruct (entries_exact _ _ H) as (l & P & _). now apply No in P.
  - intros (l0 & P0). assert (NE : dvals util <> []).
    { intros C. destruct (one_value l0 P0 NN) as [A B]. destruct topo_inv as [[I1 I2 I3] _]. 
      assert (Em : forall e, dget util e = None). { intros e. destruct (dget util e) as [q|] eqn:E; [|reflexivity]. assert (H : In q (dvals util)) by (apply In_dvals; eauto). now rewrite C in H. }
      assert (Hp := P0). apply plan_In in Hp. destruct Hp as [Hl Ac].
      apply (I2 l0 Hl Ac); [|apply Em]. intros l' H' A' F. destruct (I3 l0 l' Hl H' Ac A' F) as [(_ & K & _)|(_ & [(K & _)|(K & _)])]; now apply K, Em. }
    exists (stats_of (dvals util)). split; [unfold stats_nonempty; destruct (dvals util); [congruence|reflexivity]|]. assert (S := stats_summary (dvals util)). split; [exact S|].
    destruct (dvals util) as [|q r] eqn:Eq; [congruence|]. cbn [summary] in S. rewrite <- Eq in S. destruct S as (_ & [(mx & Hm & Em) Gm] & [(mn & Hn & En) Gn]).
    rewrite <- Eq. apply In_dvals in Hm; [|exact Wu]. destruct Hm as [em Hm]. apply In_dvals in Hn; [|exact Wu]. destruct Hn as [en Hn].
    split; [|split].
    + destruct (entries_exact _ _ Hm) as (l & P & _ & _ & U). exists l, mx. split; [exact P|]. split; [exact U|]. now symmetry.
    + intros l u P U. assert (N := percent_nonneg flow cap l (NN l P)). assert (Eu := uses_fun _ _ _ _ _ (percent_uses flow cap l) U).
      assert (G : forall x q', entry util x q' -> q' <= m_max (stats_of (dvals util))). { intros x q' Hx. apply Gm. apply In_dvals; [exact Wu|]. unfold entry in Hx. eauto. }
      destruct topo_inv as [[I1 I2 I3] _]. assert (Hp := P). apply plan_In in Hp. destruct Hp as [Hl Ac].
      destruct (find (fun l' => active (l_status l') && beq (ends l') (back l)) (dvals (t_links t))) as [l'|] eqn:F.
      * apply find_some in F. destruct F as [H' F]. apply andb_true_iff in F. destruct F as [A' F]. apply beq_true in F. assert (P' : plan_link t l') by (now apply plan_In).
        destruct (I3 l l' Hl H' Ac A' F) as [(_ & K & _)|(_ & [(K & _)|(K & _ & L)])]; try (specialize (G l _ (kept_entry l K P)); lra).
        specialize (G l' _ (kept_entry l' K P')). lra.
      * assert (K : kept util l). { apply I2; auto. intros l' H' A' C. assert (Z := find_none _ _ F l' H'). cbn in Z. rewrite A', C, beq_refl in Z. discriminate. }
        specialize (G l _ (kept_entry l K P)). lra.
    + destruct (entries_exact _ _ Hn) as (l & P & _ & _ & U). exists l, mn. split; [exact P|]. split; [exact U|]. now symmetry.
Qed.
End Rep.
End Topo.
