(** Proofs for C35: the angle rules. *)
From Coq Require Import QArith.
From Verif Require Import Base Dict QLib TopologyModel TopologySpec TopologyLemmas GraphSpec SetupModel MonadLib LosPickProofs OpsProofs DeployModel DeploySpec.
Local Open Scope list_scope.

Lemma act_iff st : active st = true <-> is_active st.
Proof. unfold is_active. destruct st; evs; intuition discriminate. Qed.
Lemma use_iff act l : use_link act l = true <-> l_wireless l = true /\ (act = true -> is_active (l_status l)).
Proof.
  unfold use_link. rewrite andb_true_iff, orb_true_iff, andb_true_iff, negb_true_iff, act_iff. destruct act; intuition congruence.
Qed.

(** *** the adjacency lists *)
Lemma dset_at {V} (d : dict string V) k v f : dwf d -> (forall u, dget d k = Some u -> v = f k u) -> dmem d k = true ->
  dset d k v = map (fun q => (fst q, if beq (fst q) k then f (fst q) (snd q) else snd q)) d.
Proof.
  induction d as [|[k' u] d IH]; intros W Hv M; [discriminate|]. inversion W as [|? ? Nk W']; subst. cbn [dset map fst snd].
  unfold dmem in M. cbn [dget] in M, Hv. destruct (beq_spec k k') as [->|N].
  - rewrite beq_refl. rewrite (Hv u eq_refl). f_equal. symmetry. rewrite <- (map_id d) at 2. apply map_ext_in. intros [k u'] Hin. cbn [fst snd].
    destruct (beq_spec k k') as [->|]; [|reflexivity]. exfalso. apply Nk. apply (in_map fst) in Hin. exact Hin.
  - destruct (beq_spec k' k) as [->|_]; [congruence|]. f_equal. apply IH; auto.
Qed.
Lemma add_links_ok act ls : forall d, dwf d -> (forall l, In l ls -> use_link act l = true -> dmem d (l_tx l) = true) ->
  add_links act ls d = Ok (map (fun q => (fst q, snd q ++ filter (fun l => use_link act l && beq (l_tx l) (fst q)) ls)) d).
Proof.
  induction ls as [|l ls IH]; intros d W H; cbn [add_links filter].
  - f_equal. symmetry. rewrite <- (map_id d) at 2. apply map_ext. intros [k u]. cbn. now rewrite app_nil_r.
  - destruct (use_link act l) eqn:E.
    + assert (M : dmem d (l_tx l) = true) by (apply H; [now left|exact E]).
      unfold dmem in M. destruct (dget d (l_tx l)) as [v|] eqn:Ev; [|discriminate].
      rewrite (dset_at d (l_tx l) (v ++ [l]) (fun _ u => u ++ [l])); [|exact W|intros u Eu; congruence|unfold dmem; now rewrite Ev].
      rewrite IH.
      * f_equal. rewrite map_map. apply map_ext. intros [k u]. cbn [fst snd andb]. rewrite (beq_sym (l_tx l) k). destruct (beq k (l_tx l)); [|reflexivity].
        now rewrite <- app_assoc.
      * unfold dwf, dkeys in *. rewrite map_map. exact W.
      * intros l' Hl' E'. pose proof (H l' (or_intror Hl') E') as M'. apply dmem_keys. apply dmem_keys in M'. unfold dkeys in *. now rewrite map_map.
    + cbn [andb]. apply IH; [exact W|]. intros l' Hl'. apply H. now right.
Qed.
Definition nexts (t : topo) (act : bool) (i : string) : list link := filter (fun l => use_link act l && beq (l_tx l) i) (dvals (t_links t)).
Lemma adjacency_ok t act : well_formed t -> adjacency t act = Ok (map (fun q => (fst q, nexts t act (fst q))) (t_sites t)).
Proof.
  intros (Ws & Wl & _ & _ & _ & C). unfold adjacency. rewrite add_links_ok.
  - f_equal. rewrite map_map. reflexivity.
  - unfold dwf, dkeys in *. rewrite map_map. exact Ws.
  - intros l Hl _. apply In_dvals in Hl; [|exact Wl]. destruct Hl as [k E]. destruct C as (_ & C & _). destruct (C k l E) as (_ & [s Es] & _).
    apply dmem_keys. unfold dkeys. rewrite map_map. apply dmem_keys. unfold dmem. now rewrite Es.
Qed.
Lemma nexts_In t act i l : well_formed t -> In l (nexts t act i) <-> (exists k, looked_at act t k l) /\ l_tx l = i.
Proof.
  intros (_ & Wl & _). unfold nexts. rewrite filter_In, andb_true_iff, use_iff, beq_eq. rewrite (In_dvals (t_links t) l Wl). unfold looked_at, link_stored.
  split; [intros ((k & E) & U & T); split; [exists k|]; tauto|intros ((k & E & U) & T); split; [exists k|]; tauto].
Qed.
Lemma nexts_NoDup t act i : well_formed t -> NoDup (map l_rx (nexts t act i)).
Proof.
  intros (_ & Wl & _ & _ & _ & _ & C & _). unfold nexts.
  assert (K : forall q, In q (t_links t) -> fst q = l_id (snd q)). { intros [k l] Hin. apply In_dget in Hin; [|exact Wl]. now destruct (C k l Hin). }
  unfold dwf, dkeys in Wl. unfold dvals. clear C. induction (t_links t) as [|[k l] d IH]; [constructor|]. inversion Wl as [|? ? N W]; subst. cbn [map fst snd filter].
  assert (IH' : NoDup (map l_rx (filter (fun l => use_link act l && beq (l_tx l) i) (map snd d)))) by (apply IH; [exact W|intros q Hq; apply K; now right]).
  destruct (use_link act l && beq (l_tx l) i) eqn:E; [|exact IH']. cbn [map]. constructor; [|exact IH'].
  intros Hin. apply in_map_iff in Hin. destruct Hin as (l' & Er & Hl'). apply filter_In in Hl'. destruct Hl' as [Hl' E'].
  apply andb_true_iff in E, E'. destruct E as [_ E], E' as [_ E']. apply beq_true in E, E'. apply in_map_iff in Hl'. destruct Hl' as ([k' l''] & El & Hq). cbn in El. subst l''.
  apply N. apply in_map_iff. exists (k', l'). split; [|exact Hq].
  pose proof (K _ (or_introl eq_refl)) as K1. pose proof (K _ (or_intror Hq)) as K2. cbn [fst snd] in K1, K2 |- *. rewrite K1, K2. unfold l_id. now rewrite Er, E, E'.
Qed.

(** *** pairs *)
Lemma pairs_In {A} (l : list A) x y : In (x, y) (pairs l) -> In x l /\ In y l.
Proof.
  induction l as [|a l IH]; cbn; [tauto|]. rewrite in_app_iff, in_map_iff. intros [(z & E & Hz)|H]; [injection E as -> ->; tauto|]. apply IH in H. tauto.
Qed.
Lemma pairs_neq {A B} (f : A -> B) (l : list A) x y : NoDup (map f l) -> In (x, y) (pairs l) -> f x <> f y.
Proof.
  induction l as [|a l IH]; cbn; [tauto|]. intros N. inversion N as [|? ? Na N']; subst. rewrite in_app_iff, in_map_iff. intros [(z & E & Hz)|H]; [|now apply IH].
  injection E as -> ->. intros Ef. apply Na. rewrite Ef. now apply in_map.
Qed.
Lemma pairs_intro {A} (l : list A) x y : In x l -> In y l -> x <> y -> In (x, y) (pairs l) \/ In (y, x) (pairs l).
Proof.
  induction l as [|a l IH]; cbn; [tauto|]. rewrite !in_app_iff, !in_map_iff. intros [->|Hx] [->|Hy] N; [congruence| | |].
  - left. left. exists y. auto.
  - right. left. exists x. auto.
  - destruct (IH Hx Hy N); auto.
Qed.
Lemma min_max_eq a b c d : min_s a b = min_s c d -> max_s a b = max_s c d -> (a = c /\ b = d) \/ (a = d /\ b = c).
Proof.
  unfold min_s, max_s.
  destruct (str_ltb b a) eqn:E1, (str_ltb a b) eqn:E2.
  { pose proof (str_ltb_trans _ _ _ E1 E2) as F. rewrite str_ltb_irrefl in F. discriminate. }
  all: destruct (str_ltb d c) eqn:E3, (str_ltb c d) eqn:E4;
    try (pose proof (str_ltb_trans _ _ _ E3 E4) as F; rewrite str_ltb_irrefl in F; discriminate).
  all: try (pose proof (str_ltb_total _ _ E2 E1); subst). all: try (pose proof (str_ltb_total _ _ E4 E3); subst). all: intros; subst; auto.
Qed.
Lemma pairs_triples i (l : list link) : NoDup (map l_rx l) -> NoDup (map (triple_of i) (pairs l)).
Proof.
  induction l as [|a l IH]; cbn [map pairs]; intros N; [constructor|]. inversion N as [|? ? Na N']; subst. rewrite map_app. apply NoDup_app_iff_local.
  - rewrite map_map. clear IH N. induction l as [|b l IHl]; cbn [map]; [constructor|]. cbn [map] in Na, N'. inversion N' as [|? ? Nb N'']; subst. constructor; [|apply IHl; [intros H; apply Na; now right|assumption]].
    intros Hin. apply in_map_iff in Hin. destruct Hin as (c & E & Hc). unfold triple_of in E. cbn [fst snd] in E. injection E as E1 E2.
    destruct (min_max_eq _ _ _ _ E1 E2) as [[_ E]|[E1' E2']]; [apply Nb; rewrite <- E; now apply in_map|apply Na; left; congruence].
  - now apply IH.
  - intros q H1 H2. rewrite map_map in H1. apply in_map_iff in H1, H2. destruct H1 as (b & E & Hb), H2 as ([c d] & E' & Hcd). rewrite <- E' in E. unfold triple_of in E. cbn [fst snd] in E.
    injection E as E1 E2. apply pairs_In in Hcd. destruct Hcd as [Hc Hd]. apply Na.
    destruct (min_max_eq _ _ _ _ E1 E2) as [[F _]|[F _]]; rewrite F; now apply in_map.
Qed.

Section Angles.
Variables (geom : string -> string -> string -> result (Q * Q)) (channel : string -> Z) (dl nl nr : Q) (act : bool).
Notation judge := (check_pair geom channel dl nl nr act).
Definition verdict (i : string) (b : bool) (q : link * link) : bool := match judge i q with Ok (Some c) => Bool.eqb c b | _ => false end.
Lemma check_pairs_ok i l : forall acc r, check_pairs geom channel dl nl nr act i l acc = Ok r <->
  (forall q, In q l -> exists v, judge i q = Ok v) /\ r = (fst acc ++ map (triple_of i) (filter (verdict i true) l), snd acc ++ map (triple_of i) (filter (verdict i false) l)).
Proof.
  induction l as [|q l IH]; intros [A B] r; cbn [check_pairs filter map fst snd].
  - rewrite !app_nil_r. split; [intros E; injection E as <-; split; [intros ? []|reflexivity]|intros [_ ->]; reflexivity].
  - assert (V : forall b, verdict i b q = match judge i q with Ok (Some c) => Bool.eqb c b | _ => false end) by reflexivity. rewrite !V. clear V. destruct (judge i q) as [v|e] eqn:E; cbn [rbind].
    + rewrite IH. split; intros [H1 H2]; split.
      * intros q' [<-|Hq]; [eauto|auto].
      * rewrite H2. destruct v as [[|]|]; cbn [fst snd Bool.eqb map]; rewrite <- ?app_assoc; reflexivity.
      * intros q' Hq. apply H1. now right.
      * rewrite H2. destruct v as [[|]|]; cbn [fst snd Bool.eqb map]; rewrite <- ?app_assoc; reflexivity.
    + split; [discriminate|]. intros [H _]. destruct (H q (or_introl eq_refl)) as [v Ev]. congruence.
Qed.
Definition found (b : bool) (q : string * list link) := map (triple_of (fst q)) (filter (verdict (fst q) b) (pairs (snd q))).
Lemma check_sites_ok d : forall acc r, check_sites geom channel dl nl nr act d acc = Ok r <->
  (forall i ls q, In (i, ls) d -> In q (pairs ls) -> exists v, judge i q = Ok v) /\ r = (fst acc ++ flat_map (found true) d, snd acc ++ flat_map (found false) d).
Proof.
  induction d as [|[i ls] d IH]; intros acc r; cbn [check_sites flat_map].
  - rewrite !app_nil_r. destruct acc as [A B]. split; [intros E; injection E as <-; split; [intros ? ? ? []|reflexivity]|intros [_ ->]; reflexivity].
  - destruct (check_pairs geom channel dl nl nr act i (pairs ls) acc) as [acc'|e] eqn:E; cbn [rbind].
    + apply check_pairs_ok in E. destruct E as [E1 E2]. rewrite IH, E2. cbn [fst snd]. rewrite <- !app_assoc. split; intros [H1 H2]; split; auto.
      * intros i' ls' q [F|F]; [injection F as <- <-; auto|eauto].
      * intros i' ls' q F. apply H1. now right.
    + split; [discriminate|]. intros [H _]. exfalso.
      assert (F : check_pairs geom channel dl nl nr act i (pairs ls) acc = Ok (fst acc ++ map (triple_of i) (filter (verdict i true) (pairs ls)), snd acc ++ map (triple_of i) (filter (verdict i false) (pairs ls)))).
      { apply check_pairs_ok. split; [|reflexivity]. intros q Hq. apply (H i ls q); [now left|exact Hq]. }
      congruence.
Qed.

(** *** one pair *)
Lemma leaves_tx l s : leaves_from l s <-> tx_sec l = s.
Proof. unfold leaves_from, tx_sec. destruct (l_sectors l) as [[a b]|], s; split; intros; try congruence; try tauto. Qed.
Lemma interfering_iff l1 l2 : interfering channel act l1 l2 <-> tx_sec l1 <> tx_sec l2 /\
  (act = true -> exists c1 c2, tx_sec l1 = Some c1 /\ tx_sec l2 = Some c2 /\ channel c1 = channel c2).
Proof.
  unfold interfering. split.
  - intros (s1 & s2 & H1 & H2 & H). apply leaves_tx in H1, H2. now subst.
  - intros H. exists (tx_sec l1), (tx_sec l2). rewrite !leaves_tx. auto.
Qed.
Lemma interfering_sym l1 l2 : interfering channel act l1 l2 -> interfering channel act l2 l1.
Proof. rewrite !interfering_iff. intros [N H]. split; [congruence|]. intros A. destruct (H A) as (c1 & c2 & ?). exists c2, c1. intuition congruence. Qed.
Definition rule (b : bool) (angle ratio : Q) : Prop := if b then (angle <= dl)%Q else ((dl < angle)%Q /\ (angle <= nl)%Q /\ (nr <= ratio)%Q).
Lemma verdict_ok i b l1 l2 : verdict i b (l1, l2) = true <-> interfering channel act l1 l2 /\ exists a r, geom i (l_rx l1) (l_rx l2) = Ok (a, r) /\ rule b a r.
Proof.
  unfold verdict, check_pair. rewrite interfering_iff. destruct (geom i (l_rx l1) (l_rx l2)) as [[a r]|e]; cbn [rbind fst snd].
  2: { split; [discriminate|]. intros (_ & a & r & E & _). discriminate. }
  destruct (beq_spec (tx_sec l1) (tx_sec l2)) as [E|N]; cbn [rbind].
  { split; [discriminate|]. tauto. }
  assert (R : forall (P : Prop), P -> (match (if Qle_bool a dl then Some true else if Qle_bool a nl && Qle_bool nr r then Some false else None) with Some c => Bool.eqb c b | None => false end = true <-> P /\ exists a0 r0, @Ok (Q * Q) (a, r) = Ok (a0, r0) /\ rule b a0 r0)).
  { intros P HP. destruct (Qle_bool a dl) eqn:E1.
    - apply qle_true in E1. destruct b; cbn [Bool.eqb].
      + split; [intros _; split; [exact HP|exists a, r; split; [reflexivity|exact E1]]|reflexivity].
      + split; [discriminate|]. intros (_ & a0 & r0 & E & F & _). injection E as <- <-. apply Qle_not_lt in E1. contradiction.
    - apply qle_false in E1. destruct (Qle_bool a nl && Qle_bool nr r) eqn:E2.
      + apply andb_true_iff in E2. destruct E2 as [E2 E3]. apply qle_true in E2, E3. destruct b; cbn [Bool.eqb].
        * split; [discriminate|]. intros (_ & a0 & r0 & E & F). injection E as <- <-. cbn in F. apply Qle_not_lt in F. contradiction.
        * split; [intros _; split; [exact HP|exists a, r; split; [reflexivity|cbn; auto]]|reflexivity].
      + split; [discriminate|]. intros (_ & a0 & r0 & E & F). injection E as <- <-. destruct b; cbn in F; [apply Qle_not_lt in F; contradiction|].
        destruct F as (_ & F1 & F2). apply qle_true in F1, F2. rewrite F1, F2 in E2. discriminate. }
  destruct act; cbn [negb].
  - destruct (tx_sec l1) as [c1|], (tx_sec l2) as [c2|]; cbn [rbind].
    + destruct (Z.eqb_spec (channel c1) (channel c2)) as [E|E].
      * apply R. split; [exact N|]. intros _. exists c1, c2. auto.
      * split; [discriminate|]. intros ((_ & H) & _). destruct (H eq_refl) as (x & y & Ex & Ey & Exy). congruence.
    + split; [discriminate|]. intros ((_ & H) & _). destruct (H eq_refl) as (x & y & Ex & Ey & Exy). congruence.
    + split; [discriminate|]. intros ((_ & H) & _). destruct (H eq_refl) as (x & y & Ex & Ey & Exy). congruence.
    + congruence.
  - cbn [rbind]. apply R. split; [exact N|discriminate].
Qed.
Lemma judge_total i l1 l2 : (exists v, judge i (l1, l2) = Ok v) <-> (exists g, geom i (l_rx l1) (l_rx l2) = Ok g) /\
  (act = true -> tx_sec l1 <> tx_sec l2 -> tx_sec l1 <> None /\ tx_sec l2 <> None).
Proof.
  unfold check_pair. destruct (geom i (l_rx l1) (l_rx l2)) as [g|e]; cbn [rbind].
  2: { split; [intros [v E]; discriminate|intros [[g E] _]; discriminate]. }
  destruct (beq_spec (tx_sec l1) (tx_sec l2)) as [E|N]; cbn [rbind]; [split; [intros _; split; [eauto|tauto]|eauto]|].
  destruct act; cbn [negb rbind]; [|split; [intros _; split; [eauto|discriminate]|eauto]].
  destruct (tx_sec l1) as [c1|], (tx_sec l2) as [c2|]; cbn [rbind].
  - split; [intros _; split; [eauto|intros; split; discriminate]|eauto].
  - split; [intros [v E]; discriminate|intros [_ H]; destruct (H eq_refl N); congruence].
  - split; [intros [v E]; discriminate|intros [_ H]; destruct (H eq_refl N); congruence].
  - congruence.
Qed.

(** *** the whole topology *)
Variables (t : topo) (W : well_formed t) (Hsym : same_in_both_orders geom).
Notation adj := (map (fun q => (fst q, nexts t act (fst q))) (t_sites t)).
Lemma adj_In i ls : In (i, ls) adj <-> site_stored t i /\ ls = nexts t act i.
Proof.
  destruct W as (Ws & _). rewrite in_map_iff. unfold site_stored. split.
  - intros ([k s] & E & Hin). cbn in E. injection E as <- <-. split; [exists s; now apply In_dget|reflexivity].
  - intros [[s E] ->]. exists (i, s). split; [reflexivity|now apply dget_In].
Qed.
Lemma fork_pairs i a b l1 l2 : fork act t i a b l1 l2 <-> In l1 (nexts t act i) /\ In l2 (nexts t act i) /\ l_rx l1 = a /\ l_rx l2 = b /\ a <> b.
Proof.
  unfold fork. rewrite !(nexts_In t act i _ W). split.
  - intros (k1 & k2 & H). repeat match goal with |- _ /\ _ => split end; try tauto; eexists; apply H.
  - intros (((k1 & H1) & H2) & ((k2 & H3) & H4) & H). exists k1, k2. tauto.
Qed.
Lemma fork_site i a b l1 l2 : fork act t i a b l1 l2 -> site_stored t i.
Proof. intros (k1 & k2 & (H & _) & _ & <- & _). destruct W as (_ & _ & _ & _ & _ & _ & C & _). now destruct (C _ _ H) as (_ & S & _). Qed.
Lemma fork_pair i a b l1 l2 : fork act t i a b l1 l2 -> In (l1, l2) (pairs (nexts t act i)) \/ In (l2, l1) (pairs (nexts t act i)).
Proof. rewrite fork_pairs. intros (H1 & H2 & H3 & H4 & N). apply pairs_intro; auto. intros ->. congruence. Qed.
Lemma pair_fork i l1 l2 : In (l1, l2) (pairs (nexts t act i)) -> fork act t i (l_rx l1) (l_rx l2) l1 l2.
Proof.
  intros H. apply fork_pairs. pose proof (pairs_In _ _ _ H) as [H1 H2]. pose proof (pairs_neq l_rx _ _ _ (nexts_NoDup t act i W) H). tauto.
Qed.
Lemma fork_sym i a b l1 l2 : fork act t i a b l1 l2 -> fork act t i b a l2 l1.
Proof. rewrite !fork_pairs. intuition congruence. Qed.
Lemma all_judged : (forall i ls q, In (i, ls) adj -> In q (pairs ls) -> exists v, judge i q = Ok v) <-> measurable geom act t.
Proof using W Hsym.
  split.
  - intros H i a b l1 l2 F. pose proof (fork_site _ _ _ _ _ F) as S. pose proof F as F'. apply fork_pairs in F'. destruct F' as (_ & _ & <- & <- & _).
    assert (K : forall s1 s2, leaves_from l1 s1 -> leaves_from l2 s2 -> s1 = tx_sec l1 /\ s2 = tx_sec l2) by (intros s1 s2 A B; apply leaves_tx in A, B; auto).
    destruct (fork_pair _ _ _ _ _ F) as [P|P].
    + destruct (proj1 (judge_total i l1 l2)) as [G C]; [apply (H i (nexts t act i)); [now apply adj_In|exact P]|]. split; [exact G|].
      intros A s1 s2 L1 L2 N. destruct (K s1 s2 L1 L2) as [-> ->]. now apply C.
    + destruct (proj1 (judge_total i l2 l1)) as [G C]; [apply (H i (nexts t act i)); [now apply adj_In|exact P]|]. split; [now rewrite Hsym|].
      intros A s1 s2 L1 L2 N. destruct (K s1 s2 L1 L2) as [-> ->]. apply and_comm, C; congruence.
  - intros H i ls [l1 l2] Hin P. apply adj_In in Hin. destruct Hin as [S ->]. apply judge_total. apply pair_fork in P. destruct (H _ _ _ _ _ P) as [G C]. split; [exact G|].
    intros A N. apply (C A (tx_sec l1) (tx_sec l2)); [now apply leaves_tx|now apply leaves_tx|exact N].
Qed.
Lemma found_breaks b q : In q (flat_map (found b) adj) <-> breaks geom channel act t (rule b) q.
Proof using W Hsym.
  destruct q as [[i x] y]. unfold breaks. rewrite in_flat_map. split.
  - intros ([i' ls] & Hin & Hf). apply adj_In in Hin. destruct Hin as [S ->]. unfold found in Hf. cbn [fst snd] in Hf. apply in_map_iff in Hf. destruct Hf as ([l1 l2] & E & Hf).
    apply filter_In in Hf. destruct Hf as [P V]. apply verdict_ok in V. destruct V as (I & a & r & G & R). apply pair_fork in P.
    unfold triple_of, min_s, max_s in E. cbn [fst snd] in E. pose proof P as P'. apply fork_pairs in P'. destruct P' as (_ & _ & _ & _ & N).
    destruct (str_ltb (l_rx l2) (l_rx l1)) eqn:L1.
    + destruct (str_ltb (l_rx l1) (l_rx l2)) eqn:L2; [pose proof (str_ltb_trans _ _ _ L1 L2) as F; rewrite str_ltb_irrefl in F; discriminate|].
      injection E as -> <- <-. split; [exact L1|]. exists l2, l1, a, r. split; [now apply fork_sym|]. split; [now apply interfering_sym|]. split; [now rewrite Hsym|exact R].
    + destruct (str_ltb (l_rx l1) (l_rx l2)) eqn:L2; [|exfalso; apply N; apply str_ltb_total; assumption].
      injection E as -> <- <-. split; [exact L2|]. exists l1, l2, a, r. auto.
  - intros (L & l1 & l2 & a & r & F & I & G & R). exists (i, nexts t act i). split; [apply adj_In; split; [eapply fork_site; eauto|reflexivity]|].
    unfold found. cbn [fst snd]. pose proof F as F'. apply fork_pairs in F'. destruct F' as (_ & _ & <- & <- & _).
    assert (L' : str_ltb (l_rx l2) (l_rx l1) = false).
    { destruct (str_ltb (l_rx l2) (l_rx l1)) eqn:L1; [|reflexivity]. pose proof (str_ltb_trans _ _ _ L L1) as E. rewrite str_ltb_irrefl in E. discriminate. }
    apply in_map_iff. destruct (fork_pair _ _ _ _ _ F) as [P|P].
    + exists (l1, l2). unfold triple_of, min_s, max_s. cbn [fst snd]. rewrite L, L'. split; [reflexivity|]. apply filter_In. split; [exact P|]. apply verdict_ok. eauto.
    + exists (l2, l1). unfold triple_of, min_s, max_s. cbn [fst snd]. rewrite L, L'. split; [reflexivity|]. apply filter_In. split; [exact P|]. apply verdict_ok. split; [now apply interfering_sym|].
      exists a, r. rewrite Hsym. auto.
Qed.
Lemma found_NoDup b : NoDup (flat_map (found b) adj).
Proof using W.
  apply NoDup_flat.
  - destruct W as (Ws & _). apply (NoDup_map_inv fst). rewrite map_map. exact Ws.
  - intros [i ls] Hin. apply adj_In in Hin. destruct Hin as [_ ->]. unfold found. cbn [fst snd]. apply NoDup_map_filter, pairs_triples, nexts_NoDup, W.
  - intros [i ls] [i' ls'] q H1 H2 F1 F2. apply adj_In in H1, H2. destruct H1 as [_ ->], H2 as [_ ->]. unfold found in F1, F2. cbn [fst snd] in F1, F2.
    apply in_map_iff in F1, F2. destruct F1 as (q1 & E1 & _), F2 as (q2 & E2 & _). unfold triple_of in E1, E2. assert (i = i') by congruence. now subst.
Qed.
Lemma angles_return : (exists r, find_angle_violating_link_pairs geom channel dl nl nr act t = Ok r) <-> measurable geom act t.
Proof using W Hsym.
  unfold find_angle_violating_link_pairs. rewrite adjacency_ok by exact W. cbn [rbind]. rewrite <- all_judged. split.
  - intros [r E]. apply check_sites_ok in E. exact (proj1 E).
  - intros H. eexists. apply check_sites_ok. split; [exact H|reflexivity].
Qed.
Lemma angles_exact D N : find_angle_violating_link_pairs geom channel dl nl nr act t = Ok (D, N) ->
  (forall q, In q D <-> breaks geom channel act t (fun angle _ => (angle <= dl)%Q) q) /\
  (forall q, In q N <-> breaks geom channel act t (fun angle ratio => (dl < angle)%Q /\ (angle <= nl)%Q /\ (nr <= ratio)%Q) q) /\ NoDup D /\ NoDup N.
Proof using W Hsym.
  unfold find_angle_violating_link_pairs. rewrite adjacency_ok by exact W. cbn [rbind]. intros E. apply check_sites_ok in E. destruct E as [_ E]. cbn [fst snd app] in E. injection E as -> ->.
  split; [intros q; apply (found_breaks true)|]. split; [intros q; apply (found_breaks false)|]. split; apply found_NoDup.
Qed.
End Angles.

(** *** the links of the violations *)
Lemma link_ids_exact t l r : reachable t -> get_violating_link_ids t l = Ok r -> NoDup r /\
  forall x, In x r <-> exists i j k li, In (i, j, k) l /\ link_stored t x li /\
    ((l_tx li = i /\ (l_rx li = j \/ l_rx li = k)) \/ (l_rx li = i /\ (l_tx li = j \/ l_tx li = k))).
Proof.
  intros R E. unfold get_violating_link_ids in E. apply rbind_ok in E. destruct E as (ls & El & E). injection E as <-.
  pose proof (GraphProofs.wf_reachable t R) as W.
  split; [apply GraphProofs.fold_sadd_NoDup; constructor|].
  assert (Q : forall q m, link_ids_of t q = Ok m -> forall x, In x m <-> exists li, link_stored t x li /\
    ((l_tx li = fst (fst q) /\ (l_rx li = snd (fst q) \/ l_rx li = snd q)) \/ (l_rx li = fst (fst q) /\ (l_tx li = snd (fst q) \/ l_tx li = snd q)))).
  { intros [[i j] k] m Em x. cbn [fst snd]. unfold link_ids_of in Em. apply rbind_ok in Em. destruct Em as (os & Eo & Em). injection Em as <-.
    assert (G : forall a b o, get_link_by_site_ids t a b = Ok o -> forall li, o = Some li <-> exists k, link_stored t k li /\ l_tx li = a /\ l_rx li = b).
    { intros a b o Eg. destruct (get_link_exact t a b R) as [G1 G2].
      assert (S : site_stored t a /\ site_stored t b). { unfold get_link_by_site_ids in Eg. destruct (dmem (t_sites t) a) eqn:A, (dmem (t_sites t) b) eqn:B; try discriminate. split; now apply stored_dmem. }
      destruct (G1 S) as (o' & E' & G). assert (o' = o) by congruence. subst o'. exact G. }
    cbn [mapM] in Eo. inv_do. subst. cbn [flat_map app fst snd] in *. rewrite app_nil_r, !in_app_iff.
    assert (K : forall o, (exists a b, get_link_by_site_ids t a b = Ok o) -> forall x, In x (match o with Some l => [l_id l] | None => [] end) <-> exists li, o = Some li /\ link_stored t x li).
    { intros o (a & b & Ho) y. destruct o as [li|]; cbn [In].
      - destruct (proj1 (G a b _ Ho li) eq_refl) as (k' & Hk & _). destruct W as (_ & _ & _ & _ & _ & _ & C & _). destruct (C _ _ Hk) as (-> & _). split.
        + intros [<-|[]]. eauto.
        + intros (li' & F & Hl). injection F as <-. left. now destruct (C _ _ Hl) as (-> & _).
      - split; [tauto|]. intros (? & F & _). discriminate. }
    rewrite !K by eauto.
    repeat match goal with H : get_link_by_site_ids t _ _ = Ok _ |- _ => pose proof (G _ _ _ H); clear H end. clear K G.
    split.
    - intros HH. repeat match goal with H : _ \/ _ |- _ => destruct H end;
        match goal with H : exists li, _ = Some li /\ link_stored _ _ li |- _ => destruct H as (li & F & S) end; exists li; (split; [exact S|]);
        match goal with I : forall li0, ?o = Some li0 <-> _, F : ?o = Some _ |- _ => apply I in F; destruct F as (? & _ & ? & ?); tauto end.
    - intros (li & S & [[A [B|B]]|[A [B|B]]]).
      + left. exists li. split; [|exact S]. match goal with I : forall li0, ?o = Some li0 <-> _ |- ?o = Some _ => apply I; exists x; auto end.
      + right; left. exists li. split; [|exact S]. match goal with I : forall li0, ?o = Some li0 <-> _ |- ?o = Some _ => apply I; exists x; auto end.
      + right; right; left. exists li. split; [|exact S]. match goal with I : forall li0, ?o = Some li0 <-> _ |- ?o = Some _ => apply I; exists x; auto end.
      + right; right; right. exists li. split; [|exact S]. match goal with I : forall li0, ?o = Some li0 <-> _ |- ?o = Some _ => apply I; exists x; auto end. }
  intros x. rewrite GraphProofs.fold_sadd_In. rewrite in_concat. split.
  - intros [(m & Hm & Hx)|[]]. destruct (mapM_inv _ _ _ _ El Hm) as ([[i j] k] & Hq & Em). apply (Q _ _ Em) in Hx. destruct Hx as (li & Hx). exists i, j, k, li. auto.
  - intros (i & j & k & li & Hq & Hx). left. destruct (mapM_In _ _ _ _ El Hq) as (m & Em & Hm). exists m. split; [exact Hm|]. apply (Q _ _ Em). eauto.
Qed.
