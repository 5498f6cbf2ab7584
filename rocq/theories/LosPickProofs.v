(** Proofs of C23. *)
From Coq Require Import QArith Sorted.
From Verif Require Import Base Dict TopologyModel MonadLib LosRangeModel LosBatchModel LosBatchSpec LosBatchProofs LosPickModel LosPickSpec.

(** ** lists *)
Lemma nth_out (l : list (list nat)) i : (List.length l <= i)%nat -> neighbours l i = [].
Proof. intros H. unfold neighbours. now apply nth_overflow. Qed.
Lemma at_neighbours (l : list (list nat)) i : (i < List.length l)%nat -> at_index l i = Ok (neighbours l i).
Proof. intros H. unfold at_index, neighbours. now rewrite (nth_error_nth' l [] H). Qed.
Lemma in_neighbours l i j : In j (neighbours l i) -> (i < List.length l)%nat.
Proof. intros H. destruct (Nat.lt_ge_cases i (List.length l)) as [L|L]; [assumption|]. now rewrite nth_out in H. Qed.
Lemma append_at_ok (l : list (list nat)) : forall i x, (i < List.length l)%nat -> exists l', append_at l i x = Ok l' /\ List.length l' = List.length l /\
  forall k, neighbours l' k = neighbours l k ++ (if beq k i then [x] else []).
Proof.
  induction l as [|y l IH]; intros i x H; cbn in H; [lia|]. destruct i as [|i].
  - exists ((y ++ [x]) :: l). split; [reflexivity|]. split; [reflexivity|]. intros [|k]; cbn; [reflexivity|]. now rewrite app_nil_r.
  - destruct (IH i x) as (l' & E & L & N); [lia|]. exists (y :: l'). cbn. rewrite E. split; [reflexivity|]. split; [now rewrite L|].
    intros [|k]; cbn; [now rewrite app_nil_r|]. change (neighbours l' k = neighbours l k ++ (if beq (S k) (S i) then [x] else [])). now rewrite N.
Qed.
Lemma app_neighbours (l : list (list nat)) x i : neighbours (l ++ [x]) i = if beq i (List.length l) then x else neighbours l i.
Proof.
  destruct (beq_spec i (List.length l)) as [->|N]; unfold neighbours.
  - rewrite app_nth2, Nat.sub_diag; [reflexivity|lia].
  - destruct (Nat.lt_ge_cases i (List.length l)) as [L|L]; [now apply app_nth1|]. rewrite !nth_overflow; [reflexivity|lia|rewrite app_length; cbn; lia].
Qed.
Lemma enumerate_nth {A} (l : list A) : forall k i x, In (i, x) (enumerate_from k l) <-> exists m, i = (k + m)%nat /\ nth_error l m = Some x.
Proof.
  induction l as [|a l IH]; intros k i x; cbn.
  - split; [contradiction|]. intros (m & _ & E). destruct m; discriminate.
  - rewrite IH. split.
    + intros [E|(m & -> & E)]; [exists 0%nat; inversion E; split; [lia|reflexivity]|exists (S m); split; [lia|exact E]].
    + intros ([|m] & -> & E); [left; cbn in E; inversion E; f_equal; lia|right; exists m; split; [lia|exact E]].
Qed.
Lemma enumerate_app {A} (l r : list A) : forall k, enumerate_from k (l ++ r) = enumerate_from k l ++ enumerate_from (k + List.length l) r.
Proof. induction l as [|a l IH]; intros k; cbn; [now rewrite Nat.add_0_r|]. f_equal. rewrite IH. do 2 f_equal. lia. Qed.
Lemma enumerate_sorted {A} (l : list A) : forall k, StronglySorted lt (map fst (enumerate_from k l)).
Proof.
  induction l as [|a l IH]; intros k; cbn; constructor; [apply IH|]. apply Forall_forall. intros x H. apply in_map_iff in H. destruct H as ([i y] & <- & H).
  apply enumerate_nth in H. destruct H as (m & -> & _). cbn. lia.
Qed.
Lemma sorted_filter {A} (f : nat * A -> bool) l : StronglySorted lt (map fst l) -> StronglySorted lt (map fst (filter f l)).
Proof.
  induction l as [|a l IH]; intros H; cbn in *; [constructor|]. inversion H; subst. destruct (f a); cbn; [|auto]. constructor; [auto|].
  apply Forall_forall. intros x Hx. apply in_map_iff in Hx. destruct Hx as (p & <- & Hp). apply filter_In in Hp. rewrite Forall_forall in H3. apply H3. now apply in_map.
Qed.
Lemma sorted_NoDup l : StronglySorted lt l -> NoDup l.
Proof. induction l as [|a l IH]; intros H; constructor; inversion H; subst; [|auto]. intros I. rewrite Forall_forall in H3. apply H3 in I. lia. Qed.

(** ** the stable sort *)
Lemma insert_head x l : exists r, insert_desc x l = match l with [] => x | y :: _ => if (snd x <? snd y)%nat then y else x end :: r.
Proof. destruct l as [|y l]; cbn [insert_desc]; [now exists []|]. destruct (snd x <? snd y)%nat; eexists; reflexivity. Qed.
Lemma sort_head l : match sort_desc l with [] => l = [] | y :: _ => In y l /\ forall z, In z l -> (snd z <= snd y)%nat /\ (StronglySorted lt (map fst l) -> snd z = snd y -> (fst y <= fst z)%nat) end.
Proof.
  induction l as [|x l IH]; cbn; [reflexivity|]. unfold sort_desc in *. destruct (insert_head x (fold_right insert_desc [] l)) as (r & ->).
  destruct (fold_right insert_desc [] l) as [|y s].
  - subst l. split; [now left|]. intros z [->|[]]. split; [lia|]. intros _ _. lia.
  - destruct IH as [Hy Hz]. destruct (Nat.ltb_spec (snd x) (snd y)) as [L|L].
    + split; [now right|]. intros z [<-|H]; [split; [lia|intros; lia]|]. destruct (Hz z H) as [A B]. split; [assumption|]. intros S. inversion S; subst. auto.
    + split; [now left|]. intros z [<-|H]; [split; [lia|intros; lia]|]. destruct (Hz z H) as [A B]. split; [lia|]. intros S _. inversion S; subst.
      rewrite Forall_forall in H3. specialize (H3 (fst z)). enough (fst x < fst z)%nat by lia. apply H3. now apply in_map.
Qed.

(** ** grouping *)
Definition grp (d : dict Z (list nat)) (b : Z) : list nat := match dget d b with Some l => l | None => [] end.
Definition onb (b : Z) (p : nat * psite) : bool := beq (ps_building (snd p)) (Some b).
Definition user (p : nat * psite) : bool := beq (ps_building (snd p)) None.
Lemma group_fold ps : forall d u d' u', dwf d -> fold_left group_step ps (d, u) = (d', u') ->
  dwf d' /\ u' = u ++ map fst (filter user ps) /\ (forall b, grp d' b = grp d b ++ map fst (filter (onb b) ps)) /\
  (forall b, In b (dkeys d') <-> In b (dkeys d) \/ exists p, In p ps /\ ps_building (snd p) = Some b).
Proof.
  induction ps as [|p ps IH]; intros d u d' u' W E; cbn in E.
  - inversion E; subst. split; [assumption|]. split; [now rewrite app_nil_r|]. split; [intros; now rewrite app_nil_r|]. intros b. split; [tauto|]. intros [H|(? & [] & _)]. exact H.
  - destruct (ps_building (snd p)) as [b0|] eqn:Eb.
    + apply IH in E; [|now apply dwf_set]. destruct E as (A & B & C & D). split; [assumption|].
      assert (Eu : user p = false) by (unfold user; now rewrite Eb). cbn. rewrite Eu. split; [assumption|]. split.
      * intros b. rewrite C. unfold grp at 1. rewrite dget_set. unfold onb at 2. rewrite Eb.
        destruct (beq_spec b b0) as [->|N].
        -- rewrite beq_refl. cbn. now rewrite <- app_assoc.
        -- destruct (beq_spec (Some b0) (Some b)) as [X|_]; [congruence|reflexivity].
      * intros b. rewrite D, dkeys_set. destruct (dmem d b0) eqn:M.
        -- apply dmem_keys in M. split; [intros [H|(q & Hq & Eq)]; [now left|right; exists q; split; [now right|assumption]]|].
           intros [H|(q & [<-|Hq] & Eq)]; [now left|left; congruence|right; eauto].
        -- rewrite in_app_iff. split; [intros [[H|[<-|[]]]|(q & Hq & Eq)]; [now left|right; exists p; split; [now left|assumption]|right; exists q; split; [now right|assumption]]|].
           intros [H|(q & [<-|Hq] & Eq)]; [left; now left|left; right; left; congruence|right; eauto].
    + apply IH in E; [|assumption]. destruct E as (A & B & C & D). split; [assumption|].
      assert (Eu : user p = true) by (unfold user; now rewrite Eb). cbn. rewrite Eu. split; [rewrite B, <- app_assoc; reflexivity|]. split.
      * intros b. rewrite C. unfold onb at 2. rewrite Eb. reflexivity.
      * intros b. rewrite D. split; [intros [H|(q & Hq & Eq)]; [now left|right; exists q; split; [now right|assumption]]|].
        intros [H|(q & [<-|Hq] & Eq)]; [now left|congruence|right; eauto].
Qed.
Lemma dvals_grp (d : dict Z (list nat)) : dwf d -> dvals d = map (grp d) (dkeys d).
Proof.
  intros W. unfold dvals, dkeys. rewrite map_map. apply map_ext_in. intros [k v] H. unfold grp. cbn. now rewrite (In_dget d k v W H).
Qed.
Section Group.
Variable sites : list psite.
Definition indices (f : nat * psite -> bool) : list nat := map fst (filter f (enumerate_from 0 sites)).
Lemma indices_In f i : In i (indices f) <-> exists s, nth_error sites i = Some s /\ f (i, s) = true.
Proof.
  unfold indices. rewrite in_map_iff. split.
  - intros ([k s] & <- & H). apply filter_In in H. destruct H as [H F]. apply enumerate_nth in H. destruct H as (m & -> & E). exists s. auto.
  - intros (s & E & F). exists (i, s). split; [reflexivity|]. apply filter_In. split; [|assumption]. apply enumerate_nth. exists i. auto.
Qed.
Lemma indices_sorted f : StronglySorted lt (indices f). Proof. apply sorted_filter, enumerate_sorted. Qed.
Lemma group_ok : exists bs, group_sites sites = fst (group_sites sites, tt) /\ dvals (fst (group_sites sites)) = map (fun b => indices (onb b)) bs /\
  snd (group_sites sites) = indices user /\ NoDup bs /\ forall b, In b bs <-> exists i, on_building sites b i.
Proof.
  unfold group_sites. destruct (fold_left group_step (enumerate_from 0 sites) ([], [])) as [d u] eqn:E.
  apply group_fold in E; [|constructor]. destruct E as (W & -> & G & K). exists (dkeys d). split; [reflexivity|]. cbn [fst snd]. split; [rewrite dvals_grp; [|assumption]|].
  - apply map_ext. intros b. apply G.
  - split; [reflexivity|]. split; [exact W|]. intros b. rewrite K. split.
    + intros [[]|([i s] & Hp & Eb)]. apply enumerate_nth in Hp. destruct Hp as (m & -> & Em). exists m, s. auto.
    + intros (i & s & Ei & Eb). right. exists (i, s). split; [apply enumerate_nth; exists i; auto|assumption].
Qed.
End Group.

(** ** the links of a new CN *)
Lemma neighbour_fold dn cn ts : forall rx conf, NoDup ts -> ~ In cn ts -> (forall t, In t ts -> (t < List.length rx)%nat /\ exists q, dget conf (dn, t) = Some q) ->
  exists rx' conf', foldM (neighbour_step dn cn) (rx, conf) ts = Ok (rx', conf') /\ List.length rx' = List.length rx /\
  (forall i, neighbours rx' i = neighbours rx i ++ (if mem i ts then [cn] else [])) /\
  forall i j, dget conf' (i, j) = if beq j cn && mem i ts then dget conf (dn, i) else dget conf (i, j).
Proof.
  induction ts as [|t ts IH]; intros rx conf ND Nc H.
  - exists rx, conf. split; [reflexivity|]. split; [reflexivity|]. split; [intros; now rewrite app_nil_r|]. intros. cbn. now rewrite andb_false_r.
  - inversion ND as [|? ? Nt ND']; subst. destruct (H t) as [Lt [q Eq]]; [now left|].
    destruct (append_at_ok rx t cn Lt) as (rx1 & E1 & L1 & N1).
    destruct (IH rx1 (dset conf (t, cn) q) ND') as (rx2 & conf2 & E2 & L2 & N2 & C2).
    + intros X. apply Nc. now right.
    + intros t' Ht'. destruct (H t') as [Lt' [q' Eq']]; [now right|]. split; [lia|]. exists q'. rewrite dget_set_neq; [assumption|].
      intros X. inversion X; subst. apply Nc. now right.
    + exists rx2, conf2. cbn [foldM]. unfold neighbour_step at 1. cbn [fst snd]. rewrite E1. cbn [rbind]. rewrite Eq. cbn [rbind]. split; [exact E2|]. split; [lia|]. split.
      * intros i. rewrite N2, N1. cbn [mem]. destruct (beq_spec i t) as [->|N]; cbn.
        -- apply mem_not_In in Nt. rewrite Nt. now rewrite app_nil_r.
        -- now rewrite app_nil_r.
      * intros i j. rewrite C2. cbn [mem]. destruct (beq_spec j cn) as [->|Nj]; cbn.
        -- destruct (beq_spec i t) as [->|Ni]; cbn.
           ++ apply mem_not_In in Nt. rewrite Nt, dget_set_eq. now rewrite Eq.
           ++ destruct (mem i ts) eqn:M; rewrite dget_set_neq; try reflexivity; try congruence. apply mem_In in M. intros X. inversion X; subst. apply Nc. now right.
        -- rewrite dget_set_neq; [reflexivity|]. congruence.
Qed.

(** ** one building after another *)
Section Pick.
Variable g : losgraph.
Variable dep : bool.
Notation n := (List.length (g_sites g)).
Hypothesis W : wf_graph g.
Hypothesis B2 : two_way g.
Lemma rx_range i j : In j (neighbours (g_rx g) i) -> (i < n)%nat /\ (j < n)%nat.
Proof.
  intros H. split.
  - apply in_neighbours in H. now rewrite (wf_rx_len g W) in H.
  - apply (wf_inverse g W), in_neighbours in H. now rewrite (wf_tx_len g W) in H.
Qed.
Lemma tx_range i j : In i (neighbours (g_tx g) j) -> (i < n)%nat /\ (j < n)%nat.
Proof. intros H. now apply (wf_inverse g W), rx_range in H. Qed.

Definition heard (chosen : list (Z * nat)) (i : nat) : list nat :=
  map fst (filter (fun p => mem i (neighbours (g_tx g) (snd (snd p)))) (enumerate_from n chosen)).
Definition picks (chosen : list (Z * nat)) : list nat :=
  flat_map (fun p => (if dep then [snd (snd p)] else []) ++ [fst p]) (enumerate_from n chosen).
Record inv (chosen : list (Z * nat)) (g' : losgraph) : Prop := {
  i_sites : g_sites g' = g_sites g ++ map (cn_copy (g_sites g)) chosen;
  i_tx : g_tx g' = g_tx g ++ map (fun p => neighbours (g_tx g) (snd p)) chosen;
  i_rx_len : List.length (g_rx g') = (n + List.length chosen)%nat;
  i_rx : forall i, neighbours (g_rx g') i = neighbours (g_rx g) i ++ heard chosen i;
  i_old : forall i j, (j < n)%nat -> dget (g_conf g') (i, j) = dget (g_conf g) (i, j);
  i_new : forall m b d i, nth_error chosen m = Some (b, d) -> In i (neighbours (g_tx g) d) -> dget (g_conf g') (i, (n + m)%nat) = dget (g_conf g) (d, i) }.
Lemma heard_app chosen p i : heard (chosen ++ [p]) i = heard chosen i ++ (if mem i (neighbours (g_tx g) (snd p)) then [(n + List.length chosen)%nat] else []).
Proof. unfold heard. rewrite enumerate_app, filter_app, map_app. f_equal. cbn. destruct (mem i (neighbours (g_tx g) (snd p))); reflexivity. Qed.
Lemma heard_In chosen i j : In j (heard chosen i) <-> exists m b d, nth_error chosen m = Some (b, d) /\ j = (n + m)%nat /\ In i (neighbours (g_tx g) d).
Proof.
  unfold heard. rewrite in_map_iff. split.
  - intros ([k [b d]] & <- & H). apply filter_In in H. destruct H as [H M]. cbn in M. apply mem_In in M. apply enumerate_nth in H. destruct H as (m & -> & E). exists m, b, d. auto.
  - intros (m & b & d & E & -> & H). exists ((n + m)%nat, (b, d)). split; [reflexivity|]. apply filter_In. split; [apply enumerate_nth; eauto|]. cbn. now apply mem_In.
Qed.
Lemma heard_len chosen i : List.length (heard chosen i) = gained g chosen i.
Proof.
  unfold heard, gained. rewrite map_length. generalize n. induction chosen as [|c cs IH]; intros k; cbn; [reflexivity|]. destruct (mem i (neighbours (g_tx g) (snd c))); cbn; now rewrite IH.
Qed.
Lemma nth_app_lt {A} (l r : list A) i : (i < List.length l)%nat -> nth_error (l ++ r) i = nth_error l i.
Proof. apply nth_error_app1. Qed.

Notation best := (most_seen g).
Lemma building_step_ok chosen g' picked b : inv chosen g' -> (exists i, on_building (g_sites g) b i) ->
  exists d g'', on_building (g_sites g) b d /\ best chosen b d /\ inv (chosen ++ [(b, d)]) g'' /\
  building_step dep (g', picked) (indices (g_sites g) (onb b)) = Ok (g'', picked ++ (if dep then [d] else []) ++ [(n + List.length chosen)%nat]).
Proof.
  intros I (i0 & H0). unfold building_step.
  assert (OB : forall i, In i (indices (g_sites g) (onb b)) <-> on_building (g_sites g) b i).
  { intros i. rewrite indices_In. unfold on_building, onb. cbn. split; intros (s & E & F); exists s; (split; [assumption|]); [now apply beq_true in F|]. rewrite F. apply beq_refl. }
  assert (LT : forall i, on_building (g_sites g) b i -> (i < n)%nat) by (intros i (s & E & _); apply nth_error_Some; congruence).
  rewrite (mapM_pure _ (fun i => (i, List.length (neighbours (g_rx g') i)))).
  2:{ intros i Hi. apply OB, LT in Hi. rewrite at_neighbours; [reflexivity|]. rewrite (i_rx_len _ _ I). lia. }
  cbn [rbind]. set (ks := map (fun i => (i, List.length (neighbours (g_rx g') i))) (indices (g_sites g) (onb b))).
  assert (Ks : map fst ks = indices (g_sites g) (onb b)) by (unfold ks; rewrite map_map; apply map_id).
  assert (Hs := sort_head ks). destruct (sort_desc ks) as [|[d c] r].
  { apply OB in H0. rewrite <- Ks, Hs in H0. destruct H0. }
  destruct Hs as [Hd Hmax]. unfold ks in Hd. apply in_map_iff in Hd. destruct Hd as (d' & Ed & Hd). inversion Ed; subst d' c. clear Ed. apply OB in Hd.
  assert (Ld := LT d Hd). destruct Hd as (s & Es & Eb).
  assert (Es' : nth_error (g_sites g') d = Some s) by (rewrite (i_sites _ _ I), nth_app_lt; assumption).
  unfold at_index at 1. rewrite Es'. cbn [rbind].
  assert (Lt : List.length (g_tx g') = (n + List.length chosen)%nat) by (rewrite (i_tx _ _ I), app_length, map_length, (wf_tx_len g W); reflexivity).
  assert (Ls : List.length (g_sites g') = (n + List.length chosen)%nat) by (rewrite (i_sites _ _ I), app_length, map_length; reflexivity).
  assert (Nd : neighbours (g_tx g') d = neighbours (g_tx g) d) by (unfold neighbours; rewrite (i_tx _ _ I); apply app_nth1; rewrite (wf_tx_len g W); assumption).
  rewrite at_neighbours by lia. cbn [rbind]. rewrite Nd.
  rewrite at_neighbours by (rewrite app_length; cbn; lia). cbn [rbind].
  assert (Nc : neighbours (g_tx g' ++ [neighbours (g_tx g) d]) (List.length (g_sites g')) = neighbours (g_tx g) d).
  { rewrite app_neighbours. rewrite Lt, Ls, beq_refl. reflexivity. }
  rewrite Nc. rewrite Ls.
  destruct (neighbour_fold d (n + List.length chosen) (neighbours (g_tx g) d) (g_rx g' ++ [[]]) (g_conf g')) as (rx1 & conf1 & E1 & L1 & N1 & C1).
  - apply (wf_tx_nodup g W).
  - intros X. apply tx_range in X. lia.
  - intros t Ht. split; [rewrite app_length, (i_rx_len _ _ I); apply tx_range in Ht; lia|].
    rewrite (i_old _ _ I) by (now apply tx_range in Ht). apply (wf_conf g W). apply (B2 d s); [assumption|congruence|assumption].
  - rewrite E1. cbn [rbind fst snd]. exists d. eexists. split; [now exists s|]. split; [|split; [|reflexivity]].
    + intros i Hi. apply OB in Hi. specialize (Hmax (i, List.length (neighbours (g_rx g') i))). cbn [fst snd] in Hmax.
      assert (Hk : In (i, List.length (neighbours (g_rx g') i)) ks) by (unfold ks; apply in_map_iff; eauto). specialize (Hmax Hk).
      rewrite !(i_rx _ _ I), !app_length, !heard_len, Ks in Hmax. destruct Hmax as [A B]. split; [exact A|]. intros E. apply B; [apply indices_sorted|exact E].
    + split; cbn [g_sites g_tx g_rx g_conf].
      * rewrite (i_sites _ _ I), map_app, <- app_assoc. do 2 f_equal. cbn. unfold cn_copy. cbn [fst snd]. rewrite Es, Eb. reflexivity.
      * rewrite (i_tx _ _ I), map_app, <- app_assoc. reflexivity.
      * rewrite L1, !app_length, (i_rx_len _ _ I). cbn. lia.
      * intros i. rewrite N1, heard_app. cbn [snd]. rewrite app_assoc. f_equal. rewrite app_neighbours. rewrite (i_rx_len _ _ I).
        destruct (beq_spec i (n + List.length chosen)%nat) as [->|Ni]; [|apply (i_rx _ _ I)]. rewrite <- (i_rx _ _ I). symmetry. apply nth_out. rewrite (i_rx_len _ _ I). lia.
      * intros i j Hj. rewrite C1. destruct (beq_spec j (n + List.length chosen)%nat) as [->|_]; [lia|]. cbn. now apply (i_old _ _ I).
      * intros m b' d' i Em Hi. rewrite C1. destruct (Nat.lt_ge_cases m (List.length chosen)) as [Lm|Lm].
        -- rewrite nth_app_lt in Em by assumption. destruct (beq_spec (n + m)%nat (n + List.length chosen)%nat) as [X|_]; [lia|]. cbn. eapply (i_new _ _ I); eassumption.
        -- rewrite nth_error_app2 in Em by assumption. destruct (m - List.length chosen)%nat as [|z] eqn:Ez; [|destruct z; discriminate]. cbn in Em. inversion Em; subst b' d'.
           replace m with (List.length chosen) by lia. rewrite beq_refl. apply mem_In in Hi. rewrite Hi. cbn. apply mem_In in Hi. apply (i_old _ _ I). now apply tx_range in Hi.
Qed.
Lemma buildings_ok : forall bs chosen g' picked, inv chosen g' -> (forall b, In b bs -> exists i, on_building (g_sites g) b i) ->
  exists more g'', map fst more = bs /\ inv (chosen ++ more) g'' /\ (forall b d, In (b, d) more -> on_building (g_sites g) b d) /\
  (forall k b d, nth_error more k = Some (b, d) -> best (chosen ++ firstn k more) b d) /\
  foldM (building_step dep) (g', picked) (map (fun b => indices (g_sites g) (onb b)) bs) =
    Ok (g'', picked ++ flat_map (fun p => (if dep then [snd (snd p)] else []) ++ [fst p]) (enumerate_from (n + List.length chosen) more)).
Proof.
  induction bs as [|b bs IH]; intros chosen g' picked I Hb.
  - exists [], g'. split; [reflexivity|]. rewrite app_nil_r. split; [assumption|]. split; [intros ? ? []|]. split; [intros [|k] ? ? E; discriminate|]. cbn. now rewrite app_nil_r.
  - destruct (building_step_ok chosen g' picked b I (Hb b (or_introl eq_refl))) as (d & g1 & Od & Bd & I1 & E1).
    destruct (IH (chosen ++ [(b, d)]) g1 (picked ++ (if dep then [d] else []) ++ [(n + List.length chosen)%nat]) I1) as (more & g2 & M & I2 & O2 & Be & E2); [intros; apply Hb; now right|].
    exists ((b, d) :: more), g2. split; [cbn; now rewrite M|]. rewrite <- app_assoc in I2. split; [exact I2|]. split; [intros b' d' [X|X]; [now inversion X; subst|eauto]|]. split.
    + intros [|k] b' d' E; cbn in E.
      * inversion E; subst. cbn. now rewrite app_nil_r.
      * apply Be in E. rewrite <- app_assoc in E. exact E.
    + cbn [map foldM]. rewrite E1. cbn [rbind]. rewrite E2. f_equal. f_equal. rewrite <- app_assoc. f_equal. rewrite app_length. cbn [List.length enumerate_from flat_map snd fst].
      replace (n + (List.length chosen + 1))%nat with (S (n + List.length chosen)) by lia. reflexivity.
Qed.
Lemma inv_nil : inv [] g.
Proof.
  split.
  - now rewrite app_nil_r.
  - now rewrite app_nil_r.
  - rewrite (wf_rx_len g W). cbn. lia.
  - intros i. unfold heard. cbn. now rewrite app_nil_r.
  - reflexivity.
  - intros [|m] ? ? ? E; discriminate.
Qed.
Lemma NoDup_app_iff_local {A} (l r : list A) : NoDup l -> NoDup r -> (forall x, In x l -> ~ In x r) -> NoDup (l ++ r).
Proof.
  induction l as [|a l IH]; intros Hl Hr H; cbn; [assumption|]. inversion Hl; subst. constructor; [|apply IH; auto; intros; apply H; now right].
  rewrite in_app_iff. intros [X|X]; [contradiction|]. now apply (H a (or_introl eq_refl)).
Qed.
Lemma heard_nodup chosen i : NoDup (heard chosen i).
Proof. apply sorted_NoDup. unfold heard. apply sorted_filter, enumerate_sorted. Qed.
Lemma inv_wf chosen g' : inv chosen g' -> (forall b d, In (b, d) chosen -> on_building (g_sites g) b d) -> wf_graph g'.
Proof.
  intros I Hon.
  assert (Ls : List.length (g_sites g') = (n + List.length chosen)%nat) by (rewrite (i_sites _ _ I), app_length, map_length; reflexivity).
  assert (Lt : List.length (g_tx g') = (n + List.length chosen)%nat) by (rewrite (i_tx _ _ I), app_length, map_length, (wf_tx_len g W); reflexivity).
  assert (Tx : forall j, (j < n)%nat -> neighbours (g_tx g') j = neighbours (g_tx g) j) by (intros j Hj; unfold neighbours; rewrite (i_tx _ _ I); apply app_nth1; rewrite (wf_tx_len g W); assumption).
  assert (Tn : forall m, neighbours (g_tx g') (n + m)%nat = match nth_error chosen m with Some p => neighbours (g_tx g) (snd p) | None => [] end).
  { intros m. unfold neighbours at 1. rewrite (i_tx _ _ I). rewrite app_nth2 by (rewrite (wf_tx_len g W); lia). rewrite (wf_tx_len g W). replace (n + m - n)%nat with m by lia.
    destruct (nth_error chosen m) as [p|] eqn:Em.
    - apply nth_error_nth. apply map_nth_error with (f := fun p => neighbours (g_tx g) (snd p)) in Em. exact Em.
    - apply nth_overflow. rewrite map_length. now apply nth_error_None. }
  split.
  - rewrite Ls. apply (i_rx_len _ _ I).
  - now rewrite Ls.
  - intros i j. rewrite (i_rx _ _ I), in_app_iff, heard_In. destruct (Nat.lt_ge_cases j n) as [L|L].
    + rewrite Tx by assumption. rewrite <- (wf_inverse g W). split; [|now left]. intros [H|(m & b & d & _ & -> & _)]; [assumption|lia].
    + replace j with (n + (j - n))%nat by lia. rewrite Tn. split.
      * intros [H|(m & b & d & Em & E & H)]; [apply rx_range in H; lia|]. replace (j - n)%nat with m by lia. rewrite Em. exact H.
      * intros H. right. destruct (nth_error chosen (j - n)) as [[b d]|] eqn:Em; [|destruct H]. exists (j - n)%nat, b, d. auto.
  - intros i. rewrite (i_rx _ _ I). apply NoDup_app_iff_local.
    1: apply (wf_rx_nodup g W). 1: apply heard_nodup.
    intros x Hx Hh. apply rx_range in Hx. apply heard_In in Hh. destruct Hh as (m & ? & ? & _ & -> & _). lia.
  - intros i. destruct (Nat.lt_ge_cases i n) as [L|L]; [rewrite Tx by assumption; apply (wf_tx_nodup g W)|].
    replace i with (n + (i - n))%nat by lia. rewrite Tn. destruct (nth_error chosen (i - n)); [apply (wf_tx_nodup g W)|constructor].
  - intros i j H. rewrite (i_rx _ _ I), in_app_iff, heard_In in H. destruct H as [H|(m & b & d & Em & -> & H)].
    + rewrite (i_old _ _ I) by (now apply rx_range in H). now apply (wf_conf g W).
    + rewrite (i_new _ _ I m b d i Em H). apply (wf_conf g W). apply nth_error_In in Em. destruct (Hon _ _ Em) as (s & Es & Eb). apply (B2 d s); [assumption|congruence|assumption].
Qed.
Lemma picks_In (dep' : bool) (chosen : list (Z * nat)) k0 x : In x (flat_map (fun p => (if dep' then [snd (snd p)] else []) ++ [fst p]) (enumerate_from k0 chosen)) <->
  (k0 <= x < k0 + List.length chosen)%nat \/ (dep' = true /\ In x (map (@snd Z nat) chosen)).
Proof.
  rewrite in_flat_map. split.
  - intros ([k [b d]] & H & Hx). apply enumerate_nth in H. destruct H as (m & -> & E). apply in_app_iff in Hx. cbn in Hx. destruct Hx as [Hx|[<-|[]]].
    + destruct dep'; [|destruct Hx]. destruct Hx as [<-|[]]. right. split; [reflexivity|]. apply nth_error_In in E. apply in_map_iff. exists (b, d). auto.
    + left. assert (m < List.length chosen)%nat by (apply nth_error_Some; congruence). lia.
  - intros [H|[-> H]].
    + destruct (nth_error chosen (x - k0)) as [[b d]|] eqn:E; [|apply nth_error_None in E; lia]. exists (x, (b, d)). split; [apply enumerate_nth; exists (x - k0)%nat; split; [lia|assumption]|].
      apply in_app_iff. right. now left.
    + apply in_map_iff in H. destruct H as ([b d] & <- & H). apply In_nth_error in H. destruct H as (m & E). exists ((k0 + m)%nat, (b, d)). split; [apply enumerate_nth; eauto|]. apply in_app_iff. left. now left.
Qed.
Lemma picks_nodup chosen : NoDup (map fst chosen) -> (forall b d, In (b, d) chosen -> on_building (g_sites g) b d) ->
  forall k0, (n <= k0)%nat -> NoDup (flat_map (fun p => (if dep then [snd (snd p)] else []) ++ [fst p]) (enumerate_from k0 chosen)).
Proof.
  induction chosen as [|[b d] cs IH]; intros ND Hon k0 L; [constructor|]. cbn [enumerate_from flat_map fst snd]. cbn in ND. inversion ND as [|? ? Nb ND']; subst.
  assert (Ld : (d < n)%nat) by (destruct (Hon b d (or_introl eq_refl)) as (s & E & _); apply nth_error_Some; congruence).
  apply NoDup_app_iff_local.
  - destruct dep; cbn; [constructor; [intros [X|[]]; lia|]|]; (constructor; [intros []|constructor]).
  - apply IH; [assumption|intros; apply Hon; now right|lia].
  - intros x Hx Hx'. apply picks_In in Hx'. apply in_app_iff in Hx. destruct Hx as [Hx|[<-|[]]].
    + destruct dep eqn:Dp; [|destruct Hx]. destruct Hx as [<-|[]]. destruct Hx' as [?|[_ Hx']]; [lia|]. apply in_map_iff in Hx'. destruct Hx' as ([b' d'] & <- & Hin). cbn in *.
      apply Nb. replace b with b'; [now apply (in_map fst) in Hin|].
      destruct (Hon b d' (or_introl eq_refl)) as (s & E & Eb). destruct (Hon b' d' (or_intror Hin)) as (s' & E' & Eb'). congruence.
    + destruct Hx' as [?|[_ Hx']]; [lia|]. apply in_map_iff in Hx'. destruct Hx' as ([b' d'] & E0 & Hin). cbn in E0. subst d'. destruct (Hon b' k0 (or_intror Hin)) as (s' & E' & _).
      assert (k0 < n)%nat by (apply nth_error_Some; congruence). lia.
Qed.
Lemma pick_ok : exists g' picked chosen, pick_best_sites_per_building dep g = Ok (g', picked) /\ outcome dep g g' picked chosen /\
  forall k b d, nth_error chosen k = Some (b, d) -> best (firstn k chosen) b d.
Proof.
  destruct (group_ok (g_sites g)) as (bs & _ & V & U & ND & K). unfold pick_best_sites_per_building. destruct (group_sites (g_sites g)) as [dd us]. cbn [fst snd] in V, U. subst us. rewrite V.
  destruct (buildings_ok bs [] g (indices (g_sites g) user) inv_nil) as (chosen & g' & M & I & On & Be & E); [intros b Hb; now apply K|].
  cbn [app List.length] in I, Be, E. rewrite Nat.add_0_r in E. exists g'. eexists. exists chosen. split; [exact E|]. split; [|exact Be].
  assert (LS : List.length (g_sites g') = (n + List.length chosen)%nat) by (rewrite (i_sites _ _ I), app_length, map_length; reflexivity).
  assert (US : forall i, In i (indices (g_sites g) user) <-> user_site (g_sites g) i).
  { intros i. rewrite indices_In. unfold user_site, user. cbn. split; intros (s & Es & F); exists s; (split; [assumption|]); [now apply beq_true in F|]. rewrite F. apply beq_refl. }
  split.
  - split; [now rewrite M|]. split; [exact On|]. intros b i H. rewrite M. apply K. eauto.
  - apply (i_sites _ _ I).
  - eapply inv_wf; eauto.
  - intros i j. rewrite (i_rx _ _ I), in_app_iff, heard_In. reflexivity.
  - apply (i_old _ _ I).
  - apply (i_new _ _ I).
  - intros i. rewrite in_app_iff, US, picks_In, LS. tauto.
  - apply NoDup_app_iff_local.
    + apply sorted_NoDup, indices_sorted.
    + apply picks_nodup; [now rewrite M|exact On|lia].
    + intros x Hx Hp. apply US in Hx. destruct Hx as (s & Es & Eb). assert (x < n)%nat by (apply nth_error_Some; congruence). apply picks_In in Hp. destruct Hp as [?|[_ Hp]]; [lia|].
      apply in_map_iff in Hp. destruct Hp as ([b d] & <- & Hin). destruct (On _ _ Hin) as (s' & Es' & Eb'). cbn in *. congruence.
Qed.
End Pick.

(** ** the graph of computed links *)
Definition rx_of (l : list valid) (i : nat) : list nat := map v_rx (filter (fun v => beq (v_tx v) i) l).
Definition tx_of (l : list valid) (i : nat) : list nat := map v_tx (filter (fun v => beq (v_rx v) i) l).
Lemma link_fold N : forall l rx tx conf, List.length rx = N -> List.length tx = N -> (forall v, In v l -> (v_tx v < N)%nat /\ (v_rx v < N)%nat) ->
  exists rx' tx' conf', foldM link_step (rx, tx, conf) l = Ok (rx', tx', conf') /\ List.length rx' = N /\ List.length tx' = N /\
  (forall i, neighbours rx' i = neighbours rx i ++ rx_of l i) /\ (forall i, neighbours tx' i = neighbours tx i ++ tx_of l i) /\
  (forall i j, (exists q, dget conf' (i, j) = Some q) <-> (exists q, dget conf (i, j) = Some q) \/ exists v, In v l /\ v_tx v = i /\ v_rx v = j) /\
  (forall i j q, dget conf' (i, j) = Some q -> dget conf (i, j) = Some q \/ In (mkValid i j q) l).
Proof.
  induction l as [|v l IH]; intros rx tx conf Lr Lt H.
  - exists rx, tx, conf. split; [reflexivity|]. split; [assumption|]. split; [assumption|]. split; [intros; now rewrite app_nil_r|]. split; [intros; now rewrite app_nil_r|]. split.
    + intros i j. split; [now left|]. intros [X|(? & [] & _)]. exact X.
    + auto.
  - destruct (H v (or_introl eq_refl)) as [H1 H2].
    destruct (append_at_ok rx (v_tx v) (v_rx v)) as (rx1 & E1 & L1 & N1); [lia|]. destruct (append_at_ok tx (v_rx v) (v_tx v)) as (tx1 & E2 & L2 & N2); [lia|].
    destruct (IH rx1 tx1 (dset conf (v_tx v, v_rx v) (v_conf v))) as (rx' & tx' & conf' & E & Lr' & Lt' & A & B & C & D); [lia|lia|intros; apply H; now right|].
    exists rx', tx', conf'. cbn [foldM]. unfold link_step at 1. rewrite E1. cbn [rbind]. rewrite E2. cbn [rbind]. split; [exact E|]. split; [assumption|]. split; [assumption|]. split; [|split; [|split]].
    + intros i. rewrite A, N1, <- app_assoc. f_equal. unfold rx_of. cbn. rewrite (beq_sym (v_tx v) i). destruct (beq_spec i (v_tx v)); reflexivity.
    + intros i. rewrite B, N2, <- app_assoc. f_equal. unfold tx_of. cbn. rewrite (beq_sym (v_rx v) i). destruct (beq_spec i (v_rx v)); reflexivity.
    + intros i j. rewrite C. rewrite dget_set. destruct (beq_spec (i, j) (v_tx v, v_rx v)) as [X|X].
      * inversion X; subst. split; [|intros _; left; eauto]. intros _. right. exists v. split; [now left|auto].
      * split; [intros [Y|(w & Hw & Y)]; [now left|right; exists w; split; [now right|assumption]]|]. intros [Y|(w & [<-|Hw] & Y1 & Y2)]; [now left|congruence|right; eauto].
    + intros i j q Hq. apply D in Hq. destruct Hq as [Hq|Hq]; [|right; now right]. rewrite dget_set in Hq. destruct (beq_spec (i, j) (v_tx v, v_rx v)) as [X|X]; [|now left].
      right. left. inversion X; inversion Hq. destruct v; reflexivity.
Qed.
Lemma rx_of_In l i j : In j (rx_of l i) <-> exists v, In v l /\ v_tx v = i /\ v_rx v = j.
Proof.
  unfold rx_of. rewrite in_map_iff. split; intros (v & A & B); exists v.
  - apply filter_In in B. destruct B as [B C]. apply beq_true in C. auto.
  - split; [tauto|]. apply filter_In. destruct B as [<- _]. split; [assumption|apply beq_refl].
Qed.
Lemma tx_of_In l i j : In j (tx_of l i) <-> exists v, In v l /\ v_rx v = i /\ v_tx v = j.
Proof.
  unfold tx_of. rewrite in_map_iff. split; intros (v & A & B); exists v.
  - apply filter_In in B. destruct B as [B C]. apply beq_true in C. auto.
  - split; [tauto|]. apply filter_In. destruct B as [<- _]. split; [assumption|apply beq_refl].
Qed.
Lemma rx_of_nodup l i : distinct_links l -> NoDup (rx_of l i).
Proof.
  unfold distinct_links. induction l as [|v l IH]; intros H; cbn; [constructor|]. inversion H; subst. unfold rx_of in *. cbn. destruct (beq_spec (v_tx v) i) as [<-|]; cbn; [|auto]. constructor; [|auto].
  intros X. apply H2. apply in_map_iff in X. destruct X as (w & E & X). apply filter_In in X. destruct X as [X Y]. apply beq_true in Y. apply in_map_iff. exists w. split; [congruence|assumption].
Qed.
Lemma tx_of_nodup l i : distinct_links l -> NoDup (tx_of l i).
Proof.
  unfold distinct_links. induction l as [|v l IH]; intros H; cbn; [constructor|]. inversion H; subst. unfold tx_of in *. cbn. destruct (beq_spec (v_rx v) i) as [<-|]; cbn; [|auto]. constructor; [|auto].
  intros X. apply H2. apply in_map_iff in X. destruct X as (w & E & X). apply filter_In in X. destruct X as [X Y]. apply beq_true in Y. apply in_map_iff. exists w. split; [congruence|assumption].
Qed.
Lemma empty_neighbours {A} (l : list A) i : neighbours (map (fun _ => []) l) i = [].
Proof. unfold neighbours. revert i. induction l; intros [|i]; cbn; auto. Qed.
Lemma los_graph_ok sites links : distinct_links links -> (forall v, In v links -> (v_tx v < List.length sites)%nat /\ (v_rx v < List.length sites)%nat) ->
  exists g, los_graph sites links = Ok g /\ g_sites g = sites /\ wf_graph g /\
  (forall i j, In j (neighbours (g_rx g) i) <-> exists v, In v links /\ v_tx v = i /\ v_rx v = j) /\
  (forall i j q, dget (g_conf g) (i, j) = Some q -> In (mkValid i j q) links).
Proof.
  intros ND H. unfold los_graph. destruct (link_fold (List.length sites) links (map (fun _ => []) sites) (map (fun _ => []) sites) []) as (rx & tx & conf & E & Lr & Lt & A & B & C & D); [apply map_length|apply map_length|exact H|].
  rewrite E. cbn [rbind]. eexists. split; [reflexivity|]. split; [reflexivity|].
  assert (A' : forall i, neighbours rx i = rx_of links i) by (intros; rewrite A, empty_neighbours; reflexivity).
  assert (B' : forall i, neighbours tx i = tx_of links i) by (intros; rewrite B, empty_neighbours; reflexivity).
  split; [|split].
  - split; cbn [g_sites g_rx g_tx g_conf]; try assumption.
    + intros i j. rewrite A', B', rx_of_In, tx_of_In. split; intros (v & X & Y & Z); exists v; auto.
    + intros i. rewrite A'. now apply rx_of_nodup.
    + intros i. rewrite B'. now apply tx_of_nodup.
    + intros i j. rewrite A', rx_of_In. intros X. apply C. now right.
  - intros i j. cbn [g_rx]. now rewrite A', rx_of_In.
  - intros i j q X. cbn in X. apply D in X. destruct X as [X|X]; [discriminate|assumption].
Qed.

(** the links computed for a site list are distinct *)
Lemma NoDup_flat {A B} (f : A -> list B) l : NoDup l -> (forall x, In x l -> NoDup (f x)) -> (forall x y b, In x l -> In y l -> In b (f x) -> In b (f y) -> x = y) -> NoDup (flat_map f l).
Proof.
  induction l as [|a l IH]; intros ND H D; cbn; [constructor|]. inversion ND; subst. apply NoDup_app_iff_local.
  - apply H. now left.
  - apply IH; [assumption|intros; apply H; now right|intros x y b Hx Hy; apply D; now right].
  - intros b Hb Hb'. apply in_flat_map in Hb'. destruct Hb' as (x & Hx & Hb'). assert (a = x) by (apply (D a x b); [now left|now right|assumption|assumption]). congruence.
Qed.
Section Computed.
Variable confidence : lsite -> lsite -> Q.
Variable lsites : list lsite.
Definition pair_of (v : valid) : nat * nat := (v_tx v, v_rx v).
Definition link_pairs (types : list site_type) (i j : nat) : list (nat * nat) := map pair_of (flat_map (links_of confidence lsites) (pair_candidate types i j)).
Lemma link_pairs_In types i j p : In p (link_pairs types i j) -> p = (i, j) \/ p = (j, i).
Proof.
  unfold link_pairs, pair_candidate. destruct (nth_error types i) as [a|]; [|intros []]. destruct (nth_error types j) as [b|]; [|intros []].
  assert (L : forall c, In p (map pair_of (flat_map (links_of confidence lsites) [c])) -> p = (c_first c, c_second c) \/ p = (c_second c, c_first c)).
  { intros c. cbn. rewrite app_nil_r. unfold links_of. destruct (Qlt_le_dec 0 _); [|intros []]. destruct (c_both c); cbn; intuition. }
  destruct (bi_directional a b); [intros H; apply L in H; exact H|]. destruct (directed a b); [intros H; apply L in H; exact H|]. destruct (directed b a); [intros H; apply L in H; cbn in H; tauto|intros []].
Qed.
Lemma link_pairs_nodup types i j : i <> j -> NoDup (link_pairs types i j).
Proof.
  intros N. unfold link_pairs, pair_candidate. destruct (nth_error types i) as [a|]; [|constructor]. destruct (nth_error types j) as [b|]; [|constructor].
  assert (L : forall c, c_first c <> c_second c -> NoDup (map pair_of (flat_map (links_of confidence lsites) [c]))).
  { intros c Nc. cbn. rewrite app_nil_r. unfold links_of. destruct (Qlt_le_dec 0 _); [|constructor]. destruct (c_both c); cbn; repeat (constructor; cbn); unfold pair_of; cbn; intuition congruence. }
  destruct (bi_directional a b); [now apply L|]. destruct (directed a b); [now apply L|]. destruct (directed b a); [apply L; cbn; congruence|constructor].
Qed.
Lemma map_flat {A B C} (f : B -> C) (h : A -> list B) l : map f (flat_map h l) = flat_map (fun x => map f (h x)) l.
Proof. induction l; cbn; [reflexivity|]. now rewrite map_app, IHl. Qed.
Lemma flat_flat {A B C} (f : B -> list C) (h : A -> list B) l : flat_map f (flat_map h l) = flat_map (fun x => flat_map f (h x)) l.
Proof. induction l; cbn; [reflexivity|]. now rewrite flat_map_app, IHl. Qed.
Lemma computed_distinct types k : distinct_links (direct confidence lsites (candidate_links types k)).
Proof.
  unfold distinct_links, direct, candidate_links. change (fun v => (v_tx v, v_rx v)) with pair_of. rewrite flat_flat, map_flat.
  assert (E : forall i, map pair_of (flat_map (links_of confidence lsites) (flat_map (fun j => pair_candidate types i j) (seq (S i) (List.length types - S i)))) =
    flat_map (link_pairs types i) (seq (S i) (List.length types - S i))) by (intros; now rewrite flat_flat, map_flat).
  rewrite (flat_map_ext _ _ E). clear E. apply NoDup_flat.
  - apply seq_NoDup.
  - intros i _. apply NoDup_flat.
    + apply seq_NoDup.
    + intros j Hj. apply in_seq in Hj. apply link_pairs_nodup. lia.
    + intros j j' p Hj Hj' H H'. apply in_seq in Hj. apply in_seq in Hj'. apply link_pairs_In in H. apply link_pairs_In in H'. destruct H as [-> | ->], H' as [X|X]; inversion X; subst; lia.
  - intros i i' p _ _ H H'. apply in_flat_map in H. apply in_flat_map in H'. destruct H as (j & Hj & H), H' as (j' & Hj' & H'). apply in_seq in Hj. apply in_seq in Hj'.
    apply link_pairs_In in H. apply link_pairs_In in H'. destruct H as [-> | ->], H' as [X|X]; inversion X; subst; lia.
Qed.
End Computed.
Lemma computed_graph confidence lsites sites k finish : symmetric confidence -> positional confidence lsites -> List.length sites = List.length lsites ->
  all_finish (List.length (batches BATCH_SIZE (candidate_links (map ps_type sites) k))) finish ->
  (forall s, In s sites -> ps_building s <> None -> ps_type s = DN) ->
  exists links g, compute_los confidence lsites BATCH_SIZE finish (candidate_links (map ps_type sites) k) = Ok links /\ los_graph sites links = Ok g /\
  g_sites g = sites /\ wf_graph g /\ two_way g /\
  (forall i j, In j (neighbours (g_rx g) i) <-> exists q, In (mkValid i j q) links) /\
  (forall i j q, dget (g_conf g) (i, j) = Some q -> In (mkValid i j q) links).
Proof.
  intros Hs Hp L Hf Hb. assert (LT : List.length (map ps_type sites) = List.length lsites) by (now rewrite map_length).
  exists (direct confidence lsites (candidate_links (map ps_type sites) k)).
  set (links := direct confidence lsites (candidate_links (map ps_type sites) k)).
  assert (IFF := found_links_iff confidence lsites (map ps_type sites) k Hs LT). fold links in IFF.
  destruct (los_graph_ok sites links) as (g & E & Eg & Wg & R & C).
  - apply computed_distinct.
  - intros [a b q] Hv. apply IFF in Hv. destruct Hv as ((x & y & Ex & Ey & _) & _). cbn. rewrite <- (map_length ps_type sites). split; apply nth_error_Some; congruence.
  - exists g. split; [eapply compute_los_direct; eauto using candidates_in_range; exact (Nat.lt_0_succ _)|]. split; [exact E|]. split; [exact Eg|]. split; [exact Wg|].
    assert (R' : forall i j, In j (neighbours (g_rx g) i) <-> exists q, In (mkValid i j q) links).
    { intros i j. rewrite R. split; [intros ([a b q] & H & <- & <-); exists q; exact H|]. intros (q & H). eexists. split; [exact H|]. auto. }
    split; [|split; [exact R'|exact C]].
    intros i s t Ei Bi Ht. apply (wf_inverse g Wg) in Ht. apply R' in Ht. destruct Ht as (q & Ht). apply IFF in Ht. destruct Ht as ((a & b & Ea & Eb & Na & NP) & N & Mn & -> & Hq).
    apply R'. exists (confidence (site_at lsites i) (site_at lsites t)). apply IFF. rewrite Eg in Ei.
    assert (b = DN) as ->. { assert (X := map_nth_error ps_type _ _ Ei). rewrite X in Eb. inversion Eb. apply Hb; [now apply nth_error_In in Ei|exact Bi]. }
    split; [exists DN, a; split; [assumption|split; [assumption|split; [discriminate|intros [X _]; discriminate]]]|]. split; [congruence|]. split; [lia|]. split; [reflexivity|]. now rewrite Hs.
Qed.
