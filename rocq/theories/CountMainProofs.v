(** Proofs for C64: links, positions, backup DNs and channels. *)
From Coq Require Import Lia ZArith Permutation.
From Verif Require Import Base Dict QLib TopologyModel TopologySpec TopologyProofs TopologyLemmas TopologyQueryProofs GraphModel GraphSpec GraphProofs SetupModel MonadLib LosPickProofs OpsProofs DeployModel DeploySpec DeployProofs CountModel CountSpec CountProofs.
Local Open Scope list_scope.

(** *** link hashes *)
Lemma list_ascii_app a b : list_ascii_of_string (a ++ b)%string = list_ascii_of_string a ++ list_ascii_of_string b.
Proof. induction a as [|c a IH]; cbn; [reflexivity|]. now rewrite IH. Qed.
Lemma list_ascii_inj a b : list_ascii_of_string a = list_ascii_of_string b -> a = b.
Proof. intros E. rewrite <- (string_of_list_ascii_of_string a), <- (string_of_list_ascii_of_string b). now rewrite E. Qed.
Lemma typed_inj h h' ty ty' : (h ++ "_" ++ type_name ty)%string = (h' ++ "_" ++ type_name ty')%string -> h = h' /\ ty = ty'.
Proof.
  intros E. apply (f_equal list_ascii_of_string) in E. rewrite !list_ascii_app in E. apply (f_equal (@rev _)) in E. rewrite !rev_app_distr in E.
  destruct ty, ty'; cbn in E; try discriminate; injection E as E; apply (f_equal (@rev _)) in E; rewrite !rev_involutive in E; apply list_ascii_inj in E; auto.
Qed.
Lemma no_dash_app a b : no_dash a -> no_dash b -> no_dash (a ++ b).
Proof. unfold no_dash. rewrite list_ascii_app, in_app_iff. tauto. Qed.
Lemma join_min_max a b c d : no_dash a -> no_dash b -> no_dash c -> no_dash d ->
  ((if str_ltb b a then (b ++ "-" ++ a)%string else (a ++ "-" ++ b)%string) = (if str_ltb d c then (d ++ "-" ++ c)%string else (c ++ "-" ++ d)%string) <->
   (a = c /\ b = d) \/ (a = d /\ b = c)).
Proof.
  intros Na Nb Nc Nd. split.
  - destruct (str_ltb b a), (str_ltb d c); intros E; apply (link_id_inj _ _ _ _) in E; auto; intuition congruence.
  - intros [[-> ->]|[-> ->]]; [reflexivity|]. destruct (str_ltb c d) eqn:E1, (str_ltb d c) eqn:E2; try reflexivity.
    + pose proof (str_ltb_trans _ _ _ E1 E2) as F. rewrite str_ltb_irrefl in F. discriminate.
    + rewrite (str_ltb_total _ _ E1 E2). reflexivity.
Qed.
Lemma choose_reps {A B} (f : A -> B) (L : list A) vs : (forall v, In v vs -> exists x, In x L /\ f x = v) -> exists reps, map f reps = vs /\ forall x, In x reps -> In x L.
Proof.
  induction vs as [|v vs IH]; intros H; [exists []; split; [reflexivity|intros ? []]|].
  destruct (H v (or_introl eq_refl)) as (x & Hx & E). destruct IH as (reps & E' & H'); [intros; apply H; now right|].
  exists (x :: reps). split; [cbn; congruence|]. intros y [<-|Hy]; auto.
Qed.
Lemma distinct_reps {A B} `{EqB B} (f : A -> B) (L : list A) : exists reps, (forall x, In x reps -> In x L) /\ NoDup (map f reps) /\ (forall x, In x L -> exists y, In y reps /\ f x = f y) /\ List.length reps = distinct (map f L).
Proof.
  destruct (distinct_card (map f L)) as (vs & N & M & E). destruct (choose_reps f L vs) as (reps & Er & Hr).
  { intros v Hv. apply M in Hv. apply in_map_iff in Hv. destruct Hv as (x & E' & Hx). eauto. }
  exists reps. split; [exact Hr|]. split; [now rewrite Er|]. split; [|rewrite <- E, <- Er; now rewrite map_length].
  intros x Hx. assert (Hv : In (f x) vs) by (apply M; now apply in_map). rewrite <- Er in Hv. apply in_map_iff in Hv. destruct Hv as (y & E' & Hy). eauto.
Qed.

Section Counts.
Variables (hash : Z * Z * Z -> string) (t : topo).
Hypothesis (W : well_formed t) (Hd : forall c, no_dash (hash c)).
Lemma same_end_iff i j : site_stored t i -> site_stored t j -> (end_hash hash t i = end_hash hash t j <-> same_end hash t i j).
Proof.
  intros [s E] [s' E']. unfold end_hash, same_end. rewrite E, E'. split.
  - intros F. apply typed_inj in F. exists s, s'. tauto.
  - intros (u & u' & F & F' & H1 & H2). injection F as <-. injection F' as <-. now rewrite H1, H2.
Qed.
Lemma end_no_dash i : no_dash (end_hash hash t i).
Proof.
  unfold end_hash. destruct (dget (t_sites t) i) as [s|]; [|intros []]. apply no_dash_app; [apply Hd|]. unfold no_dash. destruct (s_type s); cbn; intuition discriminate.
Qed.
Lemma same_link_iff k l k' l' : link_stored t k l -> link_stored t k' l' -> (link_hash hash t l = link_hash hash t l' <-> same_link hash t l l').
Proof using W Hd.
  intros E E'. destruct W as (_ & _ & _ & _ & _ & _ & C & _). destruct (C _ _ E) as (_ & S1 & S2). destruct (C _ _ E') as (_ & S1' & S2').
  unfold link_hash, same_link. rewrite join_min_max by apply end_no_dash. rewrite !same_end_iff by assumption. reflexivity.
Qed.
Lemma links_card act ty : card_up_to (a_link t act ty) (same_link hash t) (links_of_type hash t act ty).
Proof using W Hd.
  unfold links_of_type. match goal with |- context [map _ ?L] => destruct (distinct_reps (fun q => link_hash hash t (snd q)) L) as (reps & H1 & H2 & H3 & H4) end.
  assert (Wl : dwf (t_links t)) by apply W.
  assert (In_L : forall q, In q (filter (fun q => sel act (l_status (snd q)) && beq (l_type (snd q)) ty) (t_links t)) <-> link_stored t (fst q) (snd q) /\ l_type (snd q) = ty /\ chosen act (l_status (snd q))).
  { intros [k l]. cbn [fst snd]. rewrite filter_In, andb_true_iff, sel_iff, beq_eq. unfold link_stored. rewrite (dget_In_iff (t_links t) k l Wl). cbn [snd]. tauto. }
  exists (map snd reps). repeat match goal with |- _ /\ _ => split end.
  - intros l Hl. apply in_map_iff in Hl. destruct Hl as (q & <- & Hq). apply H1, In_L in Hq. exists (fst q). exact Hq.
  - intros l (k & E & T & C). destruct (H3 (k, l)) as (q & Hq & Eq); [apply In_L; auto|]. exists (snd q). split; [now apply in_map|]. apply H1, In_L in Hq. apply (same_link_iff k l (fst q) (snd q)); [exact E|tauto|exact Eq].
  - intros i j x y Hi Hj S. rewrite nth_error_map in Hi, Hj. destruct (nth_error reps i) as [q|] eqn:Ei; [|discriminate]. destruct (nth_error reps j) as [q'|] eqn:Ej; [|discriminate].
    cbn in Hi, Hj. injection Hi as <-. injection Hj as <-. pose proof (proj1 (In_L q) (H1 _ (nth_error_In _ _ Ei))) as (S1 & _). pose proof (proj1 (In_L q') (H1 _ (nth_error_In _ _ Ej))) as (S2 & _).
    apply (same_link_iff _ _ _ _ S1 S2) in S. rewrite NoDup_nth_error in H2. apply H2.
    + rewrite map_length. apply nth_error_Some. congruence.
    + rewrite !nth_error_map, Ei, Ej. cbn. now rewrite S.
  - rewrite map_length. exact H4.
Qed.
End Counts.

(** *** positions *)
Section Places.
Variables (t : topo) (W : well_formed t) (sub : option (dict string nat)) (ty : site_type).
Notation groups := (get_colocated_sites t).
Definition qual (i : string) : bool := match dget (t_sites t) i with Some s => in_subset sub i && beq (s_type s) ty | None => false end.
Definition size (g : Z * Z * Z * list string) : nat := List.length (filter qual (snd g)).
Lemma groups_wf : dwf groups.
Proof.
  unfold get_colocated_sites. assert (G : forall d acc, dwf acc -> dwf (fold_left (fun acc (p : string * site) => dappend acc (s_loc (snd p)) (fst p)) d acc)); [|apply G; constructor].
  induction d as [|p d IH]; intros acc Wa; cbn; [exact Wa|]. apply IH. unfold dappend. now apply dwf_set.
Qed.
Lemma groups_get c g : In (c, g) groups <-> g = at_loc c (t_sites t) /\ g <> [].
Proof.
  rewrite <- (dget_In_iff groups c g groups_wf). unfold get_colocated_sites. rewrite colocated_fold. cbn [dget]. destruct (at_loc c (t_sites t)); split; intros H; try discriminate; try (destruct H; congruence).
  injection H as <-. split; [reflexivity|discriminate].
Qed.
Lemma at_loc_In c i : In i (at_loc c (t_sites t)) <-> exists s, dget (t_sites t) i = Some s /\ s_loc s = c.
Proof.
  unfold at_loc. rewrite in_map_iff. split.
  - intros ([j s] & <- & H). apply filter_In in H. destruct H as [H1 H2]. apply beq_true in H2. exists s. split; [apply In_dget; [apply W|exact H1]|exact H2].
  - intros (s & E & <-). exists (i, s). split; [reflexivity|]. apply filter_In. split; [now apply dget_In|apply beq_refl].
Qed.
Lemma at_loc_NoDup c : NoDup (at_loc c (t_sites t)).
Proof. unfold at_loc. apply NoDup_map_filter. apply W. Qed.
Definition sum_n (l : list nat) : nat := fold_right Nat.add 0 l.
Lemma flat_length {A B} (f : A -> list B) l : List.length (flat_map f l) = sum_n (map (fun x => List.length (f x)) l).
Proof. induction l as [|x l IH]; [reflexivity|]. cbn. rewrite app_length. now rewrite IH. Qed.
Lemma groups_sum : List.length (filter (fun q => qual (fst q)) (t_sites t)) = sum_n (map size groups).
Proof.
  unfold size. rewrite <- (flat_length (fun g => filter qual (snd g))). rewrite <- (map_length fst). apply Permutation_length. apply NoDup_Permutation.
  - apply NoDup_map_filter. apply W.
  - apply NoDup_flat.
    + apply (NoDup_map_inv fst), groups_wf.
    + intros [c g] H. apply groups_get in H. destruct H as [-> _]. apply NoDup_filter, at_loc_NoDup.
    + intros [c g] [c' g'] i H H' F F'. apply groups_get in H, H'. destruct H as [-> _], H' as [-> _]. cbn [snd] in F, F'. apply filter_In in F, F'. destruct F as [F _], F' as [F' _].
      apply at_loc_In in F, F'. destruct F as (s & E & L), F' as (s' & E' & L'). assert (Ec : c = c') by congruence. now rewrite Ec.
  - intros i. rewrite in_map_iff, in_flat_map. split.
    + intros ([j s] & <- & H). apply filter_In in H. destruct H as [H Q]. cbn [fst] in Q |- *. apply In_dget in H; [|apply W]. exists (s_loc s, at_loc (s_loc s) (t_sites t)).
      assert (I : In j (at_loc (s_loc s) (t_sites t))) by (apply at_loc_In; eauto). split; [apply groups_get; split; [reflexivity|intros E; rewrite E in I; destruct I]|]. cbn [snd]. apply filter_In. auto.
    + intros ([c g] & H & F). apply groups_get in H. destruct H as [-> _]. cbn [snd] in F. apply filter_In in F. destruct F as [F Q]. apply at_loc_In in F. destruct F as (s & E & _).
      exists (i, s). split; [reflexivity|]. apply filter_In. split; [now apply dget_In|exact Q].
Qed.
Lemma redundant_sum : redundant t sub ty = Z.of_nat (sum_n (map (fun g => (size g - 1)%nat) groups)).
Proof.
  unfold redundant. fold qual. assert (G : forall L acc, fold_left (fun acc (g : Z * Z * Z * list string) => let v := Z.of_nat (List.length (filter qual (snd g))) in if (1 <? v)%Z then (acc + (v - 1))%Z else acc) L acc = (acc + Z.of_nat (sum_n (map (fun g => (size g - 1)%nat) L)))%Z).
  { induction L as [|g L IH]; intros acc; cbn [fold_left map sum_n fold_right]; [lia|]. fold (sum_n (map (fun g => (size g - 1)%nat) L)). rewrite IH. cbv zeta. fold (size g).
    destruct (Z.ltb_spec 1 (Z.of_nat (size g))); lia. }
  apply G.
Qed.
Lemma nonempty_count L : (Z.of_nat (sum_n (map size L)) - Z.of_nat (sum_n (map (fun g => (size g - 1)%nat) L)) = Z.of_nat (List.length (filter (fun g => Nat.ltb 0 (size g)) L)))%Z.
Proof.
  induction L as [|g L IH]; [reflexivity|]. cbn [map sum_n fold_right filter]. fold (sum_n (map size L)). fold (sum_n (map (fun g => (size g - 1)%nat) L)). destruct (Nat.ltb_spec 0 (size g)); cbn [List.length]; lia.
Qed.
Definition qualifies (c : Z * Z * Z) : Prop := exists i s, dget (t_sites t) i = Some s /\ s_type s = ty /\ s_loc s = c /\ in_subset sub i = true.
Lemma places_card : cardZ qualifies (Z.of_nat (List.length (filter (fun q => qual (fst q)) (t_sites t))) - redundant t sub ty).
Proof.
  rewrite redundant_sum, groups_sum, nonempty_count. eexists. split; [reflexivity|].
  exists (map fst (filter (fun g => Nat.ltb 0 (size g)) groups)). split; [apply NoDup_map_filter, groups_wf|]. split; [|apply map_length].
  intros c. rewrite in_map_iff. split.
  - intros ([c' g] & <- & H). apply filter_In in H. destruct H as [H S]. apply groups_get in H. destruct H as [-> _]. cbn [fst]. apply Nat.ltb_lt in S. unfold size in S. cbn [snd] in S.
    destruct (filter qual (at_loc c' (t_sites t))) as [|i r] eqn:F; [cbn in S; lia|]. assert (I : In i (filter qual (at_loc c' (t_sites t)))) by (rewrite F; now left). apply filter_In in I. destruct I as [I Q].
    apply at_loc_In in I. destruct I as (s & E & L). unfold qual in Q. rewrite E in Q. apply andb_true_iff in Q. destruct Q as [Q1 Q2]. apply beq_true in Q2. exists i, s. auto.
  - intros (i & s & E & T & L & Q). exists (c, at_loc c (t_sites t)). split; [reflexivity|]. assert (I : In i (at_loc c (t_sites t))) by (apply at_loc_In; eauto).
    apply filter_In. split; [apply groups_get; split; [reflexivity|intros F; rewrite F in I; destruct I]|]. apply Nat.ltb_lt. unfold size. cbn [snd].
    assert (I' : In i (filter qual (at_loc c (t_sites t)))) by (apply filter_In; split; [exact I|]; unfold qual; now rewrite E, Q, T, beq_refl).
    destruct (filter qual (at_loc c (t_sites t))); [destruct I'|cbn; lia].
Qed.
End Places.
Section Totals.
Variables (t : topo) (W : well_formed t).
Lemma cardZ_ext {A} (P Q : A -> Prop) z : (forall x, P x <-> Q x) -> cardZ P z -> cardZ Q z.
Proof. intros H (n & E & C). exists n. split; [exact E|]. eapply card_ext; eauto. Qed.
Lemma sites_qual ty : sites_of_type t false ty = List.length (filter (fun q => qual t None ty (fst q)) (t_sites t)).
Proof.
  unfold sites_of_type. f_equal. assert (Ws : dwf (t_sites t)) by apply W. apply filter_ext_in. intros [i s] H. unfold qual, in_subset. cbn [fst snd]. apply In_dget in H; [|exact Ws]. now rewrite H.
Qed.
Lemma total_card ty : cardZ (fun c => a_place t false (c, ty)) (total_of t ty).
Proof.
  unfold total_of. rewrite sites_qual. eapply cardZ_ext; [|apply places_card, W]. intros c. unfold qualifies, a_place, in_subset. cbn [fst snd].
  split; intros (i & s & H); exists i, s; intuition discriminate.
Qed.
Lemma connectable_card h ty : (forall i n, dget h i = Some n <-> shortest t usable i n) -> (forall i, dget h i = None <-> forall n, ~ route t usable i n) ->
  cardZ (fun c => a_place t true (c, ty)) (connectable t h ty).
Proof.
  intros H1 H2. unfold connectable.
  assert (E : filter (fun q => beq (s_type (snd q)) ty && dmem h (fst q)) (t_sites t) = filter (fun q => qual t (Some h) ty (fst q)) (t_sites t)).
  { assert (Ws : dwf (t_sites t)) by apply W. apply filter_ext_in. intros [i s] H. unfold qual, in_subset. cbn [fst snd]. apply In_dget in H; [|exact Ws]. rewrite H. apply andb_comm. }
  rewrite E. eapply cardZ_ext; [|apply places_card, W]. intros c. unfold qualifies, a_place, in_subset. cbn [fst snd].
  assert (R : forall i, dmem h i = true <-> exists n, route t usable i n).
  { intros i. rewrite dmem_Some. split; [intros [n E']; apply H1 in E'; exists n; apply E'|]. intros [n R]. destruct (dget h i) eqn:F; [eauto|]. exfalso. exact (proj1 (H2 i) F n R). }
  split; intros (i & s & A & B & C & D); exists i, s; (split; [exact A|]); (split; [exact B|]); (split; [exact C|]); [intros _; now apply R|apply R, D; reflexivity].
Qed.
Lemma cardZ_add {A} (P Q : A -> Prop) a b : cardZ P a -> cardZ Q b -> (forall x, P x -> Q x -> False) -> cardZ (fun x => P x \/ Q x) (a + b).
Proof. intros (n & -> & C) (m & -> & C') D. exists (n + m). split; [lia|]. now apply card_or. Qed.
Lemma cardZ_tag ty z : cardZ (fun c => a_place t false (c, ty)) z -> cardZ (fun q => a_place t false q /\ snd q = ty) z.
Proof.
  intros (n & -> & C). exists n. split; [reflexivity|]. pose proof (card_map _ (fun c => (c, ty)) _ (fun x y (E : (x, ty) = (y, ty)) => f_equal fst E) C) as C1.
  eapply card_ext; [|exact C1]. intros [c ty']. cbn [snd]. split; [intros (x & H & E); injection E as -> ->; auto|intros [H <-]; eauto].
Qed.
Lemma total_sum : cardZ (a_place t false) ((Z.of_nat (sites_of_type t false CN) + Z.of_nat (sites_of_type t false DN) + Z.of_nat (sites_of_type t false POP)) - (redundant t None CN + redundant t None DN + redundant t None POP)).
Proof.
  pose proof (cardZ_tag CN _ (total_card CN)) as C1. pose proof (cardZ_tag DN _ (total_card DN)) as C2. pose proof (cardZ_tag POP _ (total_card POP)) as C3.
  assert (D : cardZ (fun q => ((a_place t false q /\ snd q = CN) \/ (a_place t false q /\ snd q = DN)) \/ (a_place t false q /\ snd q = POP)) (total_of t CN + total_of t DN + total_of t POP)).
  { apply cardZ_add; [apply cardZ_add; [exact C1|exact C2|]|exact C3|]; intros q; intuition congruence. }
  unfold total_of in D. match goal with |- cardZ _ ?z => match type of D with cardZ _ ?z' => replace z with z' by lia end end.
  eapply cardZ_ext; [|exact D]. intros [c ty]. cbn [snd]. destruct ty; intuition congruence.
Qed.

(** *** backup DNs *)
Hypothesis Hs : sectors_stored t.
Lemma occ_two i : Nat.ltb 1 (occ i (cn_links t)) = true <-> has_backup t i.
Proof using W Hs.
  assert (Wl : dwf (t_links t)) by apply W.
  set (good := fun q : string * link => match dget (t_sites t) (l_rx (snd q)), l_sectors (snd q) with
    | Some s, Some (a, _) => beq (s_type s) CN && active (s_status s) && match dget (t_sectors t) (key_id a) with Some x => active (x_status x) | None => false end && beq i (l_rx (snd q))
    | _, _ => false end).
  assert (O : occ i (cn_links t) = List.length (filter good (t_links t))).
  { unfold occ, cn_links. clear Wl. induction (t_links t) as [|q d IH]; [reflexivity|]. cbn [flat_map filter]. rewrite filter_app, app_length, IH. unfold good at 2.
    destruct (dget (t_sites t) (l_rx (snd q))) as [s|]; [|reflexivity]. destruct (l_sectors (snd q)) as [[a b]|]; [|reflexivity].
    destruct (beq (s_type s) CN && active (s_status s) && match dget (t_sectors t) (key_id a) with Some x => active (x_status x) | None => false end); cbn [andb filter]; [|reflexivity].
    destruct (beq i (l_rx (snd q))); reflexivity. }
  assert (G : forall q, In q (filter good (t_links t)) <-> (exists s, dget (t_sites t) i = Some s /\ s_type s = CN /\ is_active (s_status s)) /\ link_stored t (fst q) (snd q) /\ l_rx (snd q) = i /\
     exists a b x, l_sectors (snd q) = Some (a, b) /\ sector_stored t (key_id a) x /\ is_active (x_status x)).
  { intros [k l]. rewrite filter_In. rewrite <- (dget_In_iff (t_links t) k l Wl). unfold good, link_stored, sector_stored. cbn [fst snd]. split.
    - intros [E H]. destruct (dget (t_sites t) (l_rx l)) as [s|] eqn:Es; [|discriminate]. destruct (l_sectors l) as [[a b]|]; [|discriminate]. rewrite !andb_true_iff in H. destruct H as [[[H1 H2] H3] H4].
      apply beq_true in H1, H4. apply act_iff in H2. destruct (dget (t_sectors t) (key_id a)) as [x|] eqn:Ex; [|discriminate]. apply act_iff in H3. subst i. split; [exists s; auto|]. split; [exact E|]. split; [reflexivity|]. exists a, b, x. auto.
    - intros ((s & Es & T & A) & E & R & (a & b & x & S & X & Ax)). split; [exact E|]. rewrite R, Es, S, X, T. apply act_iff in A, Ax. rewrite A, Ax, !beq_refl. reflexivity. }
  assert (N : NoDup (map fst (filter good (t_links t)))) by (apply NoDup_map_filter, Wl).
  rewrite O, Nat.ltb_lt. unfold has_backup, from_active. split.
  - destruct (filter good (t_links t)) as [|q [|q' r]] eqn:F; cbn [List.length]; try lia. intros _.
    pose proof (proj1 (G q) (or_introl eq_refl)) as (S & L1 & R1 & (a & b & x & E1 & E2 & E3)). pose proof (proj1 (G q') (or_intror (or_introl eq_refl))) as (_ & L2 & R2 & (a' & b' & x' & E1' & E2' & E3')).
    split; [exact S|]. exists (fst q), (fst q'). split; [|split; [exists (snd q), a, b, x|exists (snd q'), a', b', x']; auto 8].
    cbn [map] in N. inversion N as [|? ? Nq _]; subst. intros E. apply Nq. left. auto.
  - intros (S & k & k' & Nk & (l & a & b & x & L1 & R1 & E1 & E2 & E3) & (l' & a' & b' & x' & L1' & R1' & E1' & E2' & E3')).
    assert (I1 : In (k, l) (filter good (t_links t))) by (apply G; cbn [fst snd]; split; [exact S|]; split; [exact L1|]; split; [exact R1|]; exists a, b, x; auto).
    assert (I2 : In (k', l') (filter good (t_links t))) by (apply G; cbn [fst snd]; split; [exact S|]; split; [exact L1'|]; split; [exact R1'|]; exists a', b', x'; auto).
    destruct (filter good (t_links t)) as [|q [|q' r]]; cbn [List.length]; [destruct I1| |lia]. destruct I1 as [I1|[]], I2 as [I2|[]]. congruence.
Qed.
Lemma backup_card : card (has_backup t) (cns_with_backup t).
Proof using W Hs.
  unfold cns_with_backup. pose proof (counter_wf (cn_links t)) as Wc.
  assert (E : List.length (filter (fun n => Nat.ltb 1 n) (dvals (counter (cn_links t)))) = List.length (filter (fun q => Nat.ltb 1 (snd q)) (counter (cn_links t)))).
  { unfold dvals. induction (counter (cn_links t)) as [|q d IH]; [reflexivity|]. inversion Wc; subst. cbn [map filter]. destruct (Nat.ltb 1 (snd q)); cbn [List.length]; rewrite IH by assumption; reflexivity. }
  rewrite E. eapply card_ext; [|apply card_filter, Wc]. intros i. cbn [snd]. rewrite <- occ_two. split.
  - intros (n & Hn & H). apply counter_get in Hn. destruct Hn as [-> _]. exact H.
  - intros H. exists (occ i (cn_links t)). split; [|exact H]. apply counter_get. apply Nat.ltb_lt in H. split; [reflexivity|lia].
Qed.
End Totals.

(** *** channels *)
Section Channels.
Variables (channel : string -> Z) (t : topo) (W : well_formed t).
Lemma channel_ok l c : is_active (l_status l) -> (link_channel channel l = Ok c <-> ch_of channel l c /\ forall a b, l_sectors l = Some (a, b) -> channel (key_id a) = channel (key_id b)).
Proof.
  intros A. unfold link_channel, ch_of. apply act_iff in A. rewrite A. destruct (l_sectors l) as [[a b]|].
  - destruct (Z.eqb_spec (channel (key_id a)) (channel (key_id b))) as [E|E]; split.
    + intros H. injection H as <-. split; [reflexivity|]. intros a' b' F. injection F as <- <-. exact E.
    + intros [-> _]. reflexivity.
    + discriminate.
    + intros [_ H]. exfalso. apply E, (H a b eq_refl).
  - split; [intros H; injection H as <-; split; [reflexivity|discriminate]|intros [-> _]; reflexivity].
Qed.
Lemma loop_ok act ls : (forall l a b, In l ls -> l_wireless l = true -> is_active (l_status l) -> l_sectors l = Some (a, b) -> channel (key_id a) = channel (key_id b)) -> forall d, exists r, link_channels channel act ls d = Ok r.
Proof.
  induction ls as [|l ls IH]; intros H d; cbn [link_channels]; [eauto|].
  assert (H' : forall l a b, In l ls -> l_wireless l = true -> is_active (l_status l) -> l_sectors l = Some (a, b) -> channel (key_id a) = channel (key_id b)) by (intros l' a b Hl; apply H; now right).
  destruct (sel act (l_status l) && l_wireless l) eqn:E; [|apply IH; exact H'].
  assert (C : exists c, link_channel channel l = Ok c).
  { apply andb_true_iff in E. destruct E as [_ Ew]. unfold link_channel. destruct (active (l_status l)) eqn:A; [|eauto]. apply act_iff in A. destruct (l_sectors l) as [[a b]|] eqn:S; [|eauto].
    rewrite (H l a b (or_introl eq_refl) Ew A S), Z.eqb_refl. eauto. }
  destruct C as [c ->]. cbn [rbind]. apply IH, H'.
Qed.
Lemma loop_raises act ls : (exists l a b, In l ls /\ l_wireless l = true /\ is_active (l_status l) /\ l_sectors l = Some (a, b) /\ channel (key_id a) <> channel (key_id b)) -> forall d, link_channels channel act ls d = Err TopologyExn.
Proof.
  induction ls as [|l ls IH]; intros H d; cbn [link_channels]; [destruct H as (l & a & b & [] & _)|].
  assert (C : (exists c, link_channel channel l = Ok c) \/ link_channel channel l = Err TopologyExn).
  { unfold link_channel. destruct (active (l_status l)); [|eauto]. destruct (l_sectors l) as [[a b]|]; [|eauto]. destruct (Z.eqb _ _); eauto. }
  destruct H as (l' & a & b & [<-|Hl] & Ew & A & S & N).
  - assert (E : link_channel channel l = Err TopologyExn). { unfold link_channel. apply act_iff in A. rewrite A, S. destruct (Z.eqb_spec (channel (key_id a)) (channel (key_id b))); [contradiction|reflexivity]. }
    assert (Sl : sel act (l_status l) = true) by (apply sel_iff; intros _; exact A). rewrite Sl, Ew, E. reflexivity.
  - assert (IH' : forall d, link_channels channel act ls d = Err TopologyExn) by (apply IH; exists l', a, b; auto).
    destruct (sel act (l_status l) && l_wireless l); [|apply IH']. destruct C as [[c ->]| ->]; cbn [rbind]; [apply IH'|reflexivity].
Qed.
Definition joins (l : link) (q : string * string) : Prop := str_ltb (snd q) (fst q) = false /\ ((l_tx l = fst q /\ l_rx l = snd q) \/ (l_rx l = fst q /\ l_tx l = snd q)).
Lemma joins_iff l q : joins l q <-> sorted_site_ids l = q.
Proof.
  destruct q as [a b]. unfold joins, sorted_site_ids. cbn [fst snd]. destruct (str_ltb (l_tx l) (l_rx l)) eqn:E; split.
  - intros [H [[<- <-]|[<- <-]]]; [reflexivity|congruence].
  - intros F. injection F as <- <-. split; [|auto]. destruct (str_ltb (l_rx l) (l_tx l)) eqn:E'; [|reflexivity]. pose proof (str_ltb_trans _ _ _ E E') as G. rewrite str_ltb_irrefl in G. discriminate.
  - intros [H [[<- <-]|[<- <-]]]; [|reflexivity]. now rewrite (str_ltb_total _ _ E H).
  - intros F. injection F as <- <-. auto.
Qed.
Lemma loop_get ls : forall d r q c, (forall l l' x, In l ls -> In l' ls -> l_wireless l = true -> l_wireless l' = true -> is_active (l_status l) -> is_active (l_status l') -> sorted_site_ids l = sorted_site_ids l' -> ch_of channel l x -> ch_of channel l' x) ->
  link_channels channel true ls d = Ok r ->
  (dget r q = Some c <-> (exists l, In l ls /\ l_wireless l = true /\ is_active (l_status l) /\ sorted_site_ids l = q /\ ch_of channel l c) \/
     ((~ exists l, In l ls /\ l_wireless l = true /\ is_active (l_status l) /\ sorted_site_ids l = q) /\ dget d q = Some c)).
Proof.
  induction ls as [|l ls IH]; intros d r q c Hm; cbn [link_channels].
  - intros E. injection E as <-. split; [intros H; right; split; [intros (l & [] & _)|exact H]|intros [(l & [] & _)|[_ H]]; exact H].
  - assert (Hm' : forall l l' x, In l ls -> In l' ls -> l_wireless l = true -> l_wireless l' = true -> is_active (l_status l) -> is_active (l_status l') -> sorted_site_ids l = sorted_site_ids l' -> ch_of channel l x -> ch_of channel l' x) by (intros l1 l2 x H1 H2; apply Hm; now right).
    destruct (sel true (l_status l) && l_wireless l) eqn:E.
    + apply andb_true_iff in E. destruct E as [A Ew]. apply sel_iff in A. specialize (A eq_refl). intros F. apply rbind_ok in F. destruct F as (c0 & C0 & F). apply channel_ok in C0; [|exact A]. destruct C0 as [C0 _].
      rewrite (IH _ _ q c Hm' F). rewrite dget_set. split.
      * intros [(l' & H1 & H)|[Hno H]]; [left; exists l'; split; [now right|exact H]|]. destruct (beq_spec q (sorted_site_ids l)) as [->|Nq].
        { injection H as <-. left. exists l. split; [now left|auto]. }
        right. split; [|exact H]. intros (l' & [<-|Hl] & H1 & H2 & H3); [congruence|apply Hno; eauto].
      * intros [(l' & [<-|Hl] & H1 & H2 & H3 & H4)|[Hno H]].
        { assert (D : (exists l', In l' ls /\ l_wireless l' = true /\ is_active (l_status l') /\ sorted_site_ids l' = q) \/ ~ exists l', In l' ls /\ l_wireless l' = true /\ is_active (l_status l') /\ sorted_site_ids l' = q).
          { clear - q. induction ls as [|l ls [IH|IH]]; [right; intros (l & [] & _)|left; destruct IH as (l' & ? & ?); exists l'; split; [now right|assumption]|].
            destruct (l_wireless l) eqn:E1; [|right; intros (l' & [<-|Hl] & H1 & H2); [congruence|apply IH; eauto]].
            destruct (active (l_status l)) eqn:E2; [|right; intros (l' & [<-|Hl] & H1 & H2 & H3); [apply act_iff in H2; congruence|apply IH; eauto]].
            destruct (beq_spec (sorted_site_ids l) q) as [E3|E3]; [left; exists l; split; [now left|]; apply act_iff in E2; auto|right; intros (l' & [<-|Hl] & H1 & H2 & H3); [congruence|apply IH; eauto]]. }
          destruct D as [(l' & Hl & D1 & D2 & D3)|D].
          - left. exists l'. split; [exact Hl|]. split; [exact D1|]. split; [exact D2|]. split; [exact D3|]. apply (Hm l l' c); auto; [now left|now right|congruence].
          - right. split; [exact D|]. rewrite <- H3, beq_refl. f_equal. unfold ch_of in C0, H4. destruct (l_sectors l) as [[? ?]|]; congruence. }
        { left. exists l'. auto 6. }
        { right. split; [intros (l' & Hl & H'); apply Hno; exists l'; split; [now right|exact H']|]. destruct (beq_spec q (sorted_site_ids l)) as [->|Nq]; [|exact H]. exfalso. apply Hno. exists l. split; [now left|auto]. }
    + intros F. rewrite (IH _ _ q c Hm' F).
      assert (No : ~ (l_wireless l = true /\ is_active (l_status l))). { intros [H1 H2]. assert (S : sel true (l_status l) = true) by (apply sel_iff; intros _; exact H2). rewrite S, H1 in E. discriminate. }
      split.
      * intros [(l' & Hl & H)|[Hno H]]; [left; exists l'; split; [now right|exact H]|]. right. split; [|exact H]. intros (l' & [<-|Hl] & H1 & H2 & H3); [tauto|apply Hno; eauto].
      * intros [(l' & [<-|Hl] & H1 & H2 & H3)|[Hno H]]; [tauto|left; eauto|]. right. split; [|exact H]. intros (l' & Hl & H'). apply Hno. exists l'. split; [now right|exact H'].
Qed.
Lemma loop_wf act ls : forall d r, dwf d -> link_channels channel act ls d = Ok r -> dwf r.
Proof.
  induction ls as [|l ls IH]; intros d r Wd; cbn [link_channels]; [intros E; injection E as <-; exact Wd|].
  destruct (sel act (l_status l) && l_wireless l); [|now apply IH]. intros E. apply rbind_ok in E. destruct E as (c & _ & E). apply IH in E; [exact E|now apply dwf_set].
Qed.
Lemma radio_In l : (exists k, radio t k l) <-> In l (dvals (t_links t)) /\ l_wireless l = true /\ is_active (l_status l).
Proof.
  assert (Wl : dwf (t_links t)) by apply W. rewrite (In_dvals (t_links t) l Wl). unfold radio, link_stored. split; [intros (k & H)|intros ((k & E) & H)]; [split; [exists k|]; tauto|exists k; tauto].
Qed.
Lemma channels_return act : (channels_match channel t -> exists r, link_counts_by_channel channel t act = Ok r) /\ (~ channels_match channel t -> link_counts_by_channel channel t act = Err TopologyExn).
Proof using W.
  unfold link_counts_by_channel, channels_match. split.
  - intros H. destruct (loop_ok act (dvals (t_links t))) with (d := @nil (string * string * Z)) as [r ->].
    + intros l a b Hl Ew A S. destruct (proj2 (radio_In l) (conj Hl (conj Ew A))) as [k R]. eapply H; eauto.
    + cbn [rbind]. eauto.
  - intros H. rewrite loop_raises; [reflexivity|].
    assert (D : (exists l a b, In l (dvals (t_links t)) /\ l_wireless l = true /\ is_active (l_status l) /\ l_sectors l = Some (a, b) /\ channel (key_id a) <> channel (key_id b)) \/
      forall l a b, In l (dvals (t_links t)) -> l_wireless l = true -> is_active (l_status l) -> l_sectors l = Some (a, b) -> channel (key_id a) = channel (key_id b)).
    { induction (dvals (t_links t)) as [|l ls [IH|IH]]; [right; intros l a b []|left; destruct IH as (l' & a & b & Hl & IH); exists l', a, b; split; [now right|exact IH]|].
      destruct (l_wireless l) eqn:E1; [|right; intros l' a b [<-|Hl]; [congruence|eauto]].
      destruct (active (l_status l)) eqn:E2; [|right; intros l' a b [<-|Hl] F1 F2; [apply act_iff in F2; congruence|eauto]].
      destruct (l_sectors l) as [[a b]|] eqn:E3; [|right; intros l' a b [<-|Hl] F1 F2 F3; [congruence|eauto]].
      destruct (Z.eq_dec (channel (key_id a)) (channel (key_id b))) as [E4|E4]; [right; intros l' a' b' [<-|Hl] F1 F2 F3; [congruence|eauto]|].
      left. exists l, a, b. apply act_iff in E2. split; [now left|auto]. }
    destruct D as [D|D]; [exact D|]. exfalso. apply H. intros k l a b R S. destruct (proj1 (radio_In l) (ex_intro _ k R)) as (H1 & H2 & H3). eapply D; eauto.
Qed.
Lemma occ_vals {K} `{EqB K} (d : dict K Z) c : dwf d -> card (fun k => dget d k = Some c) (occ c (dvals d)).
Proof.
  intros Wd. exists (map fst (filter (fun q => beq c (snd q)) d)). split; [apply NoDup_map_filter, Wd|]. split.
  - intros k. rewrite in_map_iff. split; [intros ([k' v] & <- & H'); apply filter_In in H'; destruct H' as [H1 H2]; apply beq_true in H2; cbn [snd] in H2; subst v; now apply In_dget|].
    intros E. exists (k, c). split; [reflexivity|]. apply filter_In. split; [now apply dget_In|apply beq_refl].
  - rewrite map_length. unfold occ, dvals. clear Wd. induction d as [|q d IH]; [reflexivity|]. cbn [map filter]. destruct (beq c (snd q)); cbn [List.length]; congruence.
Qed.
Lemma card_inj {A} (P : A -> Prop) n m : card P n -> card P m -> n = m.
Proof. intros (l & N & M & <-) (l' & N' & M' & <-). apply Nat.le_antisymm; apply NoDup_incl_length; auto; intros y Hy; [apply M', M, Hy|apply M, M', Hy]. Qed.
Lemma channels_exact r c n : both_ways_match channel t -> link_counts_by_channel channel t true = Ok r -> (dget r c = Some n <-> n > 0 /\ card (on_channel channel t c) n).
Proof using W.
  intros Hb E. unfold link_counts_by_channel in E. apply rbind_ok in E. destruct E as (d & Ed & E). injection E as <-. rewrite counter_get.
  assert (Wd : dwf d) by (apply (loop_wf true (dvals (t_links t)) []); [constructor|exact Ed]).
  assert (C : card (on_channel channel t c) (occ c (dvals d))).
  { eapply card_ext; [|apply occ_vals, Wd]. intros q. rewrite (loop_get (dvals (t_links t)) [] d q c); [|clear q|exact Ed].
    - unfold on_channel. split.
      + intros [(l & Hl & H1 & H2 & H3 & H4)|[_ F]]; [|discriminate]. destruct (proj2 (radio_In l) (conj Hl (conj H1 H2))) as [k R]. apply joins_iff in H3. exists k, l. auto.
      + intros (k & l & R & H & J). left. exists l. destruct (proj1 (radio_In l) (ex_intro _ k R)) as (H1 & H2 & H3). repeat match goal with |- _ /\ _ => split end; auto. now apply joins_iff.
    - intros l l' x H1 H2 H3 H4 H5 H6 S X. destruct (proj2 (radio_In l) (conj H1 (conj H3 H5))) as [k R]. destruct (proj2 (radio_In l') (conj H2 (conj H4 H6))) as [k' R'].
      assert (J : joins l (sorted_site_ids l')) by now apply joins_iff. assert (J' : joins l' (sorted_site_ids l')) by now apply joins_iff.
      assert (Same : l_tx l = l_tx l' -> l_rx l = l_rx l' -> ch_of channel l' x).
      { intros T1 T2. destruct R as (E1 & _), R' as (E2 & _). destruct W as (_ & _ & _ & _ & _ & _ & Cl & _). destruct (Cl _ _ E1) as (K1 & _). destruct (Cl _ _ E2) as (K2 & _).
        assert (k = k') by (rewrite K1, K2; unfold l_id; congruence). subst k'. unfold link_stored in *. assert (l = l') by congruence. now subst. }
      destruct J as [_ [[A1 A2]|[A1 A2]]], J' as [_ [[B1 B2]|[B1 B2]]]; [apply Same; congruence|apply (Hb k l k' l' x R R'); congruence|apply (Hb k l k' l' x R R'); congruence|apply Same; congruence]. }
  split; [intros [-> H]; auto|]. intros [H C']. split; [apply (card_inj _ _ _ C' C)|exact H].
Qed.
End Channels.

(** *** the whole report *)
Section Report.
Variables (hash : Z * Z * Z -> string) (sku : string -> string) (channel : string -> Z) (t : topo).
Hypothesis (W : well_formed t) (Hd : forall c, no_dash (hash c)) (Hs : sectors_stored t).
Lemma report_returns : (channels_match channel t -> exists r, count_topology_components hash sku channel t = Ok r) /\
  (~ channels_match channel t -> count_topology_components hash sku channel t = Err TopologyExn).
Proof using W.
  unfold count_topology_components. split; intros H.
  - destruct (proj1 (channels_return channel t W true) H) as [ch ->]. destruct (proj1 (channels_return channel t W false) H) as [ch' ->]. cbn [rbind].
    destruct (hops_exact t usable W) as (h & Eh & _). unfold usable in Eh. rewrite Eh. cbn [rbind]. eauto.
  - now rewrite (proj2 (channels_return channel t W true) H).
Qed.
Lemma report_inv c sk ch : count_topology_components hash sku channel t = Ok (c, sk, ch) ->
  exists h, hops_from_pops t usable = Ok h /\ link_counts_by_channel channel t true = Ok ch /\ sk = site_counts_by_sku sku t true /\
  c = mkCounts
        (sites_of_type t true CN + sites_of_type t true DN + sites_of_type t true POP)
        ((Z.of_nat (sites_of_type t false CN) + Z.of_nat (sites_of_type t false DN) + Z.of_nat (sites_of_type t false POP)) - (redundant t None CN + redundant t None DN + redundant t None POP))
        (sites_of_type t true POP) (total_of t POP) (sites_of_type t true DN) (total_of t DN)
        (sites_of_type t true CN) (connectable t h DN) (connectable t h CN) (total_of t CN) (cns_with_backup t)
        (demand_connected t true POP) (demand_connected t true DN) (demand_connected t true CN)
        (nodes_of_type t true false + nodes_of_type t true true) (nodes_of_type t false false + nodes_of_type t false true)
        (nodes_of_type t true false) (nodes_of_type t false false) (nodes_of_type t true true) (nodes_of_type t false true)
        (sectors_of_type t true false + sectors_of_type t true true) (sectors_of_type t false false + sectors_of_type t false true)
        (dn_sectors_on_pops t true) (Z.of_nat (sectors_of_type t true false) - Z.of_nat (dn_sectors_on_pops t true)) (sectors_of_type t true true)
        (links_of_type hash t true WIRELESS_BACKHAUL) (links_of_type hash t false WIRELESS_BACKHAUL) (links_of_type hash t true WIRELESS_ACCESS) (links_of_type hash t false WIRELESS_ACCESS)
        (links_of_type hash t true ETHERNET) (links_of_type hash t false ETHERNET).
Proof using.
  unfold count_topology_components. intros E. apply rbind_ok in E. destruct E as (ch' & E1 & E). apply rbind_ok in E. destruct E as (ch'' & _ & E). apply rbind_ok in E. destruct E as (h & Eh & E).
  injection E as E3 E4 E5. subst ch'. exists h. split; [exact Eh|]. split; [exact E1|]. split; [now symmetry|now symmetry].
Qed.
End Report.
