(** Proofs about the links of a candidate topology file. *)
From Coq Require Import QArith Permutation.
From Verif Require Import Base Dict MonadLib SetupModel LosRangeModel StatusModel LosTopoProofs TopologyModel TopologySpec LinkMapModel LinkMapSpec.
From Verif Require TopologyProofs TopologyLemmas.
Local Open Scope string_scope.
Local Open Scope list_scope.

Lemma compat_allowed a b st : link_compat a b st = true <-> allowed a b st.
Proof.
  split.
  - destruct a, b, st; vm_compute; intros E; try discriminate E; (split; [|split; [|split]]); intros H; try discriminate H;
      try (destruct H as [H|H]; discriminate H); try (split; discriminate); try (split; reflexivity); reflexivity.
  - intros (H1 & H2 & H3 & H4). destruct st; try destruct (H1 eq_refl) as [-> ->]; try reflexivity; destruct a, b; try reflexivity; exfalso;
      try (first [specialize (H2 (or_introl eq_refl))|specialize (H2 (or_intror eq_refl))]; discriminate H2);
      try (first [specialize (H3 (or_introl eq_refl))|specialize (H3 (or_intror eq_refl))]; discriminate H3);
      first [destruct (H4 (or_introl eq_refl)) as [A B]|destruct (H4 (or_intror eq_refl)) as [A B]]; first [now apply A|now apply B].
Qed.

Definition item := (site * site * option raw)%type.
Definition st_of (o : option raw) : status := match o with None => CANDIDATE | Some r => rw_status r end.
Definition wireless_of (o : option raw) : bool := match o with None => true | Some r => negb (beq (rw_type r) ETHERNET) end.
Definition step (t : topo) (i : item) : result topo := add_between t (fst (fst i)) (snd (fst i)) (snd i).
Definition the_link (x y : site) (st : status) : link := mkLink (s_id x) (s_id y) true (beq (s_type y) CN) None st.
(** the items may all be done *)
Definition good (l : list item) : Prop :=
  forall x y o, In (x, y, o) l -> s_type x <> CN -> allowed (s_status x) (s_status y) (st_of o) /\ forall o', In (x, y, o') l -> st_of o' = st_of o.

Section Steps.
Variable t0 : topo.
Definition fits (i : item) : Prop := known t0 (fst (fst i)) /\ known t0 (snd (fst i)) /\ wireless_of (snd i) = true.
(** what is stored after some items *)
Definition G (t : topo) (done : list item) : Prop :=
  reachable t /\ t_sites t = t_sites t0
  /\ forall k l, link_stored t k l <-> exists x y o, In (x, y, o) done /\ s_type x <> CN /\ l = the_link x y (st_of o) /\ k = l_id l.
Definition uniform (l : list item) : Prop := (forall i, In i l -> snd i <> None) \/ (forall i, In i l -> snd i = None).

Lemma known_stored t s : t_sites t = t_sites t0 -> known t0 s -> site_stored t (s_id s).
Proof. intros E K. exists s. rewrite E. exact K. Qed.
Lemma known_inj x y : known t0 x -> known t0 y -> s_id x = s_id y -> x = y.
Proof. unfold known. intros A B E. rewrite E in A. congruence. Qed.
Lemma reach_app ops o t : reachable t -> Forall op_ok ops -> o = run ops t -> reachable o.
Proof. intros (p & A & ->) B ->. exists (p ++ ops). split; [apply Forall_app; auto|]. unfold run. now rewrite fold_left_app. Qed.

(** the stored link between two known sites *)
Lemma stored_between t done x y : G t done -> Forall fits done -> known t0 x -> known t0 y ->
  exists o, get_link_by_site_ids t (s_id x) (s_id y) = Ok o
    /\ match o with
       | None => s_type x <> CN -> forall o', ~ In (x, y, o') done
       | Some l => s_type x <> CN /\ exists o', In (x, y, o') done /\ l = the_link x y (st_of o')
       end.
Proof.
  intros (R & Es & Hg) F Kx Ky.
  destruct (proj1 (TopologyLemmas.get_link_exact t (s_id x) (s_id y) R)) as (o & Eo & Ho); [split; now apply known_stored|].
  exists o. split; [exact Eo|]. destruct o as [l|].
  - destruct (proj1 (Ho l) eq_refl) as (k & Hk & A & B). apply Hg in Hk. destruct Hk as (x' & y' & o' & Hin & Ht & -> & _).
    cbn in A, B. rewrite Forall_forall in F. pose proof (F _ Hin) as (Kx' & Ky' & _). cbn in Kx', Ky'.
    apply known_inj in A; [|assumption..]. apply known_inj in B; [|assumption..]. subst x' y'. eauto.
  - intros Ht o' Hin. assert (N : None = Some (the_link x y (st_of o'))); [|discriminate].
    apply Ho. exists (l_id (the_link x y (st_of o'))). split; [|split; reflexivity]. apply Hg. exists x, y, o'. auto.
Qed.

Lemma add_stored t done x y st : G t done -> known t0 x -> known t0 y ->
  exists t', add_link (the_link x y st) t = (Ok tt, t') /\ reachable t' /\ t_sites t' = t_sites t0
    /\ forall k l, link_stored t' k l <-> (k = l_id (the_link x y st) /\ l = the_link x y st) \/ (k <> l_id (the_link x y st) /\ link_stored t k l).
Proof.
  intros (R & Es & Hg) Kx Ky. eexists. split.
  - unfold add_link. cbn [the_link l_tx l_rx]. rewrite Es. unfold known in Kx, Ky. rewrite (proj2 (dmem_Some _ _) (ex_intro _ _ Kx)), (proj2 (dmem_Some _ _) (ex_intro _ _ Ky)). reflexivity.
  - split; [|split].
    + apply (reach_app [AddLink (the_link x y st)] _ t R); [repeat constructor|]. unfold run. cbn [fold_left run_op snd].
      unfold add_link. cbn [the_link l_tx l_rx]. rewrite Es. unfold known in Kx, Ky. rewrite (proj2 (dmem_Some _ _) (ex_intro _ _ Kx)), (proj2 (dmem_Some _ _) (ex_intro _ _ Ky)). reflexivity.
    + exact Es.
    + intros k l. unfold link_stored. cbn [set_rconn set_conn set_links t_links]. rewrite dget_set. destruct (beq_spec k (l_id (the_link x y st))) as [E|N].
      * split; [intros H; left; split; congruence|]. intros [[_ ->]|[N _]]; [reflexivity|contradiction].
      * split; [intros H; right; auto|]. intros [[E _]|[_ H]]; [contradiction|exact H].
Qed.

(** two items give the same link id only when they join the same sites *)
Lemma id_same t done x y x' y' st st' : G t done -> known t0 x -> known t0 y -> known t0 x' -> known t0 y' ->
  l_id (the_link x y st) = l_id (the_link x' y' st') -> x = x' /\ y = y'.
Proof.
  intros (R & Es & _) A B C D E. assert (HI := TopologyProofs.inv_reachable t R). unfold l_id in E. cbn in E.
  assert (ND : forall s, known t0 s -> TopologySpec.no_dash (s_id s)).
  { intros s K. apply (TopologyProofs.site_no_dash t _ HI). apply dmem_Some. exists s. rewrite Es. exact K. }
  apply TopologyProofs.link_id_inj in E; [|auto..]. destruct E as [E1 E2]. split; now apply known_inj.
Qed.

Lemma step_spec t done i : G t done -> good done -> Forall fits done -> fits i -> uniform (done ++ [i]) ->
  match step t i with
  | Ok t' => G t' (done ++ [i]) /\ good (done ++ [i])
  | Err e => ~ good (done ++ [i]) /\ (e = DataExn \/ e = TopologyExn)
  end.
Proof.
  intros HG HD HF (Kx & Ky & W) HU. destruct i as [[x y] o]. cbn [fst snd] in *. unfold step, add_between. cbn [fst snd].
  destruct (stored_between t done x y HG HF Kx Ky) as (e & -> & He). cbn [rbind].
  assert (MEM : forall a b c, In (a, b, c) (done ++ [(x, y, o)]) <-> In (a, b, c) done \/ (a = x /\ b = y /\ c = o)).
  { intros a b c. rewrite in_app_iff. cbn [In]. split; [intros [H|[H|[]]]; [auto|]; right; now injection H|]. intros [H|(-> & -> & ->)]; auto. }
  destruct e as [l|].
  - (* the link is there *)
    destruct He as (Ht & o' & Hin & ->).
    assert (SAME : st_of o' = st_of o -> G t (done ++ [(x, y, o)]) /\ good (done ++ [(x, y, o)])).
    { intros E. split.
      - destruct HG as (R & Es & Hg). split; [exact R|]. split; [exact Es|]. intros k l. rewrite Hg. split.
        + intros (a & b & c & H & HH). exists a, b, c. split; [apply MEM; now left|exact HH].
        + intros (a & b & c & H & HH). apply MEM in H. destruct H as [H|(-> & -> & ->)]; [exists a, b, c; auto|]. exists x, y, o'. rewrite E. auto.
      - intros a b c H Ha. apply MEM in H.
        assert (H' : exists c', In (a, b, c') done /\ st_of c' = st_of c). { destruct H as [H|(-> & -> & ->)]; [eauto|]. exists o'. auto. }
        destruct H' as (c' & Hc' & Ec). destruct (HD a b c' Hc' Ha) as [A B]. rewrite <- Ec. split; [exact A|]. intros d Hd. apply MEM in Hd.
        destruct Hd as [Hd|(-> & -> & ->)]; [now apply B|]. rewrite <- E. now apply B. }
    destruct o as [r|].
    + cbn [the_link l_status]. destruct (beq_spec (st_of o') (rw_status r)) as [E|N]; [now apply SAME|]. split; [|now left].
      intros Hg. destruct (Hg x y o') as [_ B]; [apply MEM; now left|exact Ht|]. apply N. symmetry. apply (B (Some r)). apply MEM. auto.
    + apply SAME. assert (Eo : o' = None); [|now subst]. destruct HU as [HU|HU].
      * exfalso. apply (HU (x, y, None)); [apply in_or_app; right; now left|reflexivity].
      * apply (HU (x, y, o')). apply in_or_app. now left.
  - (* it is not *)
    destruct (beq_spec (s_type x) CN) as [Ec|Hc].
    + split.
      * destruct HG as (R & Es & Hg). split; [exact R|]. split; [exact Es|]. intros k l. rewrite Hg. split.
        -- intros (a & b & c & H & HH). exists a, b, c. split; [apply MEM; now left|exact HH].
        -- intros (a & b & c & H & HH). apply MEM in H. destruct H as [H|(-> & -> & ->)]; [exists a, b, c; auto|]. destruct HH as [N _]. contradiction.
      * intros a b c H Ha. apply MEM in H. destruct H as [H|(-> & -> & ->)]; [|contradiction]. destruct (HD a b c H Ha) as [A B]. split; [exact A|].
        intros d Hd. apply MEM in Hd. destruct Hd as [Hd|(-> & -> & ->)]; [now apply B|contradiction].
    + specialize (He Hc).
      assert (EM : (let '(st, wireless) := match o with None => (CANDIDATE, true) | Some r => (rw_status r, negb (beq (rw_type r) ETHERNET)) end in
                    do l <- make_link x y st wireless ; value_of (add_link l t))
                   = do l <- make_link x y (st_of o) true ; value_of (add_link l t)).
      { destruct o as [r|]; [|reflexivity]. cbn in W. cbn. now rewrite W. }
      rewrite EM. clear EM. unfold make_link. rewrite (proj2 (beq_neq _ _) Hc). cbn [negb guard rbind].
      destruct (link_compat (s_status x) (s_status y) (st_of o)) eqn:EC; cbn [guard rbind].
      * destruct (add_stored t done x y (st_of o) HG Kx Ky) as (t' & Et' & R' & Es' & Hs'). fold (the_link x y (st_of o)). unfold value_of. rewrite Et'. cbn [fst snd]. split.
        -- split; [exact R'|]. split; [exact Es'|]. intros k l. rewrite Hs'. destruct HG as (R & Es & Hg). split.
           ++ intros [[-> ->]|[N H]].
              ** exists x, y, o. split; [apply MEM; auto|]. auto.
              ** apply Hg in H. destruct H as (a & b & c & H & HH). exists a, b, c. split; [apply MEM; now left|exact HH].
           ++ intros (a & b & c & H & Ha & El & Ek). apply MEM in H. destruct H as [H|(Ea & Eb & Ec)]; [|subst a b c; left; subst l; auto]. right. split.
              ** intros E. rewrite Ek, El in E. rewrite Forall_forall in HF. destruct (HF _ H) as (Ka & Kb & _). cbn in Ka, Kb.
                 destruct (id_same t done a b x y _ _ (conj R (conj Es Hg)) Ka Kb Kx Ky E) as [-> ->]. now apply (He c).
              ** apply Hg. exists a, b, c. auto.
        -- apply compat_allowed in EC. intros a b c H Ha. apply MEM in H. destruct H as [H|(Ea & Eb & Ec)].
           ++ destruct (HD a b c H Ha) as [A B]. split; [exact A|]. intros d Hd. apply MEM in Hd. destruct Hd as [Hd|(-> & -> & ->)]; [now apply B|]. exfalso. now apply (He c).
           ++ subst a b c. split; [exact EC|]. intros d Hd. apply MEM in Hd. destruct Hd as [Hd|(_ & _ & ->)]; [|reflexivity]. exfalso. now apply (He d).
      * split; [|now right]. intros Hg. destruct (Hg x y o) as [A _]; [apply MEM; auto|exact Hc|]. apply compat_allowed in A. congruence.
Qed.

Lemma good_prefix l m : good (l ++ m) -> good l.
Proof. intros H x y o Hin Ht. destruct (H x y o (in_or_app _ _ _ (or_introl Hin)) Ht) as [A B]. split; [exact A|]. intros o' Ho'. apply B, in_or_app. now left. Qed.

Lemma steps_spec l : forall t done, G t done -> good done -> Forall fits (done ++ l) -> uniform (done ++ l) ->
  match foldM step t l with
  | Ok t' => G t' (done ++ l) /\ good (done ++ l)
  | Err e => ~ good (done ++ l) /\ (e = DataExn \/ e = TopologyExn)
  end.
Proof.
  induction l as [|i l IH]; intros t done HG HD HF HU; [cbn; rewrite app_nil_r; auto|]. cbn [foldM].
  assert (EA : done ++ i :: l = (done ++ [i]) ++ l) by now rewrite <- app_assoc.
  assert (Fi : fits i). { rewrite Forall_forall in HF. apply HF, in_or_app. right. now left. }
  assert (Fd : Forall fits done). { apply Forall_app in HF. tauto. }
  assert (Ui : uniform (done ++ [i])). { rewrite EA in HU. destruct HU as [HU|HU]; [left|right]; intros j Hj; apply HU, in_or_app; now left. }
  pose proof (step_spec t done i HG HD Fd Fi Ui) as S1. destruct (step t i) as [t1|e]; cbn [rbind].
  - destruct S1 as [HG1 HD1]. rewrite EA. apply IH; [exact HG1|exact HD1|now rewrite <- EA|now rewrite <- EA].
  - destruct S1 as [N E]. split; [|exact E]. intros Hg. apply N. rewrite EA in Hg. now apply good_prefix in Hg.
Qed.
End Steps.
