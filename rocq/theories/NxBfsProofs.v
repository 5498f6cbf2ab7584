(** A breadth-first search, which shows that the assumptions made about the shortest-path functions of networkx can be met. *)
From Coq Require Import ZArith Lia.
From Verif Require Import Base Dict MonadLib SetupModel LosRangeModel TopologyModel TopologySpec TopologyLemmas TopologyProofs GraphSpec GraphProofs NxModel NxSpec NxProofs NxFailProofs NxBuildProofs NxPathProofs.
Local Open Scope list_scope.

Definition bfs_add (a : dict string (list string)) (q : list string * string) : dict string (list string) :=
  if dmem a (snd q) then a else dset a (snd q) (fst q ++ [snd q]).
Definition bfs_steps (g : graph) (a : dict string (list string)) : list (list string * string) :=
  flat_map (fun q => map (fun v => (snd q, v)) (dkeys (row (g_adj g) (fst q)))) a.
Fixpoint bfs_rounds (g : graph) (n : nat) : dict string (list string) :=
  match n with
  | O => [(SUPERSOURCE, [SUPERSOURCE])]
  | S n => let a := bfs_rounds g n in fold_left bfs_add (bfs_steps g a) a
  end.
Definition bfs (g : graph) : dict string (list string) := bfs_rounds g (List.length (g_nodes g)).

Section Bfs.
Variable g : graph.
Hypothesis G : graph_ok g.
Hypothesis Hs : node g SUPERSOURCE.
Definition good (d : string) (p : list string) : Prop := (d = SUPERSOURCE /\ p = [SUPERSOURCE]) \/ path_to (arc g) d p.
Definition short (d : string) (p : list string) : Prop := forall p', path_to (arc g) d p' -> List.length p <= List.length p'.
Inductive walk : string -> nat -> Prop :=
| walk_here : walk SUPERSOURCE 0
| walk_arc u v n : walk u n -> arc g u v -> walk v (S n).
Lemma follows_walk q : forall x d n, walk x n -> follows (arc g) (x :: q ++ [d]) -> walk d (n + S (List.length q)).
Proof.
  induction q as [|y q IH]; intros x d n Hw F; cbn [app List.length] in *.
  - destruct F as [F _]. rewrite Nat.add_1_r. now apply (walk_arc x).
  - destruct F as [F F']. replace (n + S (S (List.length q))) with (S n + S (List.length q)) by lia. apply (IH y); [now apply (walk_arc x)|exact F'].
Qed.
Lemma path_walk d p : path_to (arc g) d p -> walk d (List.length p - 1).
Proof.
  intros (q & -> & _ & F). cbn [List.length]. rewrite app_length. cbn [List.length]. replace (S (List.length q + 1) - 1) with (0 + S (List.length q)) by lia. apply (follows_walk q SUPERSOURCE); [constructor|exact F].
Qed.
Definition level (n : nat) (a : dict string (list string)) : Prop :=
  dwf a /\ (forall d p, dget a d = Some p -> good d p /\ List.length p <= S n /\ short d p /\ forall x, In x p -> exists p', dget a x = Some p') /\
  (forall x m, walk x m -> m <= n -> exists p, dget a x = Some p).
Lemma good_snoc u p v : good u p -> ~ In v p -> arc g u v -> good v (p ++ [v]).
Proof.
  intros [[-> ->]|(q & -> & Nd & F)] Hv Ha; right.
  - exists []. split; [reflexivity|]. split; [constructor; [intros [X|[]]; apply Hv; now left|repeat constructor; intros []]|]. split; [exact Ha|exact I].
  - exists (q ++ [u]). split; [reflexivity|]. split.
    + change (NoDup ((SUPERSOURCE :: q ++ [u]) ++ [v])). apply NoDup_app_iff. split; [exact Nd|]. split; [repeat constructor; intros []|]. intros x Hx [<-|[]]. contradiction.
    + change (follows (arc g) ((SUPERSOURCE :: q ++ [u]) ++ [v])). apply follows_step. intros a b H. apply step_app in H. destruct H as (l1 & l2 & El). destruct l2 as [|y l2] using rev_ind.
      * replace (l1 ++ [a; b]) with ((l1 ++ [a]) ++ [b]) in El by (rewrite <- app_assoc; reflexivity). apply app_inj_tail in El. destruct El as [El <-]. change (SUPERSOURCE :: q ++ [u]) with ((SUPERSOURCE :: q) ++ [u]) in El. apply app_inj_tail in El. destruct El as [_ <-]. exact Ha.
      * replace (l1 ++ a :: b :: l2 ++ [y]) with ((l1 ++ a :: b :: l2) ++ [y]) in El by (rewrite <- app_assoc; reflexivity). apply app_inj_tail in El. destruct El as [El _]. apply (proj1 (follows_step _ _) F). apply step_app. exists l1, l2. exact El.
Qed.
Lemma good_in u p : good u p -> In u p.
Proof. intros [[-> ->]|(q & -> & _)]; [now left|]. right. apply in_or_app. right. now left. Qed.
Lemma round_fold n a : level n a -> forall l b, (forall q, In q l -> exists u, dget a u = Some (fst q) /\ arc g u (snd q)) ->
  dwf b -> (forall d p, dget a d = Some p -> exists p', dget b d = Some p') ->
  (forall d p, dget b d = Some p -> good d p /\ List.length p <= S (S n) /\ short d p /\ forall x, In x p -> exists p', dget b x = Some p') ->
  let b' := fold_left bfs_add l b in
  dwf b' /\ (forall d p, dget b d = Some p -> exists p', dget b' d = Some p') /\ (forall q, In q l -> exists p', dget b' (snd q) = Some p') /\
  (forall d p, dget b' d = Some p -> good d p /\ List.length p <= S (S n) /\ short d p /\ forall x, In x p -> exists p', dget b' x = Some p').
Proof.
  intros (La & Lb & Lc). induction l as [|[p v] l IH]; intros b Hl W Ext V b'; cbn [fold_left] in b'.
  - unfold b'. split; [exact W|]. split; [eauto|]. split; [intros q []|exact V].
  - assert (Hl' : forall q, In q l -> exists u, dget a u = Some (fst q) /\ arc g u (snd q)) by (intros q Hq; apply Hl; now right). destruct (Hl (p, v)) as (u & Eu & Ha); [now left|]. cbn [fst snd] in Eu, Ha.
    unfold bfs_add at 2 in (value of b'). cbn [fst snd] in b'. destruct (dmem b v) eqn:Em.
    + destruct (IH b Hl' W Ext V) as (W' & X1 & X2 & X3). fold b' in W', X1, X2, X3. split; [exact W'|]. split; [exact X1|]. split; [|exact X3]. intros q [<-|Hq]; [|auto]. cbn [snd]. apply dmem_Some in Em. destruct Em as [p' Em]. eauto.
    + apply dmem_None in Em. destruct (Lb _ _ Eu) as (Gu & Lu & Su & Iu).
      assert (Hv : ~ In v p). { intros H. destruct (Iu v H) as [p' E']. destruct (Ext _ _ E') as [p2 E2]. congruence. }
      set (b1 := dset b v (p ++ [v])) in b'. assert (W1 : dwf b1) by now apply dwf_set.
      assert (Mono : forall d p0, dget b d = Some p0 -> exists p', dget b1 d = Some p'). { intros d p0 E. unfold b1. rewrite dget_set. destruct (beq d v); eauto. }
      destruct (IH b1 Hl' W1) as (W' & X1 & X2 & X3).
      * intros d p0 E. destruct (Ext _ _ E) as [p' E']. eauto.
      * intros d p0 E. unfold b1 in E. rewrite dget_set in E. destruct (beq_spec d v) as [->|Hd].
        -- injection E as <-. split; [now apply (good_snoc u)|]. split; [rewrite app_length; cbn [List.length]; lia|]. split.
           ++ intros p' Hp'. destruct (le_lt_dec (List.length p') (S n)) as [Hle|Hgt].
              ** exfalso. pose proof (path_walk v p' Hp') as Hw. destruct (Lc v _ Hw) as [p2 E2]; [lia|]. destruct (Ext _ _ E2) as [p3 E3]. congruence.
              ** rewrite app_length. cbn [List.length]. lia.
           ++ intros x Hx. apply in_app_or in Hx. destruct Hx as [Hx|[<-|[]]]; [|unfold b1; rewrite dget_set_eq; eauto]. destruct (Iu x Hx) as [p' E']. destruct (Ext _ _ E') as [p2 E2]. eauto.
        -- destruct (V _ _ E) as (V1 & V2 & V3 & V4). split; [exact V1|]. split; [exact V2|]. split; [exact V3|]. intros x Hx. destruct (V4 x Hx) as [p' E']. eauto.
      * fold b' in W', X1, X2, X3. split; [exact W'|]. split; [|split; [|exact X3]].
        -- intros d p0 E. destruct (Mono _ _ E) as [p' E']. eauto.
        -- intros q [<-|Hq]; [|auto]. cbn [snd]. apply (X1 v (p ++ [v])). unfold b1. apply dget_set_eq.
Qed.
Lemma rounds_level n : level n (bfs_rounds g n).
Proof.
  induction n as [|n IH].
  - cbn [bfs_rounds]. split; [repeat constructor; intros []|]. split.
    + intros d p E. cbn [dget] in E. destruct (beq_spec d SUPERSOURCE) as [->|]; [|discriminate]. injection E as <-. split; [left; auto|]. split; [reflexivity|]. split; [intros p' (q & -> & _); cbn; lia|].
      intros x [<-|[]]. cbn [dget]. rewrite beq_refl. eauto.
    + intros x m Hw Hm. assert (m = 0) by lia. subst m. inversion Hw; subst. cbn [dget]. rewrite beq_refl. eauto.
  - cbn [bfs_rounds]. set (a := bfs_rounds g n) in *. pose proof IH as (La & Lb & Lc).
    assert (St : forall q, In q (bfs_steps g a) <-> exists u, dget a u = Some (fst q) /\ arc g u (snd q)).
    { intros [p v]. unfold bfs_steps. rewrite in_flat_map. cbn [fst snd]. split.
      - intros ([u p'] & H1 & H2). apply in_map_iff in H2. destruct H2 as (v' & E & H2). cbn [fst snd] in *. injection E as -> ->. exists u. split; [now apply In_dget|]. apply arc_row. now apply dmem_Some, dmem_keys.
      - intros (u & E & Ha). exists (u, p). split; [now apply dget_In|]. cbn [fst snd]. apply in_map_iff. exists v. split; [reflexivity|]. apply arc_row in Ha. apply dmem_keys, dmem_Some. exact Ha. }
    destruct (round_fold n a IH (bfs_steps g a) a) as (W & X1 & X2 & X3).
    + intros q Hq. now apply St.
    + exact La.
    + eauto.
    + intros d p E. destruct (Lb _ _ E) as (B1 & B2 & B3 & B4). split; [exact B1|]. split; [lia|]. split; [exact B3|exact B4].
    + split; [exact W|]. split; [exact X3|]. intros x m Hw Hm. destruct (le_lt_dec m n) as [Hle|Hgt]; [destruct (Lc _ _ Hw Hle) as [p E]; eauto|].
      inversion Hw as [|u v k Hu Ha]; subst; [lia|]. destruct (Lc u k Hu) as [p E]; [lia|]. apply (X2 (p, x)). apply St. cbn [fst snd]. eauto.
Qed.
Theorem bfs_fewest : fewest g (bfs g).
Proof using G Hs.
  destruct (rounds_level (List.length (g_nodes g))) as (La & Lb & Lc). fold (bfs g) in La, Lb, Lc. split; [split; [exact La|]; split|].
  - intros d p E. now destruct (Lb d p E).
  - intros d E L. destruct (beq_spec d SUPERSOURCE) as [->|Hd]; [destruct (Lc SUPERSOURCE 0 walk_here) as [p X]; [lia|congruence]|].
    destruct (linked_path_to _ _ L Hd) as [p Hp]. pose proof Hp as (q & Ep & Nd & F). destruct (Lc d _ (path_walk d p Hp)) as [p' X]; [|congruence].
    assert (Hin : incl p (map fst (g_nodes g))).
    { assert (Nk : forall x, node g x -> In x (map fst (g_nodes g))) by (intros x Hx; apply dmem_keys; now apply node_iff).
      intros x Hx. apply Nk. apply in_split in Hx. destruct Hx as (l1 & l2 & El). destruct l1 as [|y l1] using rev_ind.
      - rewrite Ep in El. injection El as <- _. exact Hs.
      - assert (X : arc g y x). { apply (proj1 (follows_step _ _) F). rewrite El. apply step_app. exists l1, l2. now rewrite <- app_assoc. } now apply (arc_nodes g _ _ G) in X. }
    pose proof (NoDup_incl_length (l := p) (l' := map fst (g_nodes g))) as Len. rewrite map_length in Len. specialize (Len Nd Hin). lia.
  - intros d p p' E H. destruct (Lb d p E) as (_ & _ & Sh & _). now apply Sh.
Qed.
End Bfs.
