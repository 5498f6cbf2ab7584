(** Flows and cuts: if what fails carries less than what a node receives, the node can still be reached. *)
From Coq Require Import QArith Lqa Lia Permutation.
From Verif Require Import Base SetupModel IlpModel IlpSpec QLib MonadLib.
Local Open Scope Q_scope.

Definition inflow (f : edge -> Q) (L : list edge) (x : string) : Q := total f (filter (fun e => beq (snd e) x) L).
Definition outflow (f : edge -> Q) (L : list edge) (x : string) : Q := total f (filter (fun e => beq (fst e) x) L).

(** the closure of a set under the usable edges *)
Lemma closed_set (ok : edge -> bool) (L : list edge) (P : string -> Prop) :
  (forall e, In e L -> ok e = true -> P (fst e) -> P (snd e)) ->
  forall n S0, (List.length (filter (fun e => negb (mem (snd e) S0)) L) <= n)%nat -> (forall x, In x S0 -> P x) ->
  exists S1, incl S0 S1 /\ (forall x, In x S1 -> P x) /\ (forall e, In e L -> ok e = true -> In (fst e) S1 -> In (snd e) S1).
Proof.
  intros Hp. induction n as [|n IH]; intros S0 Hn H0.
  - exists S0. split; [intros x; auto|]. split; [exact H0|]. intros e He _ _.
    destruct (mem (snd e) S0) eqn:E; [now apply mem_In|]. exfalso.
    assert (In e (filter (fun e => negb (mem (snd e) S0)) L)) by (apply filter_In; now rewrite E).
    destruct (filter _ L); [contradiction|cbn in Hn; lia].
  - destruct (find (fun e => ok e && mem (fst e) S0 && negb (mem (snd e) S0)) L) as [e|] eqn:F.
    + apply find_some in F. destruct F as (He & F). apply andb_true_iff in F. destruct F as (F & F3). apply andb_true_iff in F. destruct F as (F1 & F2).
      apply mem_In in F2. destruct (IH (snd e :: S0)) as (S1 & A & B & C).
      * assert (G : forall l : list edge, In e l -> (List.length (filter (fun e0 : edge => negb (mem (snd e0) (snd e :: S0))) l) < List.length (filter (fun e1 : edge => negb (mem (snd e1) S0)) l))%nat).
        { assert (W : forall l : list edge, (List.length (filter (fun e0 : edge => negb (mem (snd e0) (snd e :: S0))) l) <= List.length (filter (fun e1 : edge => negb (mem (snd e1) S0)) l))%nat).
          { induction l as [|y l IHl]; [cbn; lia|]. cbn [filter mem] in *. destruct (beq (snd y) (snd e)) eqn:Eb; cbn [orb negb]; destruct (negb (mem (snd y) S0)); cbn [List.length]; cbn [mem] in IHl; lia. }
          induction l as [|y l IHl]; [contradiction|]. intros [->|Hin].
          - cbn [filter mem]. rewrite beq_refl. cbn [orb negb]. rewrite F3. cbn [List.length]. specialize (W l). cbn [mem] in W. lia.
          - specialize (IHl Hin). cbn [filter mem] in IHl |- *. destruct (beq (snd y) (snd e)); cbn [orb negb]; destruct (negb (mem (snd y) S0)); cbn [List.length]; lia. }
        specialize (G L He). lia.
      * intros x [<-|Hx]; [apply (Hp e He F1), H0, F2|now apply H0].
      * exists S1. split; [intros x Hx; apply A; now right|]. auto.
    + exists S0. split; [intros x; auto|]. split; [exact H0|]. intros e He Ho Hi.
      destruct (mem (snd e) S0) eqn:E; [now apply mem_In|]. exfalso.
      assert (X := find_none _ _ F e He). cbn in X. rewrite Ho, E in X. apply mem_In in Hi. rewrite Hi in X. discriminate.
Qed.

(** sums over the ends of the edges *)
Lemma sum_ends (f : edge -> Q) (g : edge -> string) (L : list edge) (U : string -> bool) (N : list string) :
  NoDup N -> (forall e, In e L -> In (g e) N) ->
  total (fun x => if U x then total f (filter (fun e => beq (g e) x) L) else 0) N == total (fun e => if U (g e) then f e else 0) L.
Proof.
  intros Hn Hg. rewrite (total_ext _ (fun x => total (fun e => if beq (g e) x then (if U (g e) then f e else 0) else 0) L)).
  - rewrite total_exchange. apply total_ext. intros e He. now apply total_pick; auto.
  - intros x _. destruct (U x) eqn:E.
    + rewrite total_filter. apply total_ext. intros e _. destruct (beq_spec (g e) x) as [<-|]; [now rewrite E|reflexivity].
    + symmetry. rewrite (total_ext _ (fun _ => 0)); [apply total_const0|]. intros e _. destruct (beq_spec (g e) x) as [<-|]; [now rewrite E|reflexivity].
Qed.
Lemma total_split_by {A} (p : A -> bool) (f : A -> Q) l : total f l == total f (filter p l) + total f (filter (fun x => negb (p x)) l).
Proof. induction l as [|x l IH]; cbn; [lra|]. destruct (p x); cbn; rewrite IH; lra. Qed.
Lemma total_const {A} (q : Q) (l : list A) : total (fun _ => q) l == q * inject_Z (Z.of_nat (List.length l)).
Proof.
  induction l as [|x l IH]; cbn [total List.length]; [change (inject_Z (Z.of_nat 0)) with 0; lra|]. rewrite IH, Nat2Z.inj_succ. unfold Z.succ. rewrite inject_Z_plus. change (inject_Z 1) with 1. lra.
Qed.

Section Cut.
Variables (L : list edge) (f : edge -> Q) (N X : list string) (down : list edge) (src d : string) (cap : string -> Q) (need : Q) (P : string -> Prop).
Hypothesis L_nd : NoDup L.
Hypothesis N_nd : NoDup N.
Hypothesis L_N : forall e, In e L -> In (fst e) N /\ In (snd e) N.
Hypothesis f_pos : forall e, In e L -> 0 <= f e.
Hypothesis f_one : forall e, In e L -> fst e <> src -> f e <= 1.
Hypothesis d_N : In d N.
Hypothesis d_src : d <> src.
Hypothesis X_d : ~ In d X.
Hypothesis bal : forall x, In x N -> x <> src -> x <> d -> inflow f L x == outflow f L x.
Hypothesis bal_d : need <= inflow f L d - outflow f L d.
Hypothesis cap_pos : forall x, In x X -> 0 <= cap x.
Hypothesis cap_in : forall x, In x X -> x <> src -> inflow f L x <= cap x.
Hypothesis X_src : ~ In src X.
Hypothesis light : total cap X + inject_Z (Z.of_nat (List.length down)) < need.
Hypothesis P_src : P src.
Hypothesis P_step : forall e, In e L -> 0 < f e -> ~ In (snd e) X -> (fst e = src \/ ~ (In e down \/ In (snd e, fst e) down)) -> P (fst e) -> P (snd e).

Definition brk (e : edge) : bool := negb (beq (fst e) src) && (mem e down || mem (snd e, fst e) down).
Definition usable (e : edge) : bool := negb (Qle_bool (f e) 0) && negb (mem (snd e) X) && negb (brk e).

Lemma outflow_X x : In x X -> outflow f L x <= cap x.
Proof using L_nd N_nd L_N f_pos bal cap_pos cap_in X_src X_d.
  intros Hx. destruct (mem x N) eqn:E.
  - apply mem_In in E. assert (x <> src) by (intros ->; contradiction). assert (x <> d) by (intros ->; contradiction).
    rewrite <- bal by auto. now apply cap_in.
  - apply mem_not_In in E. unfold outflow. rewrite total_filter, (total_ext _ (fun _ => 0)), total_const0; [now apply cap_pos|].
    intros e He. destruct (beq_spec (fst e) x) as [<-|]; [|reflexivity]. exfalso. apply E. now apply L_N.
Qed.

Theorem cut_reaches : P d.
Proof using All.
  destruct (closed_set usable L P) with (n := List.length (filter (fun e => negb (mem (snd e) [src])) L)) (S0 := [src]) as (S1 & A & B & C).
  - intros e He Hu Hp. unfold usable in Hu. apply andb_true_iff in Hu. destruct Hu as (Hu & Hb). apply andb_true_iff in Hu. destruct Hu as (Hf & Hx).
    apply negb_true_iff in Hf, Hx, Hb. apply qle_false in Hf. apply mem_not_In in Hx. apply P_step; auto.
    unfold brk in Hb. destruct (beq_spec (fst e) src) as [->|Ne]; [now left|right]. cbn in Hb. apply orb_false_iff in Hb.
    destruct Hb as (H1 & H2). apply mem_not_In in H1, H2. tauto.
  - apply Nat.le_refl.
  - intros x [<-|[]]. exact P_src.
  - apply B. destruct (mem d S1) eqn:Ed; [now apply mem_In|]. exfalso. apply mem_not_In in Ed.
    assert (Hsrc : In src S1) by (apply A; now left).
    set (U := fun x => negb (mem x S1) && negb (mem x X)).
    assert (Ud : U d = true) by (unfold U; apply mem_not_In in Ed; rewrite Ed; apply mem_not_In in X_d; now rewrite X_d).
    assert (Us : U src = false) by (unfold U; apply mem_In in Hsrc; now rewrite Hsrc).
    (* net flow into U *)
    assert (H1 : need <= total (fun x => if U x then inflow f L x - outflow f L x else 0) N).
    { apply Qle_trans with (total (fun x => if beq d x then inflow f L d - outflow f L d else 0) N).
      - rewrite total_pick; auto.
      - apply total_le. intros x Hx. destruct (beq_spec d x) as [<-|Ne]; [rewrite Ud; lra|]. destruct (U x) eqn:Eu; [|lra].
        assert (x <> src) by (intros ->; congruence). rewrite (bal x); auto. lra. }
    assert (H2 : total (fun x => if U x then inflow f L x - outflow f L x else 0) N ==
                 total (fun e => if U (snd e) then f e else 0) L - total (fun e => if U (fst e) then f e else 0) L).
    { rewrite <- (sum_ends f snd L U N), <- (sum_ends f fst L U N) by (auto; intros e He; now apply L_N).
      rewrite <- total_sub. apply total_ext. intros x _. unfold inflow, outflow. destruct (U x); lra. }
    set (cross := filter (fun e => U (snd e) && negb (U (fst e))) L).
    assert (H3 : total (fun e => if U (snd e) then f e else 0) L - total (fun e => if U (fst e) then f e else 0) L <= total f cross).
    { rewrite <- total_sub. unfold cross. rewrite total_filter. apply total_le. intros e He. assert (0 <= f e) by now apply f_pos.
      destruct (U (snd e)), (U (fst e)); cbn; lra. }
    assert (Hc : forall e, In e cross -> In e L /\ U (snd e) = true /\ U (fst e) = false).
    { intros e He. unfold cross in He. apply filter_In in He. destruct He as (He & Hu). apply andb_true_iff in Hu. destruct Hu as (? & Hu). apply negb_true_iff in Hu. auto. }
    set (fromX := filter (fun e => mem (fst e) X) cross). set (fromR := filter (fun e => negb (mem (fst e) X)) cross).
    assert (H4 : total f cross == total f fromX + total f fromR) by apply total_split_by.
    (* out of failed sites *)
    assert (H5 : total f fromX <= total cap X).
    { apply Qle_trans with (total (fun x => outflow f L x) X); [|apply total_le; intros x Hx; now apply outflow_X].
      unfold outflow. rewrite (total_ext (fun x => total f (filter (fun e => beq (fst e) x) L)) (fun x => total (fun e => if beq (fst e) x then f e else 0) L)) by (intros; apply total_filter).
      rewrite total_exchange. unfold fromX, cross. rewrite total_filter, total_filter. apply total_le. intros e He. assert (Hp : 0 <= f e) by now apply f_pos.
      assert (H0 : 0 <= total (fun a => if beq (fst e) a then f e else 0) X) by (apply total_nonneg; intros a _; destruct (beq (fst e) a); lra).
      destruct (U (snd e) && negb (U (fst e))); [|exact H0]. destruct (mem (fst e) X) eqn:Em; [|exact H0].
      apply mem_In in Em. assert (Q0 := total_member (fun a => if beq (fst e) a then f e else 0) X (fst e)). cbn in Q0. rewrite beq_refl in Q0.
      apply Q0; [intros a _; destruct (beq (fst e) a); lra|exact Em]. }
    (* out of the reached sites: broken links only *)
    set (live := filter (fun e => negb (Qle_bool (f e) 0)) fromR).
    assert (H6 : total f fromR <= total f live).
    { unfold live. rewrite (total_filter _ _ fromR). apply total_le. intros e He. destruct (Qle_bool (f e) 0) eqn:Eq; cbn; [now apply qle_true in Eq|lra]. }
    assert (Hl : forall e, In e live -> In e L /\ U (snd e) = true /\ U (fst e) = false /\ fst e <> src /\ (In e down \/ In (snd e, fst e) down)).
    { intros e He. unfold live, fromR in He. apply filter_In in He. destruct He as (He & Hf). apply filter_In in He. destruct He as (He & Hx).
      destruct (Hc e He) as (HL & Hu & Hv). apply negb_true_iff in Hx. unfold U in Hu, Hv. apply andb_true_iff in Hu. destruct Hu as (Hu1 & Hu2).
      rewrite Hx in Hv. cbn in Hv. rewrite andb_true_r in Hv. apply negb_false_iff, mem_In in Hv. apply negb_true_iff, mem_not_In in Hu1.
      assert (Hn : usable e = false) by (destruct (usable e) eqn:Eu; [exfalso; apply Hu1; now apply C|reflexivity]).
      unfold usable in Hn. rewrite Hf, Hu2 in Hn. cbn in Hn. apply negb_false_iff in Hn. unfold brk in Hn. apply andb_true_iff in Hn. destruct Hn as (Hs & Hd).
      apply negb_true_iff, beq_false in Hs. apply orb_true_iff in Hd. rewrite !mem_In in Hd.
      assert (U (snd e) = true) by (unfold U; rewrite Hu2; apply mem_not_In in Hu1; now rewrite Hu1).
      assert (U (fst e) = false) by (unfold U; apply mem_In in Hv; now rewrite Hv). auto. }
    assert (H7 : total f live <= inject_Z (Z.of_nat (List.length live))).
    { assert (G := total_const 1 live). rewrite Qmult_1_l in G. rewrite <- G. apply total_le. intros e He. destruct (Hl e He) as (? & _ & _ & ? & _). now apply f_one. }
    assert (H8 : (List.length live <= List.length down)%nat).
    { set (o := fun e : edge => if mem e down then e else (snd e, fst e)).
      rewrite <- (map_length o live). apply NoDup_incl_length.
      - assert (Nl : NoDup live) by (unfold live, fromR, cross; repeat apply NoDup_filter'; exact L_nd).
        assert (G : forall l, NoDup l -> incl l live -> NoDup (map o l)).
        { induction 1 as [|e l Hnin Hnd IH]; intros Hi; cbn; constructor; [|apply IH; intros y Hy; apply Hi; now right].
          intros Hin. apply in_map_iff in Hin. destruct Hin as (e' & Eo & He').
          destruct (Hl e) as (_ & U1 & U2 & _); [apply Hi; now left|]. destruct (Hl e') as (_ & U3 & U4 & _); [apply Hi; now right|].
          unfold o in Eo. destruct e as [a b], e' as [a' b']. cbn [fst snd] in *.
          destruct (mem (a', b') down), (mem (a, b) down); injection Eo as -> ->; try (apply Hnin; exact He'); congruence. }
        apply G; [exact Nl|intros y; auto].
      - intros y Hy. apply in_map_iff in Hy. destruct Hy as (e & <- & He). unfold o. destruct (mem e down) eqn:Em; [now apply mem_In|].
        destruct (Hl e He) as (_ & _ & _ & _ & [Hd|Hd]); [apply mem_not_In in Em; contradiction|exact Hd]. }
    assert (H9 : inject_Z (Z.of_nat (List.length live)) <= inject_Z (Z.of_nat (List.length down))) by (rewrite <- Zle_Qle; lia).
    lra.
Qed.
End Cut.
