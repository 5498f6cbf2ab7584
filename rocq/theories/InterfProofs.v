From Coq Require Import QArith ZArith Lqa Lia.
From Verif Require Import Base Dict QLib SumLib MonadLib SetupModel LosRangeModel TopologyModel TopologySpec TopologyProofs TopologyQueryProofs DeploySpec DeployProofs InterfModel InterfSpec.
Local Open Scope list_scope.

(** *** polarities *)
Lemma opposite_iff p q : opposite p = q <-> ((p = ODD /\ q = EVEN) \/ (p = EVEN /\ q = ODD) \/ (p = UNASSIGNED /\ q = UNASSIGNED)).
Proof. destruct p, q; cbn; intuition congruence. Qed.

Section Pol.
Variable t : topo.
Hypothesis Hr : reachable t.
Lemma link_sites k l : link_stored t k l -> (exists s, dget (t_sites t) (l_tx l) = Some s) /\ (exists s, dget (t_sites t) (l_rx l) = Some s) /\ k = l_id l.
Proof using Hr. intros H. pose proof (inv_reachable t Hr) as HI. destruct (i_links t HI _ _ H) as (K & A & B & _). apply dmem_Some in A. apply dmem_Some in B. auto. Qed.
Definition served (L : list link) (i : string) (p : polarity) : Prop :=
  exists l s, In l L /\ is_active (l_status l) /\ l_rx l = i /\ dget (t_sites t) (l_tx l) = Some s /\ p = opposite (s_polarity s).
Definition is_cn_site (i : string) : Prop := exists s, dget (t_sites t) i = Some s /\ s_type s = CN.
Definition cn_inv (L : list link) (d : dict string polarity) : Prop :=
  forall i, (is_cn_site i -> (dget d i = None <-> forall p, ~ served L i p))
   /\ (forall p, dget d i = Some p -> is_cn_site i /\ (exists q, served L i q)
        /\ ((forall q, served L i q -> q = p) \/ (p = UNASSIGNED /\ exists q q', served L i q /\ served L i q' /\ q <> q'))).
Lemma served_app L l i p : served (L ++ [l]) i p <-> served L i p \/ served [l] i p.
Proof.
  unfold served. split.
  - intros (l' & s & H & R). apply in_app_iff in H. destruct H as [H|H]; [left|right]; exists l', s; auto.
  - intros [(l' & s & H & R)|(l' & s & H & R)]; exists l', s; (split; [apply in_app_iff|exact R]); tauto.
Qed.
Lemma cn_fold l2 : forall L d d', (forall l, In l l2 -> exists k, link_stored t k l) -> cn_inv L d -> foldM (cn_step t) d l2 = Ok d' -> cn_inv (L ++ l2) d'.
Proof using Hr.
  induction l2 as [|l l2 IH]; intros L d d' Hs V E; cbn [foldM] in E.
  - injection E as <-. now rewrite app_nil_r.
  - apply rbind_ok in E. destruct E as (d1 & E1 & E). replace (L ++ l :: l2) with ((L ++ [l]) ++ l2) by now rewrite <- app_assoc.
    apply (IH _ d1); [intros; apply Hs; now right| |exact E]. clear IH E d'.
    destruct (Hs l (or_introl eq_refl)) as [k Hk]. destruct (link_sites _ _ Hk) as ((tx & Htx) & (rx & Hrx) & _).
    unfold cn_step in E1. unfold get in E1. rewrite Hrx, Htx in E1. cbn [rbind] in E1.
    destruct (negb (active (l_status l)) || negb (beq (s_type rx) CN)) eqn:Eg.
    + injection E1 as <-. 
      assert (N : forall i p, is_cn_site i -> ~ served [l] i p).
      { intros i p (s & Hi & Hc) (l' & s' & [<-|[]] & Ha & Hrx' & _). subst i. apply orb_true_iff in Eg. destruct Eg as [Eg|Eg].
        - apply act_iff in Ha. rewrite Ha in Eg. discriminate.
        - rewrite Hrx in Hi. injection Hi as <-. rewrite Hc in Eg. discriminate. }
      intros i. destruct (V i) as [V1 V2]. split.
      * intros Hc. rewrite (V1 Hc). split; intros H p; [rewrite served_app; intros [Hp|Hp]; [exact (H p Hp)|exact (N i p Hc Hp)]|intros Hp; apply (H p); apply served_app; now left].
      * intros p Hp. destruct (V2 p Hp) as (Hc & (q & Hq) & H). split; [exact Hc|]. split; [exists q; apply served_app; now left|].
        destruct H as [H|(-> & q1 & q2 & H1 & H2 & H3)]; [left|right].
        { intros q' Hq'. apply served_app in Hq'. destruct Hq' as [Hq'|Hq']; [now apply H|]. destruct (N i q' Hc Hq'). }
        { split; [reflexivity|]. exists q1, q2. split; [apply served_app; now left|]. split; [apply served_app; now left|exact H3]. }
    + apply orb_false_iff in Eg. destruct Eg as [Ea Et]. apply negb_false_iff in Ea. apply negb_false_iff in Et. apply beq_true in Et. apply act_iff in Ea.
      set (p := opposite (s_polarity tx)) in *.
      assert (Sl : forall i q, served [l] i q <-> i = l_rx l /\ q = p).
      { intros i q. split.
        - intros (l' & s & [<-|[]] & _ & <- & Hs' & ->). split; [reflexivity|]. rewrite Htx in Hs'. injection Hs' as <-. reflexivity.
        - intros [-> ->]. exists l, tx. split; [now left|auto]. }
      assert (Cr : is_cn_site (l_rx l)) by (exists rx; auto).
      intros i. destruct (beq_spec i (l_rx l)) as [->|Hn].
      * assert (Sx : forall q, served (L ++ [l]) (l_rx l) q <-> served L (l_rx l) q \/ q = p).
        { intros q. rewrite served_app, Sl. tauto. }
        destruct (V (l_rx l)) as [V1 V2]. destruct (dget d (l_rx l)) as [q|] eqn:Ed.
        { destruct (V2 q eq_refl) as (_ & (q0 & Hq0) & H). destruct (beq_spec q p) as [->|Hne]; cbn [negb] in E1; injection E1 as <-.
          - split.
            + intros _. rewrite Ed. split; [discriminate|]. intros X. exfalso. apply (X p). apply Sx. now right.
            + intros p' Hp'. rewrite Ed in Hp'. injection Hp' as <-. split; [exact Cr|]. split; [exists p; apply Sx; now right|].
              destruct H as [H|(Hu & q1 & q2 & H1 & H2 & H3)]; [left|right].
              * intros q' Hq'. apply Sx in Hq'. destruct Hq' as [Hq'|Hq']; [now apply H|exact Hq'].
              * split; [exact Hu|]. exists q1, q2. split; [apply Sx; now left|]. split; [apply Sx; now left|exact H3].
          - split.
            + intros _. rewrite dget_set_eq. split; [discriminate|]. intros X. exfalso. apply (X p). apply Sx. now right.
            + intros p' Hp'. rewrite dget_set_eq in Hp'. injection Hp' as <-. split; [exact Cr|]. split; [exists p; apply Sx; now right|]. right. split; [reflexivity|].
              destruct H as [H|(Hu & q1 & q2 & H1 & H2 & H3)].
              * exists q0, p. split; [apply Sx; now left|]. split; [apply Sx; now right|]. rewrite (H q0 Hq0). exact Hne.
              * exists q1, q2. split; [apply Sx; now left|]. split; [apply Sx; now left|exact H3]. }
        { injection E1 as <-. pose proof (proj1 (V1 Cr) eq_refl) as Hno. split.
          - intros _. rewrite dget_set_eq. split; [discriminate|]. intros X. exfalso. apply (X p). apply Sx. now right.
          - intros p' Hp'. rewrite dget_set_eq in Hp'. injection Hp' as <-. split; [exact Cr|]. split; [exists p; apply Sx; now right|]. left.
            intros q' Hq'. apply Sx in Hq'. destruct Hq' as [Hq'|Hq']; [destruct (Hno q' Hq')|exact Hq']. }
      * assert (Sx : forall q, served (L ++ [l]) i q <-> served L i q).
        { intros q. rewrite served_app, Sl. tauto. }
        assert (G : dget d1 i = dget d i).
        { destruct (dget d (l_rx l)) as [q|]; [destruct (negb (beq q p))|]; injection E1 as <-; try reflexivity; now apply dget_set_neq. }
        destruct (V i) as [V1 V2]. rewrite G. split.
        { intros Hc. rewrite (V1 Hc). split; intros H q Hq; apply (H q); now apply Sx. }
        { intros q Hq. destruct (V2 q Hq) as (Hc & (q0 & Hq0) & H). split; [exact Hc|]. split; [exists q0; now apply Sx|].
          destruct H as [H|(Hu & q1 & q2 & H1 & H2 & H3)]; [left; intros q' Hq'; apply H; now apply Sx|right]. split; [exact Hu|]. exists q1, q2. split; [now apply Sx|]. split; [now apply Sx|exact H3]. }
Qed.
Lemma vals_stored l : In l (dvals (t_links t)) <-> exists k, link_stored t k l.
Proof using Hr. pose proof (inv_reachable t Hr) as HI. apply In_dvals. apply HI. Qed.
Lemma served_iff i p : served (dvals (t_links t)) i p <-> served_as t i p.
Proof using Hr.
  unfold served, served_as. split.
  - intros (l & s & Hl & Ha & Hi & Hs & Hp). apply vals_stored in Hl. destruct Hl as [k Hk]. exists k, l, s. rewrite <- opposite_iff. auto 8.
  - intros (k & l & s & Hk & Ha & Hi & Hs & Hp). rewrite <- opposite_iff in Hp. exists l, s. split; [apply vals_stored; eauto|auto].
Qed.
Lemma cn_polarities_spec d : cn_polarities t = Ok d -> forall i,
  (forall p, dget d i = Some p -> is_cn_site i /\ cn_polarity t i p) /\ (is_cn_site i -> dget d i = None -> forall p, ~ served_as t i p).
Proof using Hr.
  intros E i. unfold cn_polarities in E. apply (cn_fold _ []) in E.
  - cbn [app] in E. destruct (E i) as [E1 E2]. split.
    + intros p Hp. destruct (E2 p Hp) as (Hc & (q & Hq) & H). split; [exact Hc|]. unfold cn_polarity. split; [exists q; now apply served_iff|].
      destruct H as [H|(Hu & q1 & q2 & H1 & H2 & H3)]; [left; intros q' Hq'; apply H; now apply served_iff|right].
      split; [exact Hu|]. exists q1, q2. split; [now apply served_iff|]. split; [now apply served_iff|exact H3].
    + intros Hc Hn p Hp. apply (proj1 (E1 Hc) Hn p). now apply served_iff.
  - intros l Hl. now apply vals_stored.
  - intros j. split; [|discriminate]. intros _. split; [|reflexivity]. intros _ p (l & s & [] & _).
Qed.
Lemma cn_polarities_total : exists d, cn_polarities t = Ok d.
Proof using Hr.
  unfold cn_polarities. assert (H : forall l, In l (dvals (t_links t)) -> exists k, link_stored t k l) by (intros l Hl; now apply vals_stored).
  generalize (@nil (string * polarity)). induction (dvals (t_links t)) as [|l L IH]; intros d; cbn [foldM]; [eauto|].
  destruct (H l (or_introl eq_refl)) as [k Hk]. destruct (link_sites _ _ Hk) as ((tx & Htx) & (rx & Hrx) & _).
  assert (X : exists d', cn_step t d l = Ok d').
  { unfold cn_step, get. rewrite Htx, Hrx. cbn [rbind]. destruct (_ || _); [eauto|]. destruct (dget d (l_rx l)) as [q|]; [destruct (negb _)|]; eauto. }
  destruct X as [d' ->]. cbn [rbind]. apply IH. intros l' Hl'. apply H. now right.
Qed.
(** the polarity found is the only one *)
Lemma cn_polarity_unique i p q : cn_polarity t i p -> cn_polarity t i q -> p = q.
Proof.
  intros [(p0 & H0) [H|(-> & a & b & Ha & Hb & Hn)]] [_ [H'|(-> & a' & b' & Ha' & Hb' & Hn')]].
  - rewrite <- (H p0 H0). now apply H'.
  - exfalso. apply Hn'. rewrite (H _ Ha'), (H _ Hb'). reflexivity.
  - exfalso. apply Hn. rewrite (H' _ Ha), (H' _ Hb). reflexivity.
  - reflexivity.
Qed.
Lemma hear_bool p q : (negb (beq p q) && mem p [EVEN; ODD] && mem q [EVEN; ODD]) || mem UNASSIGNED [p; q] = true <-> may_hear p q.
Proof. unfold may_hear. destruct p, q; vm_compute; intuition congruence. Qed.
Lemma compatible_polarity_iff d k l : cn_polarities t = Ok d -> link_stored t k l ->
  (compatible_polarity t d l = Ok true <-> polarity_ok t l)
  /\ (forall e, compatible_polarity t d l = Err e <->
        e = PyKeyError /\ exists tx rx, dget (t_sites t) (l_tx l) = Some tx /\ dget (t_sites t) (l_rx l) = Some rx /\ is_active (s_status tx) /\ is_active (s_status rx)
          /\ s_type rx = CN /\ forall p, ~ served_as t (l_rx l) p).
Proof using Hr.
  intros Ed Hk. destruct (link_sites _ _ Hk) as ((tx & Htx) & (rx & Hrx) & _).
  destruct (cn_polarities_spec d Ed (l_rx l)) as [C1 C2].
  unfold compatible_polarity, polarity_ok, get. rewrite Htx, Hrx. cbn [rbind].
  assert (U : forall P : site -> site -> Prop, (exists a b, Some tx = Some a /\ Some rx = Some b /\ P a b) <-> P tx rx).
  { intros P. split; [intros (a & b & E1 & E2 & H); injection E1 as <-; injection E2 as <-; exact H|eauto]. }
  destruct (negb (active (s_status tx)) || negb (active (s_status rx))) eqn:Ea.
  - assert (N : ~ (is_active (s_status tx) /\ is_active (s_status rx))).
    { intros [A B]. apply act_iff in A. apply act_iff in B. rewrite A, B in Ea. discriminate. }
    split.
    + split; [discriminate|]. intros (a & b & p & E1 & E2 & A & B & _). injection E1 as <-. injection E2 as <-. tauto.
    + intros e. split; [discriminate|]. intros (_ & a & b & E1 & E2 & A & B & _). injection E1 as <-. injection E2 as <-. tauto.
  - apply orb_false_iff in Ea. destruct Ea as [A B]. apply negb_false_iff in A. apply negb_false_iff in B. apply act_iff in A. apply act_iff in B.
    destruct (beq_spec (s_type rx) CN) as [Ec|Ec].
    + destruct (dget d (l_rx l)) as [q|] eqn:Eq; cbn [rbind].
      * destruct (C1 q eq_refl) as [_ Hq]. split.
        { split.
          - intros E. assert (E' := f_equal (fun r => match r with Ok b => b | Err _ => false end) E). cbn beta iota in E'. apply hear_bool in E'.
            exists tx, rx, q. repeat match goal with |- _ /\ _ => split end; try assumption; try reflexivity. left. auto.
          - intros (a & b & p & E1 & E2 & _ & _ & [[_ L]|[L _]] & M); injection E1 as <-; injection E2 as <-; [|contradiction].
            rewrite (cn_polarity_unique _ _ _ L Hq) in M. f_equal. now apply hear_bool. }
        { intros e. split; [discriminate|]. intros (_ & a & b & _ & _ & _ & _ & _ & N). destruct Hq as [(p0 & H0) _]. destruct (N p0 H0). }
      * pose proof (C2 (ex_intro _ rx (conj Hrx Ec)) eq_refl) as N. split.
        { split; [discriminate|]. intros (a & b & p & E1 & E2 & _ & _ & [[_ [(p0 & H0) _]]|[L _]] & M); [destruct (N p0 H0)|injection E2 as <-; contradiction]. }
        { intros e. split; [|intros [-> _]; reflexivity]. intros E. injection E as <-. split; [reflexivity|]. exists tx, rx. auto 10. }
    + cbn [rbind]. split.
      * split.
        { intros E. assert (E' := f_equal (fun r => match r with Ok b => b | Err _ => false end) E). cbn beta iota in E'. apply hear_bool in E'.
          exists tx, rx, (s_polarity rx). repeat match goal with |- _ /\ _ => split end; try assumption; try reflexivity. right. auto. }
        { intros (a & b & p & E1 & E2 & _ & _ & [[L _]|[_ L]] & M); injection E1 as <-; injection E2 as <-; [contradiction|].
          rewrite L. f_equal. now apply hear_bool. }
      * intros e. split; [discriminate|]. intros (_ & a & b & _ & E2 & _ & _ & L & _). injection E2 as <-. contradiction.
Qed.
End Pol.
