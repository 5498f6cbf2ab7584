(** The redundancy step keeps the base network, and its two problems can be solved. *)
From Coq Require Import QArith Lqa Lia Permutation.
From Verif Require Import Base Dict TopologyModel TopologySpec TopologyLemmas TopologyQueryProofs GraphSpec GraphProofs RfModel SetupModel PruneModel
  IlpModel IlpSpec QLib MonadLib SetupProofs IlpLemmas IlpProofs ExtractModel ExtractSpec ExtractProofs RedunModel RedunSpec FlowCut RedunProofs RedunReadProofs RedunMainProofs.
Local Open Scope Q_scope.

Lemma concatM_sat {A B} (f : A -> result (list B)) (Pc : B -> Prop) l : (forall x, In x l -> exists r, f x = Ok r /\ forall c, In c r -> Pc c) ->
  exists r, concatM f l = Ok r /\ forall c, In c r -> Pc c.
Proof.
  intros H. destruct (concatM_total f l) as (r & Er); [intros x Hx; destruct (H x Hx) as (y & Ey & _); eauto|]. exists r. split; [auto|].
  intros c Hc. destruct (concatM_inv _ _ _ _ Er Hc) as (x & rx & Hx & Ex & Hin). destruct (H x Hx) as (y & Ey & Hy). rewrite Ex in Ey. injection Ey as <-. auto.
Qed.
Lemma mapM_sat {A B} (f : A -> result B) (Pc : B -> Prop) l : (forall x, In x l -> exists c, f x = Ok c /\ Pc c) ->
  exists r, mapM f l = Ok r /\ forall c, In c r -> Pc c.
Proof.
  intros H. destruct (mapM_total f l) as (r & Er); [intros x Hx; destruct (H x Hx) as (y & Ey & _); eauto|]. exists r. split; [auto|].
  intros c Hc. destruct (mapM_inv _ _ _ _ Er Hc) as (x & Hx & Ex). destruct (H x Hx) as (y & Ey & Hy). rewrite Ex in Ey. injection Ey as <-. auto.
Qed.

Section Keep.
Variables (ps : params) (at_ : attrs) (t : topo) (cs : caps) (only : option (list edge)) (R : rnet).
Hypothesis Hw : well_formed t.
Hypothesis Hn : names_ok at_ t.
Hypothesis HR : redundant_network ps at_ t cs only = Ok R.
Let I := r_inst R.
Let D : describes ps at_ t (a_cap at_) I := desc_R ps at_ t cs only R Hw Hn HR.
Let NF := net_fields ps at_ t cs only R Hw Hn HR.

Section Plan.
Variables (sh : dict string Q) (P : rproblem) (v : rvar -> Q) (o : rsolution).
Hypothesis HP : skeleton R (Some sh) = Ok P.
Hypothesis Hv : rfeasible P v.
Hypothesis Ho : extract_redundancy R sh v = Ok o.
Let Rd : reading ps at_ t R sh v o := reading_of ps at_ t cs only R Hw Hn HR sh v o Ho.
Hypothesis AE : active_ends t.

Lemma forced_active i : In i (r_forced R) <-> active_now t i.
Proof using All.
  rewrite (forced_iff ps at_ t cs only R Hw Hn HR). unfold in_use_R. split; [|auto]. intros [H|(k & l & El & Ha & [<-|<-])]; [auto| |]; apply (AE k l El Ha).
Qed.
Lemma active_kept i : backhaul_site t i -> active_now t i -> r_on o i.
Proof using All.
  intros B Ha. unfold r_on. destruct (mem i (r_sites R)) eqn:Ei.
  - apply mem_In in Ei. rewrite (RD_site _ _ _ _ _ _ _ Rd i Ei B), binary_one; [auto|]. exact (decided_active ps at_ t cs only R Hw Hn HR (Some sh) P v HP Hv i Ei Ha).
  - apply mem_not_In in Ei. rewrite (RD_other _ _ _ _ _ _ _ Rd i Ei B). apply forced_active, mem_In in Ha. now rewrite Ha.
Qed.
Lemma only_new_dns i : r_on o i -> active_now t i \/ exists s, dget (t_sites t) i = Some s /\ s_type s = DN /\ s_status s = CANDIDATE.
Proof using All.
  intros On. destruct (dget (t_sites t) i) as [s|] eqn:Es.
  2:{ exfalso. unfold r_on in On. destruct (RD_keys _ _ _ _ _ _ _ Rd i 1%Z On) as (s & Es'). congruence. }
  destruct (s_type s) eqn:Ty.
  - left. apply forced_active. destruct (mem i (r_forced R)) eqn:Ef; [now apply mem_In|]. apply mem_not_In in Ef.
    destruct (RD_cn _ _ _ _ _ _ _ Rd i s Es Ty) as (C & _). specialize (C Ef). unfold r_on, r_off in *. congruence.
  - assert (B : backhaul_site t i) by (exists s; auto). destruct (mem i (r_sites R)) eqn:Ei.
    + apply mem_In in Ei. unfold r_on in On. rewrite (RD_site _ _ _ _ _ _ _ Rd i Ei B) in On. 
      destruct (s_status s) eqn:St; [left|left|right; eauto|exfalso|exfalso]; try (exists s; split; [exact Es|]; unfold in_service; rewrite St; auto).
      all: assert (Z : v (RSite i) == 0) by (apply (decided_off ps at_ t cs only R Hw Hn HR (Some sh) P v HP Hv i s Ei Es); [unfold in_service; rewrite St; intuition discriminate|rewrite St; auto]).
      all: rewrite (binary_zero _ Z) in On; discriminate.
    + apply mem_not_In in Ei. unfold r_on in On. rewrite (RD_other _ _ _ _ _ _ _ Rd i Ei B) in On. left. apply forced_active. destruct (mem i (r_forced R)) eqn:Ef; [now apply mem_In|discriminate].
  - assert (B : backhaul_site t i) by (exists s; auto). destruct (mem i (r_sites R)) eqn:Ei.
    + apply mem_In in Ei. unfold r_on in On. rewrite (RD_site _ _ _ _ _ _ _ Rd i Ei B) in On. left.
      destruct (s_status s) eqn:St; try (exists s; split; [exact Es|]; unfold in_service; rewrite St; auto; fail).
      all: exfalso; assert (Z : v (RSite i) == 0) by (apply (decided_off ps at_ t cs only R Hw Hn HR (Some sh) P v HP Hv i s Ei Es); [unfold in_service; rewrite St; intuition discriminate|rewrite Ty; auto]).
      all: rewrite (binary_zero _ Z) in On; discriminate.
    + apply mem_not_In in Ei. unfold r_on in On. rewrite (RD_other _ _ _ _ _ _ _ Rd i Ei B) in On. left. apply forced_active. destruct (mem i (r_forced R)) eqn:Ef; [now apply mem_In|discriminate].
Qed.
Lemma pop_restricted i : 0 < p_pop_capacity ps -> is_pop t i -> In i (r_sites R).
Proof using All.
  intros Hc Hp. destruct NF as (HI & _ & _ & _ & _ & FL & FS & _). apply FS. exists (SUPERSOURCE, i). split; [|auto]. apply FL.
  assert (Es : setup ps at_ t = Ok I) by (unfold network in HI; apply rbind_ok in HI; destruct HI as (x & Ex & HI); apply rbind_ok in HI; destruct HI as (y & _ & HI); apply rbind_ok in HI; destruct HI as (z & _ & HI); injection HI as HI; unfold I; rewrite <- HI; exact Ex).
  split; [apply (D_links _ _ _ _ _ D); left; auto|]. unfold restricted, get. fold I. rewrite (super_cap ps at_ t I Hw Hn Es i Hp). cbn [rbind].
  assert (Ec : Qle_bool (p_pop_capacity ps) 0 = false) by (apply qle_false; exact Hc). rewrite Ec. cbn [fst snd].
  destruct Hp as (s & Esi & Ty). rewrite (D_super _ _ _ _ _ D), (D_site _ _ _ _ _ D _ _ Esi). cbn [rbind]. rewrite Ty. cbn [super_dist dist andb]. rewrite beq_refl. destruct only; reflexivity.
Qed.
(** a CN in use gives way to a POP or DN in its place, and to nothing else *)
Lemma cn_rule i s : 0 < p_pop_capacity ps -> dget (t_sites t) i = Some s -> s_type s = CN ->
  (r_on o i <-> active_now t i /\ forall j, colocated t i j -> backhaul_site t j -> ~ r_on o j).
Proof using All.
  intros Hc Es Ty. destruct (RD_cn _ _ _ _ _ _ _ Rd i s Es Ty) as (C1 & C2). split.
  - intros On. assert (Hf : In i (r_forced R)).
    { destruct (mem i (r_forced R)) eqn:Ef; [now apply mem_In|]. apply mem_not_In in Ef. specialize (C1 Ef). unfold r_on, r_off in *. congruence. }
    split; [now apply forced_active|]. intros j Hj B Oj. destruct (C2 Hf) as [(_ & H)|(H & _)]; [|unfold r_on, r_off in *; congruence].
    apply (H j Hj B); [|exact Oj]. destruct (mem j (r_sites R)) eqn:Ej; [now apply mem_In|exfalso]. apply mem_not_In in Ej.
    assert (Bj := B). destruct Bj as (sj & Esj & Tyj). destruct Tyj as [Tyj|Tyj]; [apply Ej, pop_restricted; [exact Hc|exists sj; auto]|].
    apply Ej. destruct NF as (_ & _ & _ & _ & _ & _ & _ & FD). apply FD. apply (dns_iff ps at_ t cs only R Hw Hn HR). split; [exists sj; auto|].
    unfold r_on in Oj. rewrite (RD_other _ _ _ _ _ _ _ Rd j Ej B) in Oj. apply forced_active. destruct (mem j (r_forced R)) eqn:Ef; [now apply mem_In|discriminate].
  - intros (Ha & Hj). apply forced_active in Ha. destruct (C2 Ha) as [(H & _)|(_ & j & J1 & J2 & J3)]; [exact H|]. exfalso. now apply (Hj j).
Qed.
(** planned wireless backhaul links join opposite polarities *)
Lemma plan_polarity k l : p_ignore_polarities ps = false -> (forall k l, link_stored t k l -> active_link l -> allowed_link only l) ->
  link_stored t k l -> l_wireless l = true -> backhaul_site t (l_tx l) -> backhaul_site t (l_rx l) -> r_link_on o l ->
  (r_is_odd o (l_tx l) /\ r_is_even o (l_rx l)) \/ (r_is_even o (l_tx l) /\ r_is_odd o (l_rx l)).
Proof using All.
  intros Ip Hall El Hwl B1 B2 On. destruct (RD_link _ _ _ _ _ _ _ Rd k l El) as (z & Ez & _ & Hz). unfold r_link_on in On. rewrite Ez in On. injection On as ->.
  destruct (proj1 Hz eq_refl) as (_ & Hcap & S1 & S2 & Hpol & _). cbn [choice_of c_site c_odd] in *. unfold r_is_odd, r_is_even.
  destruct (RD_odd _ _ _ _ _ _ _ Rd Ip _ _ B1 S1) as (a & Ba & Ha & A1 & A2). destruct (RD_odd _ _ _ _ _ _ _ Rd Ip _ _ B2 S2) as (b & Bb & Hb & E1 & E2). cbn in A1, A2, E1, E2. rewrite A1, A2, E1, E2.
  assert (Ne : a <> b); [|destruct Ba as [-> | ->], Bb as [-> | ->]; cbn; auto; congruence].
  assert (Eps := params_R ps at_ t cs only R Hw Hn HR). change (negb (p_ignore_polarities (i_params (r_inst R))) = true -> compatible_polarity I (n_odd o) (l_tx l, l_rx l) = Ok true) in Hpol. rewrite Eps, Ip in Hpol. specialize (Hpol eq_refl).
  unfold compatible_polarity in Hpol.
  assert (Ew : mem (l_tx l, l_rx l) (i_wired I) = false) by (rewrite (D_wired _ _ _ _ _ D _ _ El), Hwl; reflexivity). rewrite Ew, orb_false_r in Hpol.
  assert (B1' := B1). destruct B1' as (s1 & Es1 & Ty1). assert (B2' := B2). destruct B2' as (s2 & Es2 & Ty2).
  destruct (mem (l_tx l, l_rx l) (i_existing_links I ++ i_proposed_links I)) eqn:Ea.
  - apply mem_In in Ea. assert (Act : active_link_of t (l_tx l, l_rx l)) by (apply (D_alinks _ _ _ _ _ D); rewrite in_app_iff in *; tauto).
    destruct Act as (k' & l' & El' & Ee & Sl'). assert (l' = l) as -> by (injection Ee as Et Er; exact (link_of_ends t Hw k' l' k l El' El (eq_sym Et) (eq_sym Er))).
    assert (He : In (l_tx l, l_rx l) (r_links R)).
    { destruct NF as (_ & _ & _ & _ & _ & FL & _). apply FL. split; [apply (D_links _ _ _ _ _ D); right; right; exists k, l; auto|]. unfold restricted, get. fold I. rewrite (D_cap _ _ _ _ _ D _ _ El). cbn [rbind].
      assert (Ec : Qle_bool (a_cap at_ (l_tx l, l_rx l)) 0 = false) by (apply qle_false; exact Hcap). rewrite Ec. cbn [fst snd].
      rewrite (D_site _ _ _ _ _ D _ _ Es1), (D_site _ _ _ _ _ D _ _ Es2). cbn [rbind super_dist].
      assert (Db : dist (Real (s_type s1)) && dist (Real (s_type s2)) = true) by (destruct Ty1 as [-> | ->], Ty2 as [-> | ->]; reflexivity). rewrite Db. cbn [andb].
      specialize (Hall k l El Sl'). unfold allowed_link in Hall. destruct only as [es|]; [|reflexivity]. apply mem_In in Hall. rewrite Hall. now rewrite !orb_true_r. }
    destruct (rlink_sites ps at_ t cs only R Hw Hn HR _ He) as (R1 & R2). cbn [fst snd] in *. rewrite (Ha R1), (Hb R2).
    destruct (polarity_R ps at_ t cs only R Hw Hn HR (Some sh) P v HP Hv k l Ip El He Hwl (or_introl Sl')) as [(Q1 & Q2)|(Q1 & Q2)].
    + rewrite (binary_one _ Q1), (binary_zero _ Q2). discriminate.
    + rewrite (binary_zero _ Q1), (binary_one _ Q2). discriminate.
  - unfold get in Hpol. cbn [fst snd] in Hpol. rewrite (D_site _ _ _ _ _ D _ _ Es1), (D_site _ _ _ _ _ D _ _ Es2) in Hpol. cbn [rbind] in Hpol.
    assert (Db : dist (Real (s_type s1)) && dist (Real (s_type s2)) = true) by (destruct Ty1 as [-> | ->], Ty2 as [-> | ->]; reflexivity). rewrite Db, A1, E1 in Hpol.
    injection Hpol as Hpol. apply negb_true_iff, Z.eqb_neq in Hpol. exact Hpol.
Qed.
End Plan.
End Keep.
