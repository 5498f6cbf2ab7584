(** Proofs about capacity under interference. *)
From Coq Require Import QArith Lqa Lia Permutation.
From Verif Require Import Base Dict TopologyModel TopologySpec GraphSpec RfModel RfProofs SetupModel IlpModel IlpSpec QLib MonadLib SetupProofs
  IlpLemmas IlpProofs DeploySpec ChanModel ChanSpec ChanProofs SinrModel SinrSpec.
Local Open Scope Q_scope.

(** ** sums *)
Lemma deval_dsum w l : deval w (dsum l) == total (deval w) l.
Proof. induction l as [|x l IH]; [reflexivity|]. cbn [dsum fold_right deval total]. fold (dsum l). rewrite IH. reflexivity. Qed.
Lemma others_zero {A} (f : A -> Q) l x : (forall z, In z l -> zero_one (f z)) -> NoDup l -> total f l <= 1 -> In x l -> f x == 1 -> forall y, In y l -> y <> x -> f y == 0.
Proof.
  intros Hb Hnd Ht Hx Ex y Hy Hne. destruct (Hb y Hy) as [E|E]; [exact E|exfalso]. assert (2 <= total f l); [|lra]. now apply (sum_two f l y x).
Qed.
Lemma total_single {A} (f : A -> Q) l x : NoDup l -> In x l -> (forall y, In y l -> y <> x -> f y == 0) -> total f l == f x.
Proof.
  induction 1 as [|a l Ha Hnd IH]; intros Hx Hz; [contradiction|]. cbn [total]. destruct Hx as [->|Hx].
  - rewrite (total_ext f (fun _ => 0) l), total_const0; [lra|]. intros y Hy. apply Hz; [now right|]. intros ->. contradiction.
  - rewrite IH, (Hz a); [lra|now left|intros ->; contradiction|auto|]. intros y Hy. apply Hz. now right.
Qed.
Lemma total_pos {A} (f : A -> Q) l : 0 < total f l -> exists x, In x l /\ 0 < f x.
Proof.
  induction l as [|a l IH]; cbn [total]; intros H; [lra|]. destruct (Qlt_le_dec 0 (f a)) as [P|P]; [exists a; split; [now left|auto]|].
  destruct IH as (x & Hx & Px); [lra|]. exists x. split; [now right|auto].
Qed.
Lemma total_flat {A B} (f : B -> Q) (g : A -> list B) l : total f (flat_map g l) == total (fun a => total f (g a)) l.
Proof. induction l as [|a l IH]; [reflexivity|]. cbn [flat_map total]. now rewrite total_app, IH. Qed.
Lemma ones_total {A} (l : list A) : total (fun _ => 1) l == inject_Z (Z.of_nat (List.length l)).
Proof. apply sum_ones. reflexivity. Qed.

(** ** rows *)
Lemma index_zero_spec l : (exists r, In r l /\ snd r == 0) -> (index_zero l < List.length l)%nat /\ snd (nth (index_zero l) l (0, 0)) == 0.
Proof.
  induction l as [|r l IH]; intros (x & Hx & Ex); [contradiction|]. cbn [index_zero]. destruct (Qeq_bool (snd r) 0) eqn:E.
  - cbn [nth List.length]. apply Qeq_bool_eq in E. split; [lia|exact E].
  - destruct Hx as [->|Hx]; [apply Qeq_eq_bool in Ex; congruence|]. destruct (IH (ex_intro _ x (conj Hx Ex))) as (A & B). cbn [nth List.length]. split; [lia|exact B].
Qed.
Lemma rows_zero R rx : exists r, In r (rows R rx) /\ snd r == 0.
Proof.
  unfold rows. destruct (existsb _ _) eqn:E.
  - apply existsb_exists in E. destruct E as (r & Hr & Er). exists r. split; [exact Hr|now apply Qeq_bool_eq].
  - exists (0, 0). split; [apply in_app_iff; right; now left|reflexivity].
Qed.
Lemma rows_row R rx r : In r (rows R rx) -> 0 < snd r -> exists snr, In (snr, snd r) (r_mcs R rx) /\ fst r = / snr.
Proof.
  unfold rows. intros Hin Hp.
  assert (K : In r (map (fun r => (/ fst r, snd r)) (r_mcs R rx)) -> exists snr, In (snr, snd r) (r_mcs R rx) /\ fst r = / snr).
  { intros H. apply in_map_iff in H. destruct H as (q & <- & Hq). exists (fst q). cbn [fst snd]. rewrite <- surjective_pairing. auto. }
  destruct (existsb _ _); [auto|]. apply in_app_iff in Hin. destruct Hin as [Hin|[<-|[]]]; [auto|]. cbn in Hp. lra.
Qed.

Section Sinr.
Variables (R : radio) (ps : params) (at_ : attrs) (t : topo) (I0 : inst) (dn_limit total_limit : nat) (bad : list (string * string * string)) (PC : problem * dproblem) (w : answer).
Hypothesis Hr : radio_ok R.
Hypothesis Hw : well_formed t.
Hypothesis Hn : names_ok at_ t.
Hypothesis Hss : sectors_stored t.
Hypothesis Hk : sector_kinds t.
Hypothesis Hch : (1 <= p_channels ps)%nat.
Hypothesis HI : network ps at_ t = Ok I0.
Hypothesis HP : full_problem R dn_limit total_limit bad I0 = Ok PC.
Hypothesis Ha : answers PC w.
Let I := deploy_inst I0.
Let v := w_net w.

Lemma sinr_deploy : deploy_problem dn_limit total_limit bad I0 = Ok (fst PC) /\ feasible (fst PC) v.
Proof.
  split; [|exact (proj1 Ha)]. assert (H := HP). unfold full_problem in H. apply rbind_ok in H. destruct H as (P & EP & H). apply rbind_ok in H. destruct H as (VD & EV & H).
  apply rbind_ok in H. destruct H as (C & EC & H). injection H as <-. exact EP.
Qed.
Lemma spieces : exists V act ok ak sk tk pk ck c1 c2,
  active_sites I = Ok act /\ odd_keys I = Ok ok /\ active_link_keys I = Ok ak /\ sector_keys I = Ok sk /\ tdm_keys I = Ok tk /\
  site_constants I act = Ok (v_site V) /\ v_flow V = dict_of (fresh flow_var (flow_keys I)) /\
  v_tdm V = dict_of (fresh tdm_var tk) /\ v_odd V = dict_of (fresh VOdd ok) /\ v_active V = dict_of (fresh active_var ak) /\
  pol_keys R I V = Ok pk /\ class_keys R I V = Ok ck /\ create_tdm_compatible_polarity_decisions R I V = Ok c1 /\ concatM (link_capacity R I V) (dkeys (v_active V)) = Ok c2 /\
  (forall tx e c, In (tx, e, c) pk -> 0 <= w_pol w tx e c <= 1) /\
  (forall e c n, In (e, c, n) ck -> zero_one (w_class w e c n)) /\ (forall c, In c c1 -> dsat w c) /\ (forall c, In c c2 -> dsat w c).
Proof.
  assert (H := HP). unfold full_problem in H. fold I in H. apply rbind_ok in H. destruct H as (P & _ & H). apply rbind_ok in H. destruct H as ((V & Dp) & EV & H).
  apply rbind_ok in H. destruct H as (C & EC & H). injection H as H. cbn [fst] in EC.
  unfold deploy_tables in EV. apply rbind_ok in EV. destruct EV as (act & Eact & EV). apply rbind_ok in EV. destruct EV as (vs & Evs & EV).
  apply rbind_ok in EV. destruct EV as (ok & Eok & EV). apply rbind_ok in EV. destruct EV as (ak & Eak & EV). apply rbind_ok in EV. destruct EV as (sk & Esk & EV).
  apply rbind_ok in EV. destruct EV as (tk & Etk & EV). injection EV as EV EDp.
  unfold create_exact_capacity_constraints in EC. apply rbind_ok in EC. destruct EC as (pk & Epk & EC). apply rbind_ok in EC. destruct EC as (ck & Eck & EC).
  apply rbind_ok in EC. destruct EC as (c1 & E1 & EC). apply rbind_ok in EC. destruct EC as (c2 & E2 & EC). injection EC as EC.
  assert (Hc := proj2 Ha). rewrite <- H, <- EC in Hc. destruct Hc as (H1 & H2 & H3). cbn [snd d_pols d_classes d_constraints] in H1, H2, H3.
  exists V, act, ok, ak, sk, tk, pk, ck, c1, c2.
  split; [exact Eact|]. split; [exact Eok|]. split; [exact Eak|]. split; [exact Esk|]. split; [exact Etk|].
  split; [now rewrite <- EV|]. split; [now rewrite <- EV|]. split; [now rewrite <- EV|]. split; [now rewrite <- EV|]. split; [now rewrite <- EV|].
  repeat match goal with |- _ /\ _ => split end; try assumption; intros c Hin; apply H3, in_app_iff; auto.
Qed.
Ltac sps := destruct spieces as (V & act & ok & ak & sk & tk & pk & ck & c1 & c2 &
  Eact & Eok & Eak & Esk & Etk & VS & VF & VT & VO & VA & Epk & Eck & E1 & E2 & B1 & B2 & S1 & S2).
Lemma site_off_val V act i s : active_sites I = Ok act -> site_constants I act = Ok (v_site V) -> dget (t_sites t) i = Some s ->
  exists b, site_off V i = Ok b /\ (b = false <-> deployed t i).
Proof.
  intros Ea VS Hs. unfold site_off, get. rewrite (site_val ps at_ t I0 Hw Hn HI V act i s Ea VS Hs). cbn [rbind]. eexists. split; [reflexivity|].
  rewrite <- (active_deployed ps at_ t I0 Hw Hn Hch HI act Ea i), <- mem_In. destruct (mem i act); cbn; split; congruence.
Qed.
(** every link that disturbs is among those found *)
Lemma disturbing_found V act ak k l a b ls : active_sites I = Ok act -> site_constants I act = Ok (v_site V) -> active_link_keys I = Ok ak -> v_active V = dict_of (fresh active_var ak) ->
  link_stored t k l -> l_sectors l = Some (a, b) -> interfering_links R I V (l_tx l) (l_rx l) (key_id b) = Ok ls -> forall e, disturbs R at_ t l e -> In e ls.
Proof.
  intros Ea VS Eak VA El Es E e (k1 & l1 & a1 & b1 & k2 & l2 & a2 & b2 & El1 & He1 & Es1 & Hrx & Htx & Hd1 & Hcn & Hncn & El2 & He2 & Es2 & Hs & Htx2 & Hrx2 & Hd2 & ->).
  assert (D := D0 ps at_ t I0 Hw Hn HI). destruct (link_sites t Hw k l El) as ((st & Est) & (sr & Esr)).
  destruct (link_sites t Hw k1 l1 El1) as ((st1 & Est1) & _). destruct (link_sites t Hw k2 l2 El2) as (_ & (sr2 & Esr2)).
  unfold interfering_links in E. apply rbind_ok in E. destruct E as (ty & Ety & E). apply get_ok in Ety. change (i_type I) with (i_type I0) in Ety. rewrite (D_site _ _ _ _ _ D _ _ Esr) in Ety. injection Ety as <-.
  apply rbind_ok in E. destruct E as (ins & Ei & E). destruct (incoming_ok ps at_ t (a_cap at_) I0 D (l_rx l) ins Ei) as (_ & Hins).
  assert (Hin : In (l_tx l1, l_rx l1) ins) by (apply Hins; split; [right; right; eauto|exact Hrx]).
  destruct (concatM_In _ _ _ _ E Hin) as (r & Er & Hincl). cbn [fst snd] in Er.
  assert (G1 := active_get ps at_ t I0 Hw Hn HI V ak k1 l1 Eak VA El1 He1). rewrite Hrx in G1. unfold dmem in Er at 1. rewrite G1 in Er. cbn [negb] in Er.
  apply rbind_ok in Er. destruct Er as (s & Es' & Er). apply get_ok in Es'. change (i_l2s I) with (i_l2s I0) in Es'. rewrite (D_l2s _ _ _ _ _ D _ _ El1), Es1 in Es'. injection Es' as <-. cbn [fst snd] in Er.
  assert (Cn : beq (Real (s_type sr)) (Real CN) = true <-> type_is t (l_rx l) CN).
  { split; [intros B; apply beq_true in B; injection B as B; exists sr; auto|intros (s' & Es' & Ty); rewrite Esr in Es'; injection Es' as <-; apply beq_eq; now rewrite Ty]. }
  assert (C1 : negb (beq (Real (s_type sr)) (Real CN)) && negb (beq (Some (key_id b)) (Some (key_id b1))) = false).
  { destruct (beq (Real (s_type sr)) (Real CN)) eqn:B; [reflexivity|]. destruct Hncn as (a' & b' & Es' & Hb'); [rewrite <- Cn; discriminate|]. rewrite Es in Es'. injection Es' as <- <-.
    assert (beq (Some (key_id b)) (Some (key_id b1)) = true) as -> by (apply beq_eq; now rewrite Hb'). reflexivity. }
  rewrite C1 in Er. apply rbind_ok in Er. destruct Er as (off & Eoff & Er). destruct (site_off_val V act _ _ Ea VS Est1) as (o & Eo & Ho). rewrite Eo in Eoff. injection Eoff as <-.
  rewrite (proj2 Ho Hd1) in Er. assert (N1 : beq (l_tx l1) (l_tx l) = false) by now apply beq_neq. rewrite N1 in Er. cbn [orb] in Er.
  assert (C2 : beq (Real (s_type sr)) (Real CN) && negb (r_beam R (l_tx l, l_rx l) (l_tx l1)) = false).
  { destruct (beq (Real (s_type sr)) (Real CN)) eqn:B; [|reflexivity]. rewrite (Hcn (proj1 Cn eq_refl)). reflexivity. }
  rewrite C2 in Er. apply rbind_ok in Er. destruct Er as (outs & Eouts & Er). destruct (outgoing_ok ps at_ t (a_cap at_) I0 D (l_tx l1) outs Eouts) as (_ & Houts).
  assert (Hout : In (l_tx l2, l_rx l2) outs) by (apply Houts; split; [right; right; eauto|exact Htx2]).
  destruct (concatM_In _ _ _ _ Er Hout) as (r2 & Er2 & Hincl2). cbn [fst snd] in Er2.
  assert (G2 := active_get ps at_ t I0 Hw Hn HI V ak k2 l2 Eak VA El2 He2). rewrite Htx2 in G2. unfold dmem in Er2. rewrite G2 in Er2. cbn [negb] in Er2.
  apply rbind_ok in Er2. destruct Er2 as (s2 & Es2' & Er2). apply get_ok in Es2'. change (i_l2s I) with (i_l2s I0) in Es2'. rewrite (D_l2s _ _ _ _ _ D _ _ El2), Es2 in Es2'. injection Es2' as <-. cbn [fst] in Er2.
  assert (beq (Some (key_id a2)) (Some (key_id a1)) = true) as Bk by (apply beq_eq; now rewrite Hs). rewrite Bk in Er2. cbn [negb] in Er2.
  apply rbind_ok in Er2. destruct Er2 as (off2 & Eoff2 & Er2). destruct (site_off_val V act _ _ Ea VS Esr2) as (o2 & Eo2 & Ho2). rewrite Eo2 in Eoff2. injection Eoff2 as <-.
  rewrite (proj2 Ho2 Hd2) in Er2. assert (N2 : beq (l_rx l2) (l_rx l) = false) by now apply beq_neq. rewrite N2 in Er2. cbn [orb] in Er2. injection Er2 as <-.
  apply Hincl, Hincl2. now left.
Qed.
(** links found are links of the topology *)
Lemma found_link V ak tx rx sec ls e : active_link_keys I = Ok ak -> v_active V = dict_of (fresh active_var ak) -> interfering_links R I V tx rx sec = Ok ls -> In e ls ->
  exists k l, link_stored t k l /\ eligible at_ l /\ e = (l_tx l, l_rx l).
Proof.
  intros Eak VA E Hin. assert (D := D0 ps at_ t I0 Hw Hn HI). unfold interfering_links in E. apply rbind_ok in E. destruct E as (ty & _ & E). apply rbind_ok in E. destruct E as (ins & _ & E).
  destruct (concatM_inv _ _ _ _ E Hin) as (e1 & r & He1 & Er & Hr1). destruct (negb _) in Er; [injection Er as <-; contradiction|]. apply rbind_ok in Er. destruct Er as (s & _ & Er).
  destruct (_ && _) in Er; [injection Er as <-; contradiction|]. apply rbind_ok in Er. destruct Er as (off & _ & Er). destruct (_ || _) in Er; [injection Er as <-; contradiction|].
  destruct (_ && _) in Er; [injection Er as <-; contradiction|]. apply rbind_ok in Er. destruct Er as (outs & Eouts & Er).
  destruct (outgoing_ok ps at_ t (a_cap at_) I0 D (fst e1) outs Eouts) as (_ & Houts).
  destruct (concatM_inv _ _ _ _ Er Hr1) as (o & r2 & Ho & Er2 & Hr2). destruct (dmem (v_active V) (fst e1, snd o)) eqn:M; [|injection Er2 as <-; contradiction]. cbn [negb] in Er2.
  apply rbind_ok in Er2. destruct Er2 as (s2 & _ & Er2). destruct (negb _) in Er2; [injection Er2 as <-; contradiction|]. apply rbind_ok in Er2. destruct Er2 as (off2 & _ & Er2). injection Er2 as <-.
  destruct (_ || _) in Hr2; [contradiction|]. destruct Hr2 as [<-|[]]. unfold dmem in M. destruct (dget (v_active V) (fst e1, snd o)) as [x|] eqn:G; [|discriminate].
  destruct (active_inv ps at_ t I0 Hw Hn HI V ak _ _ Eak VA G) as (_ & k & l & El & He & Ee). exists k, l. repeat split; auto; try apply He. rewrite <- Ee. apply Houts in Ho. rewrite <- (proj2 Ho). now rewrite <- surjective_pairing.
Qed.
Lemma odd_bin i ok' x : odd_keys I = Ok ok' -> dget (dict_of (fresh VOdd ok')) i = Some x -> x = Var (VOdd i) /\ zero_one (v (VOdd i)).
Proof.
  intros Eok' G. destruct sinr_deploy as (ED & Hv).
  destruct (cpieces I0 dn_limit total_limit bad (fst PC) v ED Hv) as (V & Dp & act & ok & ak & sk & tk & sh & c1 & c2 & c5 & c7 & c8 & c9 & c10 & c11 & c12 & c13 & c14 & c15 & c16 &
    Eact & Eok & Eak & Esk & Etk & VS & VSec & VF & VT & VO & VA & EDp & Hd & Ed & _).
  assert (ok = ok') by (unfold I in *; congruence). subst ok'. rewrite fresh_get in G. destruct (mem i ok) eqn:M; [|discriminate]. injection G as <-. split; [reflexivity|].
  apply (Hd (VOdd i, Binary)). rewrite Ed, !in_app_iff. left. apply in_map_iff. exists i. split; [reflexivity|now apply mem_In].
Qed.
Lemma tdm_val V tk e c x : v_tdm V = dict_of (fresh tdm_var tk) -> dget (v_tdm V) (e, c) = Some x -> eval v x = share v c e.
Proof. intros ->. rewrite fresh_get. destruct (mem _ _); [|discriminate]. intros E. injection E as <-. reflexivity. Qed.
Lemma odd_dec a b : zero_one a -> zero_one b -> a == b \/ ~ a == b.
Proof. intros [A|A] [B|B]; [left|right|right|left]; lra. Qed.

(** what the linearised product is *)
Lemma pol_val V ok tk pk c1 tx e c : odd_keys I = Ok ok -> v_odd V = dict_of (fresh VOdd ok) -> v_tdm V = dict_of (fresh tdm_var tk) ->
  pol_keys R I V = Ok pk -> create_tdm_compatible_polarity_decisions R I V = Ok c1 -> (forall tx e c, In (tx, e, c) pk -> 0 <= w_pol w tx e c <= 1) -> (forall c, In c c1 -> dsat w c) ->
  In (tx, e, c) pk -> (v (VOdd tx) == v (VOdd (fst e)) -> w_pol w tx e c == share v c e) /\ (~ v (VOdd tx) == v (VOdd (fst e)) -> w_pol w tx e c == 0).
Proof.
  intros Eok VO VT Epk E1 B1 S1 Hin. assert (B := B1 _ _ _ Hin). unfold create_tdm_compatible_polarity_decisions in E1. rewrite Epk in E1. cbn [rbind] in E1.
  destruct (concatM_In _ _ _ _ E1 Hin) as (r & Er & Hr'). unfold pol_constraints in Er. apply rbind_ok in Er. destruct Er as (td & Etd & Er). apply rbind_ok in Er. destruct Er as (xk & Ek & Er).
  apply rbind_ok in Er. destruct Er as (xi & Ei & Er). injection Er as <-. apply get_ok in Etd, Ek, Ei. rewrite VO in Ek, Ei.
  destruct (odd_bin _ _ _ Eok Ek) as (-> & Bk). destruct (odd_bin _ _ _ Eok Ei) as (-> & Bi).
  assert (Q1 := S1 _ (Hr' _ (or_introl eq_refl))). assert (Q2 := S1 _ (Hr' _ (or_intror (or_introl eq_refl)))). assert (Q3 := S1 _ (Hr' _ (or_intror (or_intror (or_introl eq_refl))))).
  assert (Q4 := S1 _ (Hr' _ (or_intror (or_intror (or_intror (or_introl eq_refl)))))). assert (Q5 := S1 _ (Hr' _ (or_intror (or_intror (or_intror (or_intror (or_introl eq_refl))))))).
  cbn [dsat deval eval] in Q1, Q2, Q3, Q4, Q5. fold v in Q1, Q2, Q3, Q4, Q5. rewrite (tdm_val V tk e c td VT Etd) in Q3, Q4, Q5.
  split; intros Hs; destruct Bk as [Bk|Bk], Bi as [Bi|Bi]; lra.
Qed.
(** the interference in the constraint is at least what disturbs the link *)
Lemma interference V act ok ak tk pk c1 k l a b c p : active_sites I = Ok act -> site_constants I act = Ok (v_site V) -> active_link_keys I = Ok ak -> v_active V = dict_of (fresh active_var ak) ->
  odd_keys I = Ok ok -> v_odd V = dict_of (fresh VOdd ok) -> v_tdm V = dict_of (fresh tdm_var tk) ->
  pol_keys R I V = Ok pk -> create_tdm_compatible_polarity_decisions R I V = Ok c1 -> (forall tx e c, In (tx, e, c) pk -> 0 <= w_pol w tx e c <= 1) -> (forall c, In c c1 -> dsat w c) ->
  link_stored t k l -> eligible at_ l -> l_sectors l = Some (a, b) -> deployed t (l_tx l) -> deployed t (l_rx l) -> (c < p_channels ps)%nat ->
  interfering_rsl_expr R I V (l_tx l) (l_rx l) (key_id b) c = Ok p ->
  forall heard es, heard_as ps v (l_tx l) c heard -> lists es (disturbs R at_ t l) ->
  total (fun e => r_irsl R (fst e, l_rx l) * heard e) es <= deval w (fst p).
Proof.
  intros Ea VS Eak VA Eok VO VT Epk E1 B1 S1 El He Es Dt Dr Hc Ep heard es Hh (Hnd & Hes). assert (D := D0 ps at_ t I0 Hw Hn HI). destruct sinr_deploy as (ED & Hv).
  unfold interfering_rsl_expr in Ep. apply rbind_ok in Ep. destruct Ep as (ls & Els & Ep). apply rbind_ok in Ep. destruct Ep as (terms & Et & Ep). injection Ep as <-. cbn [fst].
  change (i_params I) with (i_params I0) in Et. rewrite (chan_params ps at_ t I0 HI) in Et.
  assert (Hsh : forall e, In e ls -> 0 <= share v c e).
  { intros e Hin. destruct (found_link V ak _ _ _ ls e Eak VA Els Hin) as (k' & l' & El' & He' & ->). apply (chan_share_kind ps at_ t I0 dn_limit total_limit bad (fst PC) v Hw Hn Hch HI ED Hv k' l' c El' (proj1 He') Hc). }
  assert (T : forall e y, In e ls -> (do x <- (if p_ignore_polarities ps then do y <- get (v_tdm V) (e, c) ; Ok (DNet y) else Ok (DPol (l_tx l) e c)) ; Ok (DScale (r_irsl R (fst e, l_rx l)) x)) = Ok y ->
    deval w y == r_irsl R (fst e, l_rx l) * heard e /\ 0 <= heard e).
  { intros e y Hin Ey. assert (S := Hsh e Hin). destruct (Hh e) as (H1 & H2). unfold in_step in H1, H2. apply rbind_ok in Ey. destruct Ey as (x & Ex & Ey). injection Ey as <-. cbn [deval].
    destruct (p_ignore_polarities ps) eqn:Ip.
    - apply rbind_ok in Ex. destruct Ex as (td & Etd & Ex). injection Ex as <-. apply get_ok in Etd. cbn [deval]. fold v. rewrite (tdm_val V tk e c td VT Etd). rewrite H1 by now left. split; [reflexivity|exact S].
    - injection Ex as <-. cbn [deval].
      assert (Hpk : In (l_tx l, e, c) pk).
      { unfold pol_keys in Epk. change (i_params I) with (i_params I0) in Epk. rewrite (chan_params ps at_ t I0 HI), Ip in Epk.
        assert (Hin' : In (l_tx l, l_rx l) (dkeys (v_active V))) by (apply In_dkeys; eexists; exact (active_get ps at_ t I0 Hw Hn HI V ak k l Eak VA El He)).
        destruct (concatM_In _ _ _ _ Epk Hin') as (r & Er & Hr'). cbn [fst snd] in Er. destruct (link_sites t Hw k l El) as ((st & Est) & (sr & Esr)).
        unfold link_off in Er. cbn [fst snd] in Er. destruct (site_off_val V act _ _ Ea VS Est) as (o & Eo & Ho). destruct (site_off_val V act _ _ Ea VS Esr) as (o2 & Eo2 & Ho2).
        rewrite Eo, Eo2, (proj2 Ho Dt), (proj2 Ho2 Dr) in Er. cbn [rbind] in Er. unfold rx_sector_of, get in Er. change (i_l2s I) with (i_l2s I0) in Er. rewrite (D_l2s _ _ _ _ _ D _ _ El), Es in Er. cbn [rbind snd] in Er.
        rewrite Els in Er. cbn [rbind] in Er. injection Er as <-. apply Hr', in_flat_map. exists e. split; [exact Hin|]. apply in_map_iff. exists c. split; [reflexivity|]. now apply (chans ps at_ t I0 Hch HI). }
      destruct (pol_val V ok tk pk c1 _ _ _ Eok VO VT Epk E1 B1 S1 Hpk) as (P1 & P2).
      assert (Dec : v (VOdd (l_tx l)) == v (VOdd (fst e)) \/ ~ v (VOdd (l_tx l)) == v (VOdd (fst e))).
      { destruct (Qeq_bool (v (VOdd (l_tx l))) (v (VOdd (fst e)))) eqn:B; [left; now apply Qeq_bool_eq|right; now apply Qeq_bool_neq]. }
      destruct Dec as [Q|Q].
      + rewrite (P1 Q), H1 by now right. split; [reflexivity|exact S].
      + assert (NQ : ~ (false = true \/ v (VOdd (l_tx l)) == v (VOdd (fst e)))) by (intros [?|?]; [discriminate|contradiction]). rewrite (P2 Q), (H2 NQ). split; lra. }
  assert (Sum : total (fun e => r_irsl R (fst e, l_rx l) * heard e) ls == deval w (dsum terms)).
  { rewrite deval_dsum. apply mapM_ok in Et. clear Els Hes Hnd Hsh. induction Et as [|e y ls ys Ey Et IH]; [reflexivity|]. cbn [total]. rewrite IH by (intros; apply T; [now right|assumption]). now rewrite (proj1 (T e y (or_introl eq_refl) Ey)). }
  rewrite <- Sum. apply sum_incl; auto.
  - intros e Hin. apply Hes in Hin. now apply (disturbing_found V act ak k l a b ls Ea VS Eak VA El Es Els).
  - intros e Hin. destruct (mapM_In _ _ _ _ Et Hin) as (y & Ey & _). destruct (T e y Hin Ey) as (_ & H0). assert (G := proj1 Hr (fst e, l_rx l)). nra.
Qed.

(** a link with traffic *)
Lemma sinr_capacity k l : link_stored t k l -> l_wireless l = true -> 0 < r_rsl R (l_tx l, l_rx l) -> 0 < flow v (l_tx l, l_rx l) ->
  exists c snr rate, (c < p_channels ps)%nat /\ In (snr, rate) (r_mcs R (l_rx l)) /\ flow v (l_tx l, l_rx l) <= rate /\
    (forall c', (c' < p_channels ps)%nat -> c' <> c -> share v c' (l_tx l, l_rx l) == 0) /\ received R ps at_ t v l c snr.
Proof.
  intros El W Hrsl Hf. assert (D := D0 ps at_ t I0 Hw Hn HI). destruct sinr_deploy as (ED & Hv).
  destruct (chan_traffic ps at_ t I0 dn_limit total_limit bad (fst PC) v Hw Hn Hch HI ED Hv k l El W Hf) as (He & Hu).
  destruct (chan_deployed ps at_ t I0 dn_limit total_limit bad (fst PC) v Hw Hn Hss Hch HI ED Hv k l El He Hu) as (Dt & Dr).
  assert (Hs := He). destruct Hs as (_ & (a & b & Es) & _). sps. set (e := (l_tx l, l_rx l)) in *.
  assert (Hin : In e (dkeys (v_active V))) by (apply In_dkeys; eexists; exact (active_get ps at_ t I0 Hw Hn HI V ak k l Eak VA El He)).
  assert (Off : link_off V e = Ok false).
  { destruct (link_sites t Hw k l El) as ((st & Est) & (sr & Esr)). unfold link_off, e. cbn [fst snd]. destruct (site_off_val V act _ _ Eact VS Est) as (o & Eo & Ho). destruct (site_off_val V act _ _ Eact VS Esr) as (o2 & Eo2 & Ho2).
    rewrite Eo, Eo2, (proj2 Ho Dt), (proj2 Ho2 Dr). reflexivity. }
  set (N := List.length (rows R (l_rx l))). set (z := zero_row R (l_rx l)). set (f := fun c n => w_class w e c n). set (cap := fun n => snd (nth n (rows R (l_rx l)) (0, 0))).
  assert (Ch : forall c, In c (channels I) <-> (c < p_channels ps)%nat) by (apply (chans ps at_ t I0 Hch HI)).
  assert (Fb : forall c n, In c (channels I) -> In n (seq 0 N) -> zero_one (f c n)).
  { intros c n Hc Hn'. apply B2. destruct (concatM_In _ _ _ _ Eck Hin) as (r & Er & Hr'). rewrite Off in Er. cbn [rbind] in Er. injection Er as <-. apply Hr', in_flat_map. exists c. split; [exact Hc|]. apply in_map_iff. exists n. split; [reflexivity|exact Hn']. }
  destruct (index_zero_spec (rows R (l_rx l)) (rows_zero R (l_rx l))) as (Zlt & Zcap). fold (zero_row R (l_rx l)) in Zlt, Zcap. fold z in Zlt, Zcap. fold N in Zlt.
  assert (Zin : In z (seq 0 N)) by (apply in_seq; lia). change (cap z == 0) in Zcap.
  destruct (concatM_In _ _ _ _ E2 Hin) as (r & Er & Hr'). unfold link_capacity in Er. rewrite Off in Er. cbn [rbind] in Er.
  unfold rx_sector_of in Er. unfold get at 1 in Er. change (i_l2s I) with (i_l2s I0) in Er. unfold e in Er at 1. rewrite (D_l2s _ _ _ _ _ D _ _ El), Es in Er. cbn [rbind snd] in Er.
  apply rbind_ok in Er. destruct Er as (per & Eper & Er). apply rbind_ok in Er. destruct Er as (fl & Efl & Er). injection Er as Er.
  apply get_ok in Efl. rewrite VF, fresh_get in Efl. destruct (mem e (flow_keys I)); [|discriminate]. injection Efl as <-.
  change (snd e) with (l_rx l) in Er. change (i_params I) with (i_params I0) in Er. rewrite (chan_params ps at_ t I0 HI) in Er.
  (* per channel *)
  assert (Per : forall c, In c (channels I) -> exists p, interfering_rsl_expr R I V (l_tx l) (l_rx l) (key_id b) c = Ok p /\
    / r_rsl R e * (deval w (fst p) + r_noise R (l_rx l)) <= total (fun n => inverse R (l_rx l) ((snd p + r_noise R (l_rx l)) / r_rsl R e) n * f c n) (seq 0 N) /\
    total (f c) (seq 0 N) <= 1 /\ (p_channels ps <> 1%nat -> share v c e <= 1 - f c z)).
  { intros c Hc. destruct (concatM_In _ _ _ _ Eper Hc) as (q & Eq & Hq). unfold channel_capacity in Eq. change (fst e) with (l_tx l) in Eq. change (snd e) with (l_rx l) in Eq.
    apply rbind_ok in Eq. destruct Eq as (p & Ep & Eq). exists p. split; [exact Ep|]. apply rbind_ok in Eq. destruct Eq as (td & Etd & Eq). injection Eq as Eq.
    assert (Nz : Qeq_bool (r_rsl R e) 0 = false) by (destruct (Qeq_bool (r_rsl R e) 0) eqn:B; [apply Qeq_bool_eq in B; lra|reflexivity]).
    assert (Sq : forall x, In x q -> dsat w x) by (intros x Hx; apply S2, Hr'; rewrite <- Er; apply in_app_iff; left; apply Hq, Hx). rewrite <- Eq in Sq.
    assert (Q1 := Sq _ (or_introl eq_refl)). assert (Q2 := Sq _ (or_intror (or_introl eq_refl))). unfold over in Q1. rewrite Nz in Q1. cbn [dsat deval] in Q1, Q2.
    rewrite deval_dsum, total_map in Q1. rewrite deval_dsum, total_map in Q2. split; [exact Q1|]. split; [exact Q2|]. intros H1.
    change (i_params I) with (i_params I0) in Etd. rewrite (chan_params ps at_ t I0 HI) in Etd. apply Nat.eqb_neq in H1. rewrite H1 in Etd.
    apply rbind_ok in Etd. destruct Etd as (x & Ex & Etd). injection Etd as <-. apply get_ok in Ex. assert (Q3 := Sq _ (or_intror (or_intror (or_introl eq_refl)))). cbn [dsat deval] in Q3. fold v in Q3. rewrite (tdm_val V tk e c x VT Ex) in Q3. exact Q3. }
  assert (Zs : p_channels ps <> 1%nat -> inject_Z (Z.of_nat (p_channels ps)) - 1 <= total (fun c => f c z) (channels I)).
  { intros H1. apply Nat.eqb_neq in H1. rewrite H1 in Er.
    assert (Q : dsat w (DLe (DCst (inject_Z (Z.of_nat (p_channels ps)) - 1)) (dsum (map (fun c => DClass e c (zero_row R (l_rx l))) (channels I))))).
    { apply S2, Hr'. rewrite <- Er. apply in_app_iff. right. now left. }
    cbn [dsat deval] in Q. rewrite deval_dsum, total_map in Q. exact Q. }
  assert (Fl : flow v e <= total (fun n => total (fun c => cap n * f c n) (channels I)) (seq 0 N)).
  { assert (Q : dsat w (DLe (DNet (Var (flow_var e))) (dsum (flat_map (fun n => map (fun c => DScale (snd (nth n (rows R (l_rx l)) (0, 0))) (DClass e c n)) (channels I)) (seq 0 (List.length (rows R (l_rx l)))))))).
    { apply S2, Hr'. rewrite <- Er. apply in_app_iff. right. apply in_app_iff. right. now left. }
    cbn [dsat deval] in Q. rewrite deval_dsum, total_flat in Q. eapply Qle_trans; [exact Q|]. apply total_le. intros n _. rewrite total_map. cbn [deval]. apply Qle_refl. }
  rewrite total_exchange in Fl.
  destruct (total_pos (fun c => total (fun n => cap n * f c n) (seq 0 N)) (channels I)) as (c & Hc & Pc); [lra|].
  destruct (total_pos (fun n => cap n * f c n) (seq 0 N) Pc) as (n & Hn' & Pn).
  destruct (Per c Hc) as (p & Ep & Q1 & Q2 & _).
  destruct (Fb c n Hc Hn') as [F|F]; [rewrite F in Pn; lra|]. rewrite F in Pn. assert (Pcap : 0 < cap n) by lra. clear Pn.
  assert (Hnz : n <> z) by (intros ->; lra).
  assert (O : forall m, In m (seq 0 N) -> m <> n -> f c m == 0) by (apply (others_zero (f c) (seq 0 N) n); auto using seq_NoDup).
  assert (Fz : f c z == 0) by (apply O; auto).
  assert (Oc : forall c', In c' (channels I) -> c' <> c -> f c' z == 1 /\ p_channels ps <> 1%nat).
  { intros c' Hc' Hne. assert (H1 : p_channels ps <> 1%nat) by (apply Ch in Hc; apply Ch in Hc'; lia). split; [|exact H1]. specialize (Zs H1).
    assert (Z1 : forall y, In y (channels I) -> y <> c -> 1 - f y z == 0).
    { apply (others_zero (fun y => 1 - f y z) (channels I) c); auto.
      - intros y Hy. destruct (Fb y z Hy Zin); [right|left]; lra.
      - apply seq_NoDup.
      - rewrite total_sub, ones_total. assert (Len : List.length (channels I) = p_channels ps). { unfold channels. change (i_params I) with (i_params I0). rewrite (chan_params ps at_ t I0 HI). apply seq_length. } rewrite Len. lra.
      - rewrite Fz. lra. }
    specialize (Z1 c' Hc' Hne). lra. }
  assert (Rest : forall c', In c' (channels I) -> c' <> c -> total (fun m => cap m * f c' m) (seq 0 N) == 0).
  { intros c' Hc' Hne. destruct (Oc c' Hc' Hne) as (O1 & _). destruct (Per c' Hc') as (p' & _ & _ & Q2' & _).
    rewrite (total_single _ (seq 0 N) z); [rewrite Zcap; lra|apply seq_NoDup|exact Zin|]. intros m Hm Hmz. rewrite (others_zero (f c') (seq 0 N) z (fun m Hm => Fb c' m Hc' Hm) (seq_NoDup _ _) Q2' Zin O1 m Hm Hmz). lra. }
  assert (Fc : total (fun m => cap m * f c m) (seq 0 N) == cap n).
  { rewrite (total_single _ (seq 0 N) n); [rewrite F; lra|apply seq_NoDup|exact Hn'|]. intros m Hm Hmn. rewrite (O m Hm Hmn). lra. }
  rewrite (total_single _ (channels I) c (seq_NoDup _ _) Hc Rest), Fc in Fl.
  assert (Row : In (nth n (rows R (l_rx l)) (0, 0)) (rows R (l_rx l))) by (apply nth_In; apply in_seq in Hn'; fold N; lia).
  destruct (rows_row R (l_rx l) _ Row Pcap) as (snr & Hsnr & Einv). fold (cap n) in Hsnr.
  exists c, snr, (cap n). split; [now apply Ch|]. split; [exact Hsnr|]. split; [exact Fl|]. split.
  - intros c' Hc' Hne. apply Ch in Hc'. destruct (Oc c' Hc' Hne) as (O1 & H1). destruct (Per c' Hc') as (p' & _ & _ & _ & Q3). specialize (Q3 H1).
    assert (G := chan_share_kind ps at_ t I0 dn_limit total_limit bad (fst PC) v Hw Hn Hch HI ED Hv k l c' El W (proj1 (Ch c') Hc')). fold e in G. lra.
  - intros heard es Hh Hes.
    assert (T := interference V act ok ak tk pk c1 k l a b c p Eact VS Eak VA Eok VO VT Epk E1 B1 S1 El He Es Dt Dr (proj1 (Ch c) Hc) Ep heard es Hh Hes).
    rewrite (total_single _ (seq 0 N) n) in Q1; [|apply seq_NoDup|exact Hn'|intros m Hm Hmn; rewrite (O m Hm Hmn); lra].
    unfold inverse in Q1. fold z in Q1. apply Nat.eqb_neq in Hnz. rewrite Hnz, Einv, F in Q1.
    assert (Ps : 0 < snr) by (exact (proj2 Hr _ _ Hsnr)). fold e. set (J := deval w (fst p)) in *. set (J' := total _ es) in *. set (nz := r_noise R (l_rx l)) in *. set (rsl := r_rsl R e) in *.
    assert (Q4 : J + nz <= rsl * / snr). { setoid_replace (J + nz) with (rsl * (/ rsl * (J + nz))) by (field; lra). apply Qmult_le_l; [exact Hrsl|]. lra. }
    assert (Q5 : snr * (J + nz) <= rsl). { setoid_replace rsl with (snr * (rsl * / snr)) by (field; lra). now apply Qmult_le_l. }
    assert (snr * (nz + J') <= snr * (J + nz)) by (apply Qmult_le_l; [exact Ps|lra]). lra.
Qed.
End Sinr.
