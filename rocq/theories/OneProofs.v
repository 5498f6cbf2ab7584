(** Airtime on one channel only. *)
From Coq Require Import QArith Lqa Lia.
From Verif Require Import Base Dict TopologyModel TopologySpec GraphSpec RfModel RfProofs SetupModel PruneModel IlpModel IlpSpec QLib MonadLib SetupProofs
  IlpLemmas IlpProofs DeploySpec ChanModel ChanSpec ChanProofs SinrModel SinrSpec SinrProofs TuneModel TuneSpec TuneProofs TuneReadProofs.
Local Open Scope Q_scope.

Section One.
Variables (R : radio) (ps : params) (at_ : attrs) (t : topo) (I0 : inst) (dn_limit total_limit : nat) (bad : list (string * string * string)) (PC : problem * dproblem) (w : answer).
Hypothesis Hw : well_formed t.
Hypothesis Hn : names_ok at_ t.
Hypothesis Hss : sectors_stored t.
Hypothesis Hch : (1 <= p_channels ps)%nat.
Hypothesis HI : network ps at_ t = Ok I0.
Hypothesis HP : full_problem R dn_limit total_limit bad I0 = Ok PC.
Hypothesis Ha : answers PC w.
Let I := deploy_inst I0.
Let v := w_net w.

Lemma sinr_one k l c c' : link_stored t k l -> eligible at_ l -> (c < p_channels ps)%nat -> (c' < p_channels ps)%nat ->
  0 < share v c (l_tx l, l_rx l) -> 0 < share v c' (l_tx l, l_rx l) -> c = c'.
Proof.
  intros El He Hc Hc' P P'. destruct (Nat.eq_dec c c') as [E|Ne]; [exact E|exfalso]. assert (H1 : p_channels ps <> 1%nat) by lia.
  assert (D := D0 ps at_ t I0 Hw Hn HI). destruct (sinr_deploy R I0 dn_limit total_limit bad PC w HP Ha) as (ED & Hv). fold v in Hv.
  assert (Hu := proj2 (chan_idle ps at_ t I0 dn_limit total_limit bad (fst PC) v Hw Hn Hch HI ED Hv k l El He) c Hc P).
  destruct (chan_deployed ps at_ t I0 dn_limit total_limit bad (fst PC) v Hw Hn Hss Hch HI ED Hv k l El He Hu) as (Dt & Dr).
  assert (Hs := He). destruct Hs as (_ & (a & b & Es) & _).
  destruct (spieces R I0 dn_limit total_limit bad PC w HP Ha) as (V & act & ok & ak & sk & tk & pk & ck & c1 & c2 &
    Eact & Eok & Eak & Esk & Etk & VS & VF & VT & VO & VA & Epk & Eck & E1 & E2 & B1 & B2 & S1 & S2). set (e := (l_tx l, l_rx l)) in *.
  assert (Hin : In e (dkeys (v_active V))) by (apply In_dkeys; eexists; exact (active_get ps at_ t I0 Hw Hn HI V ak k l Eak VA El He)).
  assert (Off : link_off V e = Ok false).
  { destruct (link_sites t Hw k l El) as ((st & Est) & (sr & Esr)). unfold link_off, e. cbn [fst snd].
    destruct (site_off_val ps at_ t I0 Hw Hn Hch HI V act _ _ Eact VS Est) as (o & Eo & Ho). destruct (site_off_val ps at_ t I0 Hw Hn Hch HI V act _ _ Eact VS Esr) as (o2 & Eo2 & Ho2).
    rewrite Eo, Eo2, (proj2 Ho Dt), (proj2 Ho2 Dr). reflexivity. }
  set (z := zero_row R (l_rx l)). set (f := fun c => w_class w e c z).
  assert (Ch : forall c, In c (channels I) <-> (c < p_channels ps)%nat) by (apply (chans ps at_ t I0 Hch HI)).
  destruct (index_zero_spec (rows R (l_rx l)) (rows_zero R (l_rx l))) as (Zlt & _). fold (zero_row R (l_rx l)) in Zlt. fold z in Zlt.
  assert (Fb : forall c, In c (channels I) -> zero_one (f c)).
  { intros d Hd. apply B2. destruct (concatM_In _ _ _ _ Eck Hin) as (r & Er & Hr'). unfold I in Er. rewrite Off in Er. cbn [rbind] in Er. injection Er as <-. apply Hr', in_flat_map. exists d. split; [exact Hd|]. apply in_map_iff. exists z. split; [reflexivity|]. apply in_seq. cbn. exact (conj (Nat.le_0_l _) Zlt). }
  destruct (concatM_In _ _ _ _ E2 Hin) as (r & Er & Hr'). unfold link_capacity in Er. rewrite Off in Er. cbn [rbind] in Er.
  unfold rx_sector_of in Er. unfold get at 1 in Er. change (i_l2s (deploy_inst I0)) with (i_l2s I0) in Er. unfold e in Er at 1. rewrite (D_l2s _ _ _ _ _ D _ _ El), Es in Er. cbn [rbind snd] in Er.
  apply rbind_ok in Er. destruct Er as (per & Eper & Er). apply rbind_ok in Er. destruct Er as (fl & Efl & Er). injection Er as Er.
  change (snd e) with (l_rx l) in Er. change (i_params (deploy_inst I0)) with (i_params I0) in Er. rewrite (chan_params ps at_ t I0 HI) in Er.
  assert (H1b := H1). apply Nat.eqb_neq in H1b. rewrite H1b in Er.
  assert (Per : forall d, In d (channels I) -> share v d e <= 1 - f d).
  { intros d Hd. destruct (concatM_In _ _ _ _ Eper Hd) as (q & Eq & Hq). unfold channel_capacity in Eq. change (fst e) with (l_tx l) in Eq. change (snd e) with (l_rx l) in Eq.
    apply rbind_ok in Eq. destruct Eq as (p & Ep & Eq). apply rbind_ok in Eq. destruct Eq as (td & Etd & Eq). injection Eq as Eq.
    assert (Sq : forall x, In x q -> dsat w x) by (intros x Hx; apply S2, Hr'; rewrite <- Er; apply in_app_iff; left; apply Hq, Hx). rewrite <- Eq in Sq.
    change (i_params (deploy_inst I0)) with (i_params I0) in Etd. rewrite (chan_params ps at_ t I0 HI), H1b in Etd.
    apply rbind_ok in Etd. destruct Etd as (x & Ex & Etd). injection Etd as <-. apply get_ok in Ex. assert (Q3 := Sq _ (or_intror (or_intror (or_introl eq_refl)))). cbn [dsat deval] in Q3. rewrite (tdm_val w V tk e d x VT Ex) in Q3. exact Q3. }
  assert (Zs : inject_Z (Z.of_nat (p_channels ps)) - 1 <= total f (channels I)).
  { assert (Q : dsat w (DLe (DCst (inject_Z (Z.of_nat (p_channels ps)) - 1)) (dsum (map (fun c => DClass e c (zero_row R (l_rx l))) (channels I))))).
    { apply S2, Hr'. rewrite <- Er. apply in_app_iff. right. now left. }
    cbn [dsat deval] in Q. rewrite deval_dsum, total_map in Q. exact Q. }
  assert (Z : forall d, In d (channels I) -> 0 < share v d e -> 1 - f d == 1).
  { intros d Hd Hp. specialize (Per d Hd). destruct (Fb d Hd) as [F|F]; lra. }
  assert (2 <= total (fun d => 1 - f d) (channels I)).
  { apply (sum_two _ _ c c'); auto; [|apply seq_NoDup|now apply Ch|now apply Ch|apply Z; [now apply Ch|exact P]|apply Z; [now apply Ch|exact P']].
    intros d Hd. destruct (Fb d Hd); [right|left]; lra. }
  rewrite total_sub, ones_total in H. assert (Len : List.length (channels I) = p_channels ps). { unfold channels. change (i_params I) with (i_params I0). rewrite (chan_params ps at_ t I0 HI). apply seq_length. } rewrite Len in H. lra.
Qed.
Lemma sinr_readable : sector_kinds t -> (forall k l, link_stored t k l -> l_wireless l = true -> eligible at_ l) ->
  (forall k l, link_stored t k l -> type_is t (l_tx l) CN -> ~ type_is t (l_rx l) CN) -> exists o, deployment None bad I0 v = Ok o.
Proof.
  intros Hk Hel Hcn. destruct (sinr_deploy R I0 dn_limit total_limit bad PC w HP Ha) as (ED & Hv).
  apply (tune_readable ps at_ t I0 dn_limit total_limit bad (fst PC) v Hw Hn Hss Hk Hch HI ED Hv); [|exact Hcn].
  intros k l c c' El W Hc Hc' P P'. apply (sinr_one k l c c' El (Hel k l El W) Hc Hc'); (eapply Qlt_trans; [|eassumption]; reflexivity).
Qed.
End One.
