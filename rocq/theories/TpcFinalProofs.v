(** Power control: settled powers. *)
From Coq Require Import QArith Qabs Lqa Lia.
From Verif Require Import Base Dict QLib MonadLib SetupModel LosRangeModel TopologyModel RfModel RfSpec TpcModel TpcSpec TpcProofs.
From Verif Require RfProofs.
Local Open Scope Q_scope.
Local Open Scope list_scope.

Lemma find_id links l : NoDup (map l_id links) -> In l links -> find (fun x => beq (l_id x) (l_id l)) links = Some l.
Proof.
  induction links as [|x ls IH]; intros ND H; [destruct H|]. cbn in ND. inversion ND as [|? ? N1 N2]; subst. cbn [find].
  destruct (beq_spec (l_id x) (l_id l)) as [E|N].
  - destruct H as [<-|H]; [reflexivity|]. exfalso. apply N1. rewrite E. now apply in_map.
  - destruct H as [<-|H]; [congruence|auto].
Qed.
Lemma power_for_cases mn g n s : power_for mn g n s == s + n - g /\ (forall q, mn = Some q -> q <= s + n - g) \/ exists q, mn = Some q /\ power_for mn g n s == q /\ s + n - g <= q.
Proof.
  unfold power_for, at_least. destruct mn as [q|]; [|left; split; [reflexivity|discriminate]]. destruct (Qle_bool _ _) eqn:E; qb.
  - right. exists q. split; [reflexivity|]. split; [reflexivity|exact E].
  - left. split; [reflexivity|]. intros q' [= <-]. lra.
Qed.
(** the lowest row of a table *)
Lemma lowest_row (t : list mcsrow) : t <> [] -> exists r, In r t /\ forall r', In r' t -> (m_mcs r <= m_mcs r')%nat.
Proof.
  induction t as [|x t IH]; [congruence|]. intros _. destruct t as [|y t].
  - exists x. split; [now left|]. intros r' [<-|[]]. lia.
  - destruct IH as (r & Hr & L); [discriminate|]. destruct (le_lt_dec (m_mcs x) (m_mcs r)).
    + exists x. split; [now left|]. intros r' [<-|H]; [lia|]. specialize (L r' H). lia.
    + exists r. split; [now right|]. intros r' [<-|H]; [lia|auto].
Qed.
Lemma below_lowest k t r0 : In r0 t -> (forall r, In r t -> (m_mcs r0 <= m_mcs r)%nat) -> distinct_classes t -> increasing_snr t ->
  (k < m_mcs r0)%nat -> get_snr_from_mcs k t = Ok 0 /\ get_backoff_from_mcs k t = 0.
Proof.
  intros I0 L D N Hk. split.
  - unfold get_snr_from_mcs. rewrite RfProofs.smapping_distinct by auto.
    destruct (RfProofs.py_min_n_ok (map snd (map (fun r => (m_snr r, m_mcs r)) t))) as [lo [E [Il _]]].
    { destruct t; [destruct I0|discriminate]. }
    rewrite E. cbn [rbind]. rewrite map_map in Il. apply in_map_iff in Il. destruct Il as (r & <- & Ir). cbn [snd]. specialize (L r Ir).
    destruct (Nat.ltb_spec k (m_mcs r)); [reflexivity|lia].
  - unfold get_backoff_from_mcs. destruct (first_row k t) as [r|] eqn:E; [|reflexivity]. apply first_row_in in E. destruct E as [Ir <-]. specialize (L r Ir). lia.
Qed.

Section Settled.
Variables (table : link -> list mcsrow) (minimum : link -> option Q) (max_power noise gain : link -> Q) (pop_capacity : Q).
Variable received : (string -> num) -> string -> Q.
Variable links : list link.
Notation power_control := (power_control table minimum max_power noise gain pop_capacity received links).

Lemma settled_power n s s' b l p : NoDup (map l_id links) -> good_tables table links -> depends_on_powers received ->
  power_control n s = Ok (s', b) -> settled table minimum max_power noise gain received links s' ->
  In l links -> on_air l -> has_sectors l -> positive_thresholds (table l) -> lowest_usable (table l) (minimum l) (max_power l) ->
  x_tx (s' (l_id l)) = Fin p ->
  exists r, In r (table l) /\ least_power minimum gain received s' l r p /\ p <= max_power l - m_backoff r /\ (m_mcs r <= x_mcs (s' (l_id l)))%nat
    /\ (minimum l = None -> m_mcs r = x_mcs (s' (l_id l))).
Proof.
  intros ids GT ext E St Hl Oa Hs Pos Low Ep.
  assert (tabs : forall l, In l links -> table l <> []) by (intros x Hx; apply (GT x Hx)).
  assert (backs : forall l, In l links -> backoff_nonneg (table l)) by (intros x Hx; apply (GT x Hx)).
  assert (classes : forall l, In l links -> distinct_classes (table l)) by (intros x Hx; apply (GT x Hx)).
  destruct (GT l Hl) as (T0 & D & N & G & B & P0).
  destruct (air_state table minimum max_power noise gain pop_capacity received links ids tabs backs classes ext n s s' b l E Hl Oa Hs) as [(X & _)|(p' & Tr)]; [congruence|].
  destruct Tr as (Ep' & Lmax & Lmin & r & snr & sinr & Er & Er' & _ & _ & Es & Es'). assert (p' = p) by congruence. subst p'.
  destruct (wireless_class table minimum max_power noise gain pop_capacity received links ids tabs backs classes n s s' b l E Hl (proj2 Oa)) as [Cl _].
  rewrite Es in Cl. cbn [class_for] in Cl. set (M := x_mcs (s' (l_id l))) in *.
  destruct St as (s2 & c & E2 & Same). specialize (Same l Hl Oa Hs). rewrite Ep in Same.
  assert (Lv : live l = true) by (now apply on_air_live). assert (Ho : is_out_of_sector l = false) by (now apply sectors_out).
  destruct (round_loop table minimum max_power noise gain received links ids _ _ _ _ E2) as [A _]. destruct (A l Hl Lv) as (m' & Em & E').
  rewrite (analyze_live minimum max_power noise gain received links ids s' l Hl Lv) in Em.
  set (net := fun k : string => _) in Em. set (m0 := set_sinr _ _) in Em.
  assert (En : net (l_id l) = Fin (gain l)) by (unfold net; now rewrite (find_id links l ids Hl), Ho).
  destruct (adapt_loud table minimum max_power noise gain received links net l m0 m' (powers s') (gain l) p r Hl eq_refl Er En (Qeq_refl _) Er' Em) as (level & nn & k & po & L1 & L2 & Ea & _ & Et & _ & _).
  unfold m0 in L1.
  rewrite E', Et in Same. destruct po as [p2|]; cbn in Same; [|contradiction].
  (* the class of the further round is the final class *)
  assert (Elv : level = M).
  { cbn [set_sinr x_sinr] in L1. unfold sinr_for in L1. rewrite Er in L1. cbn [is_ninf nsub nopp nadd mcs_of] in L1.
    destruct (RfProofs.get_mcs_highest (r + - received (powers s') (l_id l)) (table l) T0 D) as (lv & Elv & Hlv).
    assert (lv = level) by congruence. subst lv. apply (RfProofs.highest_unique (table l) sinr); [|exact Cl].
    assert (Q : sinr == r + - received (powers s') (l_id l)) by (rewrite Es', Er'; ring). clear - Hlv Q. unfold highest_supported in *.
    destruct Hlv as [(x & Ix & Mx & Sx & Hx)|[Z Hx]]; [left|right].
    - exists x. split; [exact Ix|]. split; [exact Mx|]. split; [lra|]. intros y Iy Sy. apply Hx; [exact Iy|lra].
    - split; [exact Z|]. intros y Iy. specialize (Hx y Iy). lra. }
  subst level. apply RfProofs.adjust_spec in Ea. destruct Ea as (Lk & [[_ Z]|(Pk & th & Eth & Ep2 & Lp)] & Rej); [discriminate|]. injection Ep2 as Ep2.
  destruct (lowest_row (table l) T0) as (r0 & I0 & L0). set (R := received (powers s') (l_id l)) in *.
  assert (M1 : exists rM, In rM (table l) /\ m_mcs rM = M /\ m_snr rM <= sinr). { destruct Cl as [(x & Ix & Mx & Sx & _)|[Z _]]; [eauto|lia]. }
  destruct M1 as (rM & IM & MM & SM).
  destruct (le_lt_dec (m_mcs r0) k) as [K0|K0].
  - (* a listed class *)
    destruct (G r0 rM k I0 IM) as (x & Ix & Mx); [lia|]. exists x. split; [exact Ix|].
    rewrite <- Mx in Eth, Lp. rewrite (RfProofs.get_snr_exact (table l) x D N Ix) in Eth. injection Eth as <-.
    destruct (RfProofs.table_inverse (table l) x D N Ix) as (_ & _ & _ & Eb). rewrite Eb in Lp.
    assert (Pc := power_for_cases (minimum l) (gain l) nn (m_snr x)). rewrite <- Ep2 in Pc, Lp. split; [|split; [lra|split; [lia|]]].
    + split; [fold R; destruct Pc as [[Q _]|(q & _ & Q1 & Q2)]; lra|]. split; [exact Lmin|]. fold R. intros p3 H3 H4.
      destruct Pc as [[Q _]|(q & Eq & Q1 & Q2)]; [lra|]. specialize (H4 q Eq). lra.
    + intros Nm. destruct Pc as [[Q _]|(q & Eq & _)]; [|congruence]. apply (RfProofs.highest_unique (table l) sinr); [|exact Cl].
      left. exists x. split; [exact Ix|]. split; [reflexivity|]. split; [lra|]. intros y Iy Sy. destruct (le_lt_dec (m_mcs y) (m_mcs x)); [assumption|].
      specialize (N x y Ix Iy l0). lra.
  - (* a class below the table is impossible *)
    exfalso. destruct (below_lowest k (table l) r0 I0 L0 D N K0) as [S0 B0]. rewrite S0 in Eth. injection Eth as <-.
    assert (LM := L0 rM IM). destruct (Rej (m_mcs r0)) as (s0 & Es0 & Lt0); [lia|]. rewrite (RfProofs.get_snr_exact (table l) r0 D N I0) in Es0. injection Es0 as <-.
    destruct (RfProofs.table_inverse (table l) r0 D N I0) as (_ & _ & _ & Eb0). rewrite Eb0 in Lt0.
    assert (Ps := Pos r0 I0). assert (SL : m_snr r0 <= m_snr rM). { destruct (Nat.eq_dec (m_mcs r0) (m_mcs rM)) as [Q|Q].
      - assert (r0 = rM); [|subst; lra]. clear - Q I0 IM D. unfold distinct_classes in D. induction (table l) as [|x t IH]; [destruct I0|]. cbn in D. inversion D as [|? ? D1 D2]; subst.
        destruct I0 as [<-|I0], IM as [<-|IM]; auto; exfalso; apply D1; [rewrite Q|rewrite <- Q]; now apply in_map.
      - specialize (N r0 rM I0 IM). assert (m_mcs r0 < m_mcs rM)%nat by lia. specialize (N H). lra. }
    assert (Pc := power_for_cases (minimum l) (gain l) nn 0). rewrite <- Ep2 in Pc. assert (Pd := power_for_cases (minimum l) (gain l) nn (m_snr r0)).
    destruct Pc as [[Q _]|(q & Eq & Q1 & Q2)]; [lra|]. specialize (Low r0 I0 L0 q Eq).
    destruct Pd as [[Qd Qe]|(q' & Eq' & Q3 & Q4)]; [specialize (Qe q Eq); lra|]. assert (q' = q) by congruence. subst q'. lra.
Qed.

(** More iterations *)
Notation iterate := (iterate table minimum max_power noise received links).
Lemma iterate_more net : forall n d s s1 b s2 b2, iterate n net s = Ok (s1, b) -> iterate (n + d) net s = Ok (s2, b2) ->
  (b = true /\ s2 = s1 /\ b2 = true) \/ (b = false /\ iterate d net s1 = Ok (s2, b2)).
Proof.
  induction n as [|n IH]; intros d s s1 b s2 b2 E1 E2; cbn [TpcModel.iterate Nat.add] in *.
  - injection E1 as <- <-. right. auto.
  - destruct (round _ _ _ _ _ _ _ _) as [[s3 c]|]; [|discriminate]. cbn [rbind fst snd] in *. destruct (_ =? _)%nat.
    + injection E1 as <- <-. injection E2 as <- <-. auto.
    + eauto.
Qed.
Lemma silent_for_good n n' s s' b s'' b'' l : NoDup (map l_id links) -> tables_ok table links -> (n <= n')%Z ->
  power_control n s = Ok (s', b) -> power_control n' s = Ok (s'', b'') -> In l links -> on_air l -> x_tx (s' (l_id l)) = NInf -> x_tx (s'' (l_id l)) = NInf.
Proof.
  intros ids TO Hn E E' Hl Oa Q. assert (Lv : live l = true) by (now apply on_air_live).
  assert (tabs : forall l, In l links -> table l <> []) by (intros x Hx; apply (TO x Hx)).
  assert (backs : forall l, In l links -> backoff_nonneg (table l)) by (intros x Hx; apply (TO x Hx)).
  destruct (control_inv table minimum max_power noise gain pop_capacity received links n s s' b E) as (s0 & s1 & H1 & E0 & E1 & E2).
  destruct (control_inv table minimum max_power noise gain pop_capacity received links n' s s'' b'' E') as (s0' & s1' & H1' & E0' & E1' & E2').
  assert (s0' = s0) by congruence. subst s0'.
  assert (NE : filter live links <> []). { intros C. assert (X : In l (filter live links)) by (now apply filter_In). now rewrite C in X. }
  destruct E1 as [[C _]|E1]; [contradiction|]. destruct E1' as [[C _]|E1']; [contradiction|].
  destruct (final_loop table links ids _ _ E2) as [_ B]. destruct (final_loop table links ids _ _ E2') as [_ B'].
  rewrite B', analyze_tx. rewrite B, analyze_tx in Q.
  assert (S0 := start_sound table minimum max_power noise gain pop_capacity links ids s s0 E0).
  destruct (iterate_sound table minimum max_power noise gain received links ids tabs backs _ _ _ _ _ S0 E1) as (S1 & _ & _).
  replace (Z.to_nat n') with (Z.to_nat n + Z.to_nat (n' - n))%nat in E1' by lia.
  destruct (iterate_more _ _ _ _ _ _ _ _ E1 E1') as [(_ & -> & _)|[_ E3]]; [exact Q|].
  destruct (iterate_sound table minimum max_power noise gain received links ids tabs backs _ _ _ _ _ S1 E3) as (_ & Y & _). apply (Y l Hl Lv). exact Q.
Qed.
Lemma stable_for_good n n' s s' : NoDup (map l_id links) -> tables_ok table links -> (n <= n')%Z -> power_control n s = Ok (s', true) -> power_control n' s = Ok (s', true).
Proof.
  intros ids TO Hn E. assert (tabs : forall l, In l links -> table l <> []) by (intros x Hx; apply (TO x Hx)).
  unfold TpcModel.power_control, guard in *. destruct (Z.leb_spec 1 n); [|discriminate]. destruct (Z.leb_spec 1 n'); [|lia]. cbn [rbind] in *.
  destruct (add_link_capacities _ _ _ _ _ _ _ _) as [s0|]; [|discriminate]. cbn [rbind] in *. destruct (filter live links) as [|x ls] eqn:Ef; [exact E|].
  destruct (iterate (Z.to_nat n) _ s0) as [[s1 b1]|] eqn:E1; [|discriminate]. cbn [rbind fst snd] in E.
  assert (b1 = true). { destruct (foldM _ _ _); [|discriminate]. cbn in E. congruence. } subst b1.
  destruct (iterate_total table minimum max_power noise received links tabs (fun k => nsub (x_rsl (s0 k)) (x_tx (s0 k))) (Z.to_nat n') s0) as [[s2 b2] E2].
  replace (Z.to_nat n') with (Z.to_nat n + Z.to_nat (n' - n))%nat in * by lia.
  destruct (iterate_more _ _ _ _ _ _ _ _ E1 E2) as [(_ & -> & ->)|[C _]]; [|discriminate]. rewrite E2. exact E.
Qed.

(** When the loop ends *)
Lemma qabs_Qabs x : qabs x == Qabs x.
Proof. unfold qabs. destruct (Qle_bool 0 x) eqn:E; qb; [rewrite Qabs_pos by auto|rewrite Qabs_neg by lra]; reflexivity. Qed.
Lemma close_nearly a b : is_close a b = true <-> nearly a b.
Proof.
  destruct a as [x| | |], b as [y| | |]; cbn [is_close nearly]; try (split; [discriminate|tauto]); try (split; auto; fail).
  unfold close_q. rewrite <- !qabs_Qabs. generalize (qabs (x - y)) (qabs x) (qabs y). intros d p q. unfold qmax2.
  assert (M : forall u v w, u <= (if Qle_bool w v then v else w) <-> u <= v \/ u <= w).
  { intros u v w. destruct (Qle_bool w v) eqn:E; qb; split; intros H; try lra. }
  rewrite Qle_bool_iff. rewrite M. destruct (Qle_bool q p) eqn:E1; qb; split; intros H; lra.
Qed.
Lemma steps_count net ls : forall s c s1 c1, NoDup (map l_id ls) -> foldM (power_step table minimum max_power noise net) (s, c) ls = Ok (s1, c1) ->
  c1 = (c + List.length (filter (fun l => is_close (x_tx (s1 (l_id l))) (x_tx (s (l_id l)))) ls))%nat /\ (forall k, ~ In k (map l_id ls) -> s1 k = s k).
Proof.
  induction ls as [|x ls IH]; intros s c s1 c1 ND E; cbn [foldM] in E.
  - injection E as <- <-. cbn. split; [lia|auto].
  - cbn [map] in ND. inversion ND as [|? ? N1 N2]; subst. destruct (power_step _ _ _ _ _ _ _) as [[s2 c2]|] eqn:E2; [|discriminate]. cbn [rbind] in E.
    destruct (IH _ _ _ _ N2 E) as [-> K]. unfold power_step in E2.
    destruct (mcs_of _ _) as [lv|]; [|discriminate]. cbn [rbind] in E2. destruct (adjust_power _ _ _ _ _ _) as [mp|]; [|discriminate]. cbn [rbind] in E2.
    injection E2 as <- <-. assert (Ex : x_tx (s1 (l_id x)) = snd mp) by (rewrite (K _ N1), upd_eq; reflexivity). split.
    + cbn [filter]. rewrite Ex.
      assert (F : filter (fun l => is_close (x_tx (s1 (l_id l))) (x_tx (upd s (l_id x) (mkMeas (fst mp) (nadd (snd mp) (net (l_id x))) (nsub (nadd (snd mp) (net (l_id x))) (Fin (noise x))) (get_link_capacity_from_mcs lv (table x)) (snd mp) (x_sinr (s (l_id x)))) (l_id l)))) ls
                  = filter (fun l => is_close (x_tx (s1 (l_id l))) (x_tx (s (l_id l)))) ls).
      { apply filter_ext_in. intros l Hl. rewrite upd_neq; [reflexivity|]. intros C. apply N1. rewrite <- C. now apply in_map. }
      rewrite F. destruct (is_close (snd mp) _); cbn [List.length]; lia.
    + intros k Nk. cbn [map In] in Nk. rewrite (K k) by tauto. apply upd_neq. intros ->. tauto.
Qed.
Lemma all_counted {A} (f : A -> bool) ls : List.length (filter f ls) = List.length ls <-> forall l, In l ls -> f l = true.
Proof.
  induction ls as [|x ls IH]; cbn; [split; [intros _ l []|reflexivity]|]. assert (L : (List.length (filter f ls) <= List.length ls)%nat).
  { clear. induction ls as [|y ls IH]; cbn; [lia|]. destruct (f y); cbn; lia. }
  destruct (f x) eqn:Ex; cbn.
  - split; [intros H l [<-|Hl]; [exact Ex|]|intros H]; [apply IH; [lia|exact Hl]|]. f_equal. apply IH. auto.
  - split; [lia|]. intros H. specialize (H x (or_introl eq_refl)). congruence.
Qed.
Lemma round_stable net s s1 c : NoDup (map l_id links) -> round table minimum max_power noise received links net s = Ok (s1, c) ->
  (c =? List.length (filter live links))%nat = true <-> forall l, In l links -> on_air l -> nearly (x_tx (s1 (l_id l))) (x_tx (s (l_id l))).
Proof.
  intros ids E. unfold round in E. destruct (steps_count net _ _ _ _ _ (live_ids table minimum max_power noise gain links ids) E) as [-> _]. cbn [Nat.add]. rewrite Nat.eqb_eq, all_counted. split.
  - intros H l Hl Oa. apply close_nearly. rewrite <- (analyze_tx received links s (l_id l)). apply H. apply filter_In. split; [exact Hl|now apply on_air_live].
  - intros H l Hl. apply filter_In in Hl. apply close_nearly. rewrite (analyze_tx received links s (l_id l)). apply H; [tauto|]. now apply on_air_live.
Qed.
Lemma stops_when_stable n s s1 s2 b : NoDup (map l_id links) -> (exists l, In l links /\ on_air l) ->
  power_control n s = Ok (s1, false) -> power_control (n + 1) s = Ok (s2, b) ->
  b = true <-> forall l, In l links -> on_air l -> nearly (x_tx (s2 (l_id l))) (x_tx (s1 (l_id l))).
Proof.
  intros ids (l0 & Hl0 & Oa0) E E'.
  destruct (control_inv table minimum max_power noise gain pop_capacity received links _ _ _ _ E) as (s0 & t1 & H1 & E0 & E1 & E2).
  destruct (control_inv table minimum max_power noise gain pop_capacity received links _ _ _ _ E') as (s0' & t2 & H1' & E0' & E1' & E2').
  assert (s0' = s0) by congruence. subst s0'.
  assert (NE : filter live links <> []). { intros C. assert (X : In l0 (filter live links)) by (apply filter_In; split; [exact Hl0|now apply on_air_live]). now rewrite C in X. }
  destruct E1 as [[C _]|E1]; [contradiction|]. destruct E1' as [[C _]|E1']; [contradiction|].
  replace (Z.to_nat (n + 1)) with (Z.to_nat n + 1)%nat in E1' by lia.
  destruct (iterate_more _ _ _ _ _ _ _ _ E1 E1') as [(C & _)|[_ E3]]; [discriminate|]. cbn [TpcModel.iterate] in E3.
  destruct (round _ _ _ _ _ _ _ _) as [[t3 c]|] eqn:Er; [|discriminate]. cbn [rbind fst snd] in E3.
  destruct (final_loop table links ids _ _ E2) as [_ B]. destruct (final_loop table links ids _ _ E2') as [_ B'].
  assert (R := round_stable _ _ _ _ ids Er). assert (T : t3 = t2) by (destruct (_ =? _)%nat; now injection E3). subst t3.
  assert (Q : (b = true <-> (c =? List.length (filter live links))%nat = true)). { destruct (_ =? _)%nat; injection E3 as <-; tauto. }
  rewrite Q, R. split; intros H l Hl Oa; specialize (H l Hl Oa); [rewrite B, B', !analyze_tx|rewrite B, B', !analyze_tx in H]; exact H.
Qed.
Lemma first_round_stable s s1 b : NoDup (map l_id links) -> (exists l, In l links /\ on_air l) -> power_control 1 s = Ok (s1, b) ->
  b = true <-> forall l, In l links -> on_air l -> has_sectors l ->
    exists bu, link_budget (max_power l) (minimum l) (gain l) (noise l) (table l) = Ok bu /\ nearly (x_tx (s1 (l_id l))) (Fin (b_tx bu)).
Proof.
  intros ids (l0 & Hl0 & Oa0) E.
  destruct (control_inv table minimum max_power noise gain pop_capacity received links _ _ _ _ E) as (s0 & t1 & H1 & E0 & E1 & E2).
  assert (NE : filter live links <> []). { intros C. assert (X : In l0 (filter live links)) by (apply filter_In; split; [exact Hl0|now apply on_air_live]). now rewrite C in X. }
  destruct E1 as [[C _]|E1]; [contradiction|]. change (Z.to_nat 1) with 1%nat in E1. cbn [TpcModel.iterate] in E1.
  destruct (round _ _ _ _ _ _ _ _) as [[t3 c]|] eqn:Er; [|discriminate]. cbn [rbind fst snd] in E1.
  destruct (final_loop table links ids _ _ E2) as [_ B].
  assert (R := round_stable _ _ _ _ ids Er). assert (T : t3 = t1) by (destruct (_ =? _)%nat; now injection E1). subst t3.
  assert (Q : (b = true <-> (c =? List.length (filter live links))%nat = true)). { destruct (_ =? _)%nat; injection E1 as <-; tauto. }
  assert (W : forall l, on_air l -> wired l = false). { intros l Oa. unfold wired. apply beq_neq. apply Oa. }
  rewrite Q, R. split; intros H l Hl Oa.
  - intros Hs. specialize (H l Hl Oa). destruct (start_loop table minimum max_power noise gain pop_capacity links ids s s0 E0 l Hl) as (m & Em & Es).
    unfold start in Em. rewrite (W l Oa), (proj1 (sectors_out l) Hs) in Em. destruct (link_budget _ _ _ _ _) as [bu|]; [|discriminate]. cbn [rbind] in Em. injection Em as <-.
    exists bu. split; [reflexivity|]. rewrite Es in H. rewrite B, analyze_tx. exact H.
  - destruct (start_loop table minimum max_power noise gain pop_capacity links ids s s0 E0 l Hl) as (m & Em & Es). unfold start in Em. rewrite (W l Oa) in Em.
    destruct (is_out_of_sector l) eqn:Eo.
    + injection Em as <-. rewrite Es. cbn [x_tx new_meas]. assert (Lv : live l = true) by (now apply on_air_live).
      destruct (round_loop table minimum max_power noise gain received links ids _ _ _ _ Er) as [A _]. destruct (A l Hl Lv) as (m' & Em' & ->).
      rewrite (analyze_live minimum max_power noise gain received links ids s0 l Hl Lv), Es in Em'. unfold adapt in Em'. cbn in Em'.
      destruct (py_min_q _); [|discriminate]. cbn in Em'. injection Em' as <-. cbn. exact Logic.I.
    + destruct (H l Hl Oa) as (bu & Eb & N); [now apply sectors_out|]. rewrite Eb in Em. cbn [rbind] in Em. injection Em as <-. rewrite Es. rewrite B, analyze_tx in N. exact N.
Qed.

Lemma control_outcome n s : (forall l, In l links -> table l <> []) ->
  (forall q, power_control n s = Ok q -> (1 <= n)%Z) /\ ((n < 1)%Z -> power_control n s = Err OptExn) /\ ((1 <= n)%Z -> exists q, power_control n s = Ok q).
Proof.
  intros tabs. split; [|split].
  - intros [s' b] E. apply control_inv in E. destruct E as (_ & _ & H & _). exact H.
  - intros H. unfold TpcModel.power_control, guard. destruct (Z.leb_spec 1 n); [lia|reflexivity].
  - apply control_total. exact tabs.
Qed.
Section Tables.
Hypotheses (ids : NoDup (map l_id links)) (TO : tables_ok table links).
Let tabs l (H : In l links) : table l <> [] := proj1 (TO l H).
Let classes l (H : In l links) : distinct_classes (table l) := proj1 (proj2 (TO l H)).
Let backs l (H : In l links) : backoff_nonneg (table l) := proj2 (proj2 (TO l H)).
Lemma control_class n s s' b l : power_control n s = Ok (s', b) -> In l links -> l_type l <> ETHERNET ->
  class_for (table l) (x_sinr (s' (l_id l))) (x_mcs (s' (l_id l))) /\ throughput (table l) (x_mcs (s' (l_id l))) (x_cap (s' (l_id l))).
Proof. exact (wireless_class table minimum max_power noise gain pop_capacity received links ids tabs backs classes n s s' b l). Qed.
Lemma control_limits : forall n s s' b l, depends_on_powers received -> power_control n s = Ok (s', b) -> In l links -> on_air l ->
  (has_sectors l -> silent (s' (l_id l)) \/ exists p, transmitting minimum max_power noise gain received s' l p)
  /\ (~ has_sectors l -> x_tx (s' (l_id l)) = NInf /\ x_mcs (s' (l_id l)) = 0%nat).
Proof.
  intros n s s' b l ext E Hl Oa. split.
  - exact (air_state table minimum max_power noise gain pop_capacity received links ids tabs backs classes ext n s s' b l E Hl Oa).
  - exact (air_lost table minimum max_power noise gain pop_capacity received links ids tabs backs classes n s s' b l E Hl Oa).
Qed.
Lemma control_wired n s s' b l : power_control n s = Ok (s', b) -> In l links -> l_type l = ETHERNET ->
  x_cap (s' (l_id l)) = pop_capacity /\ x_mcs (s' (l_id l)) = 0%nat /\ x_tx (s' (l_id l)) = NInf.
Proof. intros E Hl T. rewrite (wired_kept table minimum max_power noise gain pop_capacity received links ids tabs backs n s s' b l E Hl T). auto. Qed.
Lemma control_unbuilt n s s' b l : power_control n s = Ok (s', b) -> In l links -> ~ on_air l -> l_type l <> ETHERNET -> has_sectors l ->
  exists bu, link_budget (max_power l) (minimum l) (gain l) (noise l) (table l) = Ok bu
    /\ x_tx (s' (l_id l)) = Fin (b_tx bu) /\ x_sinr (s' (l_id l)) = Fin (b_snr bu).
Proof. exact (off_air table minimum max_power noise gain pop_capacity received links ids tabs backs classes n s s' b l). Qed.
End Tables.
End Settled.
