(** Proofs about transmit power control. *)
From Coq Require Import QArith Lqa Lia.
From Verif Require Import Base Dict QLib MonadLib SetupModel LosRangeModel TopologyModel RfModel RfSpec TpcModel TpcSpec.
From Verif Require RfProofs.
Local Open Scope Q_scope.
Local Open Scope list_scope.

Lemma upd_eq s k m : upd s k m k = m.
Proof. unfold upd. now rewrite beq_refl. Qed.
Lemma upd_neq s k m j : j <> k -> upd s k m j = s j.
Proof. intros H. unfold upd. destruct (beq_spec j k); congruence. Qed.

(** Loops that change the entry of each link from its own entry *)
Lemma local_loop {A} (f : A -> link -> result A) (st : A -> state) (h : link -> meas -> result meas) ls :
  (forall a l a', In l ls -> f a l = Ok a' -> exists m, h l (st a (l_id l)) = Ok m /\ forall j, st a' j = upd (st a) (l_id l) m j) ->
  NoDup (map l_id ls) -> forall a a', foldM f a ls = Ok a' ->
  (forall l, In l ls -> exists m, h l (st a (l_id l)) = Ok m /\ st a' (l_id l) = m) /\ (forall k, ~ In k (map l_id ls) -> st a' k = st a k).
Proof.
  induction ls as [|x ls IH]; intros H ND a a' E; cbn [foldM] in E.
  - injection E as <-. split; [intros l []|reflexivity].
  - destruct (f a x) as [a1|e] eqn:E1; [|discriminate]. cbn [rbind] in E. cbn [map] in ND. inversion ND as [|? ? N1 N2]; subst.
    destruct (H a x a1 (or_introl eq_refl) E1) as (m & Em & U). destruct (IH (fun a l a' Hl => H a l a' (or_intror Hl)) N2 a1 a' E) as [IA IB]. split.
    + intros l [<-|Hl].
      * exists m. split; [exact Em|]. rewrite (IB _ N1), U. apply upd_eq.
      * destruct (IA l Hl) as (m' & Em' & E'). exists m'. split; [|exact E']. rewrite <- Em'. f_equal. rewrite U. symmetry. apply upd_neq.
        intros C. apply N1. rewrite <- C. now apply in_map.
    + intros k Nk. cbn [map In] in Nk. rewrite (IB k), U, upd_neq; tauto || (intros ->; tauto).
Qed.
Lemma loop_total {A B} (f : A -> B -> result A) ls : (forall a x, In x ls -> exists a', f a x = Ok a') -> forall a, exists a', foldM f a ls = Ok a'.
Proof.
  induction ls as [|x ls IH]; intros H a; cbn [foldM]; [eauto|]. destruct (H a x (or_introl eq_refl)) as [a1 ->]. cbn [rbind].
  apply IH. intros b y Hy. apply H. now right.
Qed.

(** Classes *)
Lemma min_total t : t <> [] -> exists q, py_min_q (map snd (mcs_snr_mapping t)) = Ok q.
Proof.
  intros H. destruct (RfProofs.py_min_q_ok (map snd (mcs_snr_mapping t))) as [q [E _]]; [|eauto]. intros C. apply map_eq_nil in C. apply RfProofs.mapping_ne in C; auto.
Qed.
Lemma mcs_of_total s t : t <> [] -> exists m, mcs_of s t = Ok m.
Proof.
  intros H. destruct (min_total t H) as [q Eq]. destruct s; cbn [mcs_of].
  - destruct (RfProofs.get_mcs_total (Some q0) t H) as [m [E _]]. eauto.
  - rewrite Eq. cbn. eauto.
  - rewrite Eq. cbn [rbind]. destruct (RfProofs.py_max_n_ok (map fst (mcs_snr_mapping t))) as [m [E _]]; [|eauto]. intros C. apply map_eq_nil in C. apply RfProofs.mapping_ne in C; auto.
  - cbn. eauto.
Qed.
Lemma mcs_of_class s t m : t <> [] -> distinct_classes t -> s <> PInf -> mcs_of s t = Ok m -> class_for t s m.
Proof.
  intros H D N E. destruct (min_total t H) as [q Eq]. destruct s; cbn [mcs_of class_for] in *.
  - destruct (RfProofs.get_mcs_highest q0 t H D) as (m' & E' & S'). congruence.
  - rewrite Eq in E. cbn in E. congruence.
  - congruence.
  - cbn in E. congruence.
Qed.
Lemma first_row_in m t r : first_row m t = Some r -> In r t /\ m_mcs r = m.
Proof.
  induction t as [|x t IH]; cbn; [discriminate|]. destruct (Nat.eqb_spec (m_mcs x) m); [intros [= <-]; auto|]. intros E. destruct (IH E). auto.
Qed.
Lemma first_row_none m t : first_row m t = None -> forall r, In r t -> m_mcs r <> m.
Proof.
  induction t as [|x t IH]; cbn; [intros _ r []|]. destruct (Nat.eqb_spec (m_mcs x) m); [discriminate|]. intros E r [<-|Hr]; auto.
Qed.
Lemma capacity_throughput m t : throughput t m (get_link_capacity_from_mcs m t).
Proof.
  unfold get_link_capacity_from_mcs. destruct (first_row m t) as [r|] eqn:E.
  - left. exists r. destruct (first_row_in _ _ _ E). repeat split; auto.
  - right. split; [now apply first_row_none|reflexivity].
Qed.

(** Powers *)
Definition to_num (p : option Q) : num := match p with Some q => Fin q | None => NInf end.
Lemma adjust_finite t mn mx g n : forall m,
  adjust_power m t mn mx (Fin g) (Fin n) = (do q <- adjust_tx_power_with_backoff m t mn mx g n ; Ok (fst q, to_num (snd q))).
Proof.
  induction m as [|m IH]; cbn [adjust_power adjust_tx_power_with_backoff]; [reflexivity|].
  destruct (get_snr_from_mcs (S m) t) as [snr|e]; cbn [rbind]; [|reflexivity].
  assert (E : (match mn with None => nsub (nadd (Fin snr) (Fin n)) (Fin g) | Some q => nmax (Fin q) (nsub (nadd (Fin snr) (Fin n)) (Fin g)) end)
              = Fin (power_for mn g n snr)).
  { unfold power_for, at_least. destruct mn as [q|]; [|reflexivity]. change (nsub (nadd (Fin snr) (Fin n)) (Fin g)) with (Fin (snr + n - g)).
    unfold nmax, nlt, nle. destruct (Qle_bool (snr + n - g) q) eqn:E1; [now rewrite andb_false_r|].
    apply qle_false in E1. destruct (Qle_bool q (snr + n - g)) eqn:E2; [reflexivity|]. apply qle_false in E2. lra. }
  rewrite E. clear E. cbn [nle]. destruct (Qle_bool _ _); [reflexivity|]. exact IH.
Qed.
Lemma adjust_power_total m t mn mx g n : t <> [] -> exists q, adjust_power m t mn mx g n = Ok q.
Proof.
  intros H. induction m as [|m IH]; cbn [adjust_power]; [eauto|]. destruct (RfProofs.get_snr_total (S m) t H) as [s ->]. cbn [rbind].
  destruct (nle _ _); [eauto|exact IH].
Qed.

Lemma fold_tx received pw ls : forall s k, x_tx (fold_left (sinr_step received pw) ls s k) = x_tx (s k).
Proof.
  induction ls as [|x ls IH]; intros s k; cbn [fold_left]; [reflexivity|]. rewrite IH. unfold sinr_step. destruct (live x); [|reflexivity].
  unfold upd. destruct (beq_spec k (l_id x)); [now subst|reflexivity].
Qed.

Section Control.
Variables (table : link -> list mcsrow) (minimum : link -> option Q) (max_power noise gain : link -> Q) (pop_capacity : Q).
Variable received : (string -> num) -> string -> Q.
Variable links : list link.
Notation add_link_capacities := (add_link_capacities table minimum max_power noise gain pop_capacity links).
Notation analyze := (analyze received links).
Notation power_step := (power_step table minimum max_power noise).
Notation round := (round table minimum max_power noise received links).
Notation iterate := (iterate table minimum max_power noise received links).
Notation power_control := (power_control table minimum max_power noise gain pop_capacity received links).
Hypothesis ids : NoDup (map l_id links).
Hypothesis tabs : forall l, In l links -> table l <> [].

Definition start (l : link) (m : meas) : result meas :=
  if wired l then Ok (new_meas 0 NInf NInf pop_capacity NInf)
  else if is_out_of_sector l then Ok (new_meas 0 NInf NInf 0 NInf)
  else do b <- link_budget (max_power l) (minimum l) (gain l) (noise l) (table l) ; Ok (of_budget b).
Lemma start_loop s s' : add_link_capacities s = Ok s' -> forall l, In l links -> exists m, start l (s (l_id l)) = Ok m /\ s' (l_id l) = m.
Proof.
  intros E. apply (local_loop (add_capacity table minimum max_power noise gain pop_capacity) (fun s => s) start links) with (a := s) (a' := s'); auto.
  intros a l a' _ H. unfold add_capacity in H. unfold start. destruct (wired l); [injection H as <-; eauto|]. destruct (is_out_of_sector l); [injection H as <-; eauto|].
  destruct (link_budget _ _ _ _ _) as [b|e]; [|discriminate]. cbn [rbind] in *. injection H as <-. eauto.
Qed.
Lemma start_total s : exists s', add_link_capacities s = Ok s'.
Proof.
  apply loop_total. intros a l Hl. unfold add_capacity. destruct (wired l); [eauto|]. destruct (is_out_of_sector l); [eauto|].
  destruct (RfProofs.link_budget_total (max_power l) (minimum l) (gain l) (noise l) (table l) (tabs l Hl)) as [b ->]. cbn. eauto.
Qed.

(** SINR *)
Definition sinr_for (pw : string -> num) (k : string) (rsl : num) : num := if is_ninf rsl then NInf else nsub rsl (Fin (received pw k)).
Lemma fold_local (f : state -> link -> state) (h : link -> meas -> meas) ls : (forall s l j, f s l j = upd s (l_id l) (h l (s (l_id l))) j) ->
  NoDup (map l_id ls) -> forall s, (forall l, In l ls -> fold_left f ls s (l_id l) = h l (s (l_id l))) /\ (forall k, ~ In k (map l_id ls) -> fold_left f ls s k = s k).
Proof.
  intros H. induction ls as [|x ls IH]; intros ND s; cbn [fold_left]; [split; [intros l []|reflexivity]|].
  cbn [map] in ND. inversion ND as [|? ? N1 N2]; subst. destruct (IH N2 (f s x)) as [IA IB]. split.
  - intros l [<-|Hl]; [rewrite (IB _ N1), H; apply upd_eq|]. rewrite (IA l Hl), H, upd_neq; [reflexivity|]. intros C. apply N1. rewrite <- C. now apply in_map.
  - intros k Nk. cbn [map In] in Nk. rewrite (IB k), H, upd_neq; tauto || (intros ->; tauto).
Qed.
Lemma analyze_at s l : In l links -> analyze s (l_id l) =
  if live l then set_sinr (s (l_id l)) (sinr_for (powers s) (l_id l) (x_rsl (s (l_id l)))) else s (l_id l).
Proof.
  intros Hl. unfold TpcModel.analyze.
  apply (fold_local (sinr_step received (fun k => x_tx (s k))) (fun l m => if live l then set_sinr m (sinr_for (powers s) (l_id l) (x_rsl m)) else m) links); auto.
  intros s0 l0 j. unfold sinr_step, upd. destruct (live l0); [reflexivity|]. destruct (beq_spec j (l_id l0)); [now subst|reflexivity].
Qed.
Lemma analyze_tx s k : x_tx (analyze s k) = x_tx (s k).
Proof. unfold TpcModel.analyze. apply fold_tx. Qed.

(** One round *)
Definition adapt (net : string -> num) (l : link) (m : meas) : result meas :=
  do level <- mcs_of (x_sinr m) (table l) ;
  do mp <- adjust_power level (table l) (minimum l) (max_power l) (net (l_id l)) (nsub (x_rsl m) (x_sinr m)) ;
  Ok (mkMeas (fst mp) (nadd (snd mp) (net (l_id l))) (nsub (nadd (snd mp) (net (l_id l))) (Fin (noise l)))
        (get_link_capacity_from_mcs level (table l)) (snd mp) (x_sinr m)).
Lemma live_ids : NoDup (map l_id (filter live links)).
Proof. clear tabs. induction links as [|x ls IH]; cbn; [constructor|]. cbn in ids. inversion ids as [|? ? N1 N2]; subst. destruct (live x); [|auto].
  cbn. constructor; [|auto]. intros C. apply N1. apply in_map_iff in C. destruct C as (y & <- & Hy). apply filter_In in Hy. apply in_map. tauto. Qed.
Lemma round_loop net s s1 c : round net s = Ok (s1, c) ->
  (forall l, In l links -> live l = true -> exists m, adapt net l (analyze s (l_id l)) = Ok m /\ s1 (l_id l) = m)
  /\ (forall k, (forall l, In l links -> live l = true -> l_id l <> k) -> s1 k = analyze s k).
Proof.
  intros E. unfold TpcModel.round in E. destruct (local_loop (power_step net) fst (adapt net) (filter live links)) with (a := (analyze s, 0%nat)) (a' := (s1, c)) as [A B]; auto.
  - intros [s0 c0] l [s2 c2] _ H. unfold TpcModel.power_step in H. cbn [fst]. unfold adapt.
    destruct (mcs_of _ _) as [lv|]; [|discriminate]. cbn [rbind] in *. destruct (adjust_power _ _ _ _ _ _) as [mp|]; [|discriminate]. cbn [rbind] in *.
    injection H as <- <-. eexists. split; [reflexivity|]. reflexivity.
  - exact live_ids.
  - cbn [fst] in A, B. split.
    + intros l Hl Lv. apply A. now apply filter_In.
    + intros k H. apply B. intros C. apply in_map_iff in C. destruct C as (l & <- & Hl). apply filter_In in Hl. now apply (H l).
Qed.
Lemma round_total net s : exists q, round net s = Ok q.
Proof.
  apply loop_total. intros [s0 c0] l Hl. apply filter_In in Hl. unfold TpcModel.power_step.
  destruct (mcs_of_total (x_sinr (s0 (l_id l))) (table l) (tabs l (proj1 Hl))) as [m ->]. cbn [rbind].
  destruct (adjust_power_total m (table l) (minimum l) (max_power l) (net (l_id l)) (nsub (x_rsl (s0 (l_id l))) (x_sinr (s0 (l_id l)))) (tabs l (proj1 Hl))) as [q ->]. cbn. eauto.
Qed.
Lemma iterate_total net n : forall s, exists q, iterate n net s = Ok q.
Proof.
  induction n as [|n IH]; intros s; cbn [TpcModel.iterate]; [eauto|]. destruct (round_total net s) as [q ->]. cbn [rbind]. destruct (_ =? _)%nat; eauto.
Qed.

(** The measurements of a link on air: silent, or transmitting with the gain of its path *)
Definition fits (l : link) (m : meas) (p : Q) : Prop :=
  x_tx m = Fin p /\ (exists r, x_rsl m = Fin r /\ r == p + gain l) /\ exists r, x_snr m = Fin r /\ r == p + gain l - noise l.
Definition good (net : string -> num) (l : link) (m : meas) : Prop :=
  if is_out_of_sector l then net (l_id l) = NaN /\ x_tx m = NInf /\ (x_rsl m = NInf \/ x_rsl m = NaN)
  else (exists g, net (l_id l) = Fin g /\ g == gain l) /\ ((x_tx m = NInf /\ x_rsl m = NInf /\ x_snr m = NInf) \/ exists p, fits l m p).
Definition limits (l : link) (m : meas) : Prop := forall p, x_tx m = Fin p -> p <= max_power l /\ forall q, minimum l = Some q -> q <= p.
Definition quiet (m : meas) : Prop := x_tx m = NInf.

Lemma adapt_quiet net l m m' pw : In l links -> x_sinr m = sinr_for pw (l_id l) (x_rsl m) -> x_rsl m = NInf \/ x_rsl m = NaN -> adapt net l m = Ok m' ->
  x_tx m' = NInf /\ x_mcs m' = 0%nat /\ x_rsl m' = nadd NInf (net (l_id l)) /\ x_snr m' = nsub (nadd NInf (net (l_id l))) (Fin (noise l)).
Proof.
  intros Hl Es Hr E. unfold adapt in E. assert (L : mcs_of (x_sinr m) (table l) = Ok 0%nat).
  { rewrite Es. destruct Hr as [-> | ->]; cbn [sinr_for is_ninf nsub nopp nadd mcs_of]; [|reflexivity]. destruct (min_total (table l) (tabs l Hl)) as [q ->]. reflexivity. }
  rewrite L in E. cbn [rbind adjust_power] in E. injection E as <-. cbn. auto.
Qed.
Lemma adapt_loud net l m m' pw g p r : In l links -> x_sinr m = sinr_for pw (l_id l) (x_rsl m) -> x_rsl m = Fin r -> net (l_id l) = Fin g -> g == gain l -> r == p + gain l ->
  adapt net l m = Ok m' -> exists level n k po, mcs_of (x_sinr m) (table l) = Ok level /\ n == received pw (l_id l)
    /\ adjust_tx_power_with_backoff level (table l) (minimum l) (max_power l) g n = Ok (k, po) /\ x_mcs m' = k /\ x_tx m' = to_num po
    /\ x_rsl m' = nadd (to_num po) (Fin g) /\ x_snr m' = nsub (nadd (to_num po) (Fin g)) (Fin (noise l)).
Proof.
  intros Hl Es Er En Eg Ep E. unfold adapt in E. destruct (mcs_of _ _) as [level|]; [|discriminate]. cbn [rbind] in E. rewrite Es, Er, En in E.
  unfold sinr_for in E. cbn [is_ninf nsub nopp nadd] in E. rewrite adjust_finite in E.
  destruct (adjust_tx_power_with_backoff _ _ _ _ _ _) as [[k po]|] eqn:Ea in E; [|discriminate]. cbn [rbind fst snd] in E. injection E as <-.
  exists level. eexists. exists k, po. split; [reflexivity|]. split; [|split; [exact Ea|]]; [ring|]. cbn. auto.
Qed.
Lemma adapt_good net l m m' pw : In l links -> backoff_nonneg (table l) -> x_sinr m = sinr_for pw (l_id l) (x_rsl m) -> good net l m -> adapt net l m = Ok m' ->
  good net l m' /\ limits l m' /\ (quiet m -> quiet m').
Proof.
  intros Hl B Es G E. unfold good in *. destruct (is_out_of_sector l).
  - destruct G as (En & Et & Er). destruct (adapt_quiet net l m m' pw Hl Es Er E) as (A1 & A2 & A3 & _). rewrite En in A3. split; [|split].
    + split; [exact En|]. split; [exact A1|]. right. exact A3.
    + intros p C. congruence.
    + intros _. exact A1.
  - destruct G as [(g & En & Eg) G]. destruct G as [(Et & Er & _)|(p & Et & (r & Er & Ep) & _)].
    + destruct (adapt_quiet net l m m' pw Hl Es (or_introl Er) E) as (A1 & A2 & A3 & A4). rewrite En in A3, A4. cbn in A3, A4. split; [|split].
      * split; [eauto|]. left. auto.
      * intros p C. congruence.
      * intros _. exact A1.
    + destruct (adapt_loud net l m m' pw g p r Hl Es Er En Eg Ep E) as (lv & n & k & po & _ & _ & Ea & _ & At & Ar & As). split; [|split].
      * split; [eauto|]. destruct po as [p'|]; cbn in At, Ar, As; [right|left; auto]. exists p'. split; [exact At|]. split; eexists; (split; [eassumption|rewrite Eg; ring]).
      * intros p' C. rewrite At in C. destruct po as [p2|]; [|discriminate]. cbn in C. injection C as <-. apply (RfProofs.adjust_power _ _ _ _ _ _ _ _ (tabs l Hl) B) in Ea. tauto.
      * intros Q. unfold quiet in Q. congruence.
Qed.

Hypothesis backs : forall l, In l links -> backoff_nonneg (table l).
Definition sound (net : string -> num) (s : state) : Prop := forall l, In l links -> live l = true -> good net l (s (l_id l)).
Lemma analyze_live s l : In l links -> live l = true -> analyze s (l_id l) = set_sinr (s (l_id l)) (sinr_for (powers s) (l_id l) (x_rsl (s (l_id l)))).
Proof. intros Hl Lv. rewrite (analyze_at s l Hl), Lv. reflexivity. Qed.
Lemma round_sound net s s1 c : sound net s -> round net s = Ok (s1, c) ->
  sound net s1 /\ (forall l, In l links -> live l = true -> limits l (s1 (l_id l)) /\ (quiet (s (l_id l)) -> quiet (s1 (l_id l))))
  /\ (forall l, In l links -> live l = false -> s1 (l_id l) = s (l_id l)).
Proof.
  intros G E. destruct (round_loop net s s1 c E) as [A B].
  assert (K : forall l, In l links -> live l = true -> good net l (s1 (l_id l)) /\ limits l (s1 (l_id l)) /\ (quiet (s (l_id l)) -> quiet (s1 (l_id l)))).
  { intros l Hl Lv. destruct (A l Hl Lv) as (m & Em & ->). rewrite (analyze_live s l Hl Lv) in Em.
    apply (adapt_good net l _ m (powers s) Hl (backs l Hl)) in Em; [|reflexivity|].
    - destruct Em as (P1 & P2 & P3). auto.
    - generalize (G l Hl Lv). unfold good, fits. destruct (is_out_of_sector l); auto. }
  split; [intros l Hl Lv; now apply K|]. split; [intros l Hl Lv; split; now apply K|].
  intros l Hl Lv. rewrite B, (analyze_at s l Hl), Lv; [reflexivity|]. intros l' Hl' Lv' C.
  assert (l' = l); [|congruence]. clear - ids Hl Hl' C. induction links as [|x ls IH]; [destruct Hl|]. cbn in ids. inversion ids as [|? ? N1 N2]; subst.
  destruct Hl as [<-|Hl], Hl' as [<-|Hl']; auto; exfalso; apply N1; [rewrite <- C|rewrite C]; now apply in_map.
Qed.
Lemma iterate_sound net n : forall s s1 b, sound net s -> iterate n net s = Ok (s1, b) ->
  sound net s1 /\ (forall l, In l links -> live l = true -> ((0 < n)%nat -> limits l (s1 (l_id l))) /\ (quiet (s (l_id l)) -> quiet (s1 (l_id l))))
  /\ (forall l, In l links -> live l = false -> s1 (l_id l) = s (l_id l)).
Proof.
  induction n as [|n IH]; intros s s1 b G E; cbn [TpcModel.iterate] in E.
  - injection E as <- <-. split; [exact G|]. split; [|auto]. intros l _ _. split; [lia|auto].
  - destruct (round net s) as [[s2 c]|] eqn:E2; [|discriminate]. cbn [rbind fst snd] in E. destruct (round_sound net s s2 c G E2) as (G2 & L2 & F2).
    destruct (_ =? _)%nat.
    + injection E as <- <-. split; [exact G2|]. split; [|exact F2]. intros l Hl Lv. destruct (L2 l Hl Lv). auto.
    + destruct (IH s2 s1 b G2 E) as (G1 & L1 & F1). split; [exact G1|]. split.
      * intros l Hl Lv. destruct (L2 l Hl Lv) as [X Y]. destruct (L1 l Hl Lv) as [X1 Y1]. split; [|auto]. intros _. destruct n as [|n]; [|apply X1; lia].
        cbn in E. injection E as <- <-. exact X.
      * intros l Hl Lv. rewrite (F1 l Hl Lv). auto.
Qed.

(** The whole control *)
Notation net_of s0 := (fun k => nsub (x_rsl (s0 k)) (x_tx (s0 k))).
Lemma control_inv n s s' b : power_control n s = Ok (s', b) -> exists s0 s1, (1 <= n)%Z /\ add_link_capacities s = Ok s0
  /\ ((filter live links = [] /\ s1 = s0) \/ iterate (Z.to_nat n) (net_of s0) s0 = Ok (s1, b)) /\ foldM (final_step table) (analyze s1) links = Ok s'.
Proof.
  intros E. unfold TpcModel.power_control, guard in E. destruct (Z.leb_spec 1 n); [|discriminate]. cbn [rbind] in E.
  destruct (add_link_capacities s) as [s0|] eqn:E0; [|discriminate]. cbn [rbind] in E. exists s0.
  destruct (filter live links) as [|x ls] eqn:Ef.
  - cbn [rbind fst snd] in E. destruct (foldM _ _ _) as [s2|] eqn:E2; [|discriminate]. cbn in E. injection E as <- <-. exists s0. repeat split; auto.
  - destruct (iterate _ _ _) as [[s1 b1]|] eqn:E1; [|discriminate]. cbn [rbind fst snd] in E. destruct (foldM _ _ _) as [s2|] eqn:E2; [|discriminate]. cbn in E. injection E as <- <-.
    exists s1. repeat split; auto.
Qed.
Lemma control_total n s : (1 <= n)%Z -> exists q, power_control n s = Ok q.
Proof.
  intros H. unfold TpcModel.power_control, guard. destruct (Z.leb_spec 1 n); [|lia]. cbn [rbind]. destruct (start_total s) as [s0 ->]. cbn [rbind].
  assert (F : forall q : state * bool, exists r, (do s <- foldM (final_step table) (analyze (fst q)) links ; Ok (s, snd q)) = Ok r).
  { intros q. destruct (loop_total (final_step table) links) with (a := analyze (fst q)) as [a ->]; [|cbn; eauto].
    intros a l Hl. unfold final_step. destruct (wired l); [eauto|]. destruct (mcs_of_total (x_sinr (a (l_id l))) (table l) (tabs l Hl)) as [m ->]. cbn. eauto. }
  destruct (filter live links) as [|x ls]; [cbn [rbind]; apply (F (s0, false))|].
  destruct (iterate_total (net_of s0) (Z.to_nat n) s0) as [q ->]. cbn [rbind]. apply F.
Qed.
Definition conclude (l : link) (m : meas) : result meas :=
  if wired l then Ok m else do level <- mcs_of (x_sinr m) (table l) ;
    Ok (mkMeas level (x_rsl m) (x_snr m) (get_link_capacity_from_mcs level (table l)) (x_tx m) (x_sinr m)).
Lemma final_loop s s' : foldM (final_step table) s links = Ok s' ->
  (forall l, In l links -> exists m, conclude l (s (l_id l)) = Ok m /\ s' (l_id l) = m) /\ (forall k, x_tx (s' k) = x_tx (s k)).
Proof.
  intros E. destruct (local_loop (final_step table) (fun s => s) conclude links) with (a := s) (a' := s') as [A B]; auto.
  - intros a l a' _ H. unfold final_step in H. unfold conclude. destruct (wired l).
    + injection H as <-. eexists. split; [reflexivity|]. intros j. unfold upd. destruct (beq_spec j (l_id l)); [now subst|reflexivity].
    + destruct (mcs_of _ _) as [lv|]; [|discriminate]. cbn [rbind] in *. injection H as <-. eexists. split; [reflexivity|]. reflexivity.
  - split; [exact A|]. intros k. destruct (in_dec string_dec k (map l_id links)) as [Hk|Nk]; [|now rewrite (B k Nk)].
    apply in_map_iff in Hk. destruct Hk as (l & <- & Hl). destruct (A l Hl) as (m & Em & ->). unfold conclude in Em. destruct (wired l); [now injection Em as <-|].
    destruct (mcs_of _ _); [|discriminate]. cbn in Em. now injection Em as <-.
Qed.
Lemma start_sound s s0 : add_link_capacities s = Ok s0 -> sound (net_of s0) s0.
Proof.
  intros E l Hl Lv. destruct (start_loop s s0 E l Hl) as (m & Em & E1). unfold start in Em. unfold live in Lv. apply andb_true_iff in Lv. destruct Lv as [_ Lv].
  apply negb_true_iff in Lv. rewrite Lv in Em. unfold good. destruct (is_out_of_sector l).
  - injection Em as <-. rewrite E1. cbn. auto.
  - destruct (link_budget _ _ _ _ _) as [b|] eqn:Eb; [|discriminate]. cbn [rbind] in Em. injection Em as <-. rewrite E1. cbn.
    apply RfProofs.link_budget_inv in Eb. destruct Eb as (_ & _ & _ & _ & _ & _ & Er & Es). split; [eexists; split; [reflexivity|rewrite Er; ring]|].
    right. exists (b_tx b). split; [reflexivity|]. split; eexists; (split; [reflexivity|]). + rewrite Er. reflexivity. + rewrite Es. reflexivity.
Qed.
Lemma on_air_live l : on_air l <-> live l = true.
Proof.
  unfold on_air, live, wired. rewrite andb_true_iff, negb_true_iff. split.
  - intros [[-> | ->] H]; (split; [reflexivity|]); now apply beq_neq.
  - intros [H1 H2]. split; [destruct (l_status l); auto; discriminate|]. now apply beq_neq.
Qed.
Lemma sectors_out l : has_sectors l <-> is_out_of_sector l = false.
Proof. unfold has_sectors, is_out_of_sector. destruct (l_sectors l); split; congruence. Qed.
Hypothesis classes : forall l, In l links -> distinct_classes (table l).
Hypothesis ext : depends_on_powers received.
Lemma sinr_not_pinf pw k r : r = NInf \/ r = NaN \/ (exists q, r = Fin q) -> sinr_for pw k r <> PInf.
Proof. intros [->|[->|(q & ->)]]; discriminate. Qed.
Lemma good_rsl net l m : good net l m -> x_rsl m = NInf \/ x_rsl m = NaN \/ exists q, x_rsl m = Fin q.
Proof. unfold good. destruct (is_out_of_sector l); [tauto|]. intros [_ [H|(p & _ & (r & H & _) & _)]]; [tauto|eauto]. Qed.

Lemma control_state n s s' b : power_control n s = Ok (s', b) -> exists s0 s1, add_link_capacities s = Ok s0
  /\ sound (net_of s0) s1 /\ (forall k, x_tx (s' k) = x_tx (s1 k))
  /\ (forall l, In l links -> live l = true -> limits l (s1 (l_id l)) /\ exists m, conclude l (set_sinr (s1 (l_id l)) (sinr_for (powers s1) (l_id l) (x_rsl (s1 (l_id l))))) = Ok m /\ s' (l_id l) = m)
  /\ (forall l, In l links -> live l = false -> exists m, conclude l (s0 (l_id l)) = Ok m /\ s' (l_id l) = m).
Proof.
  intros E. destruct (control_inv n s s' b E) as (s0 & s1 & Hn & E0 & E1 & E2). exists s0, s1. destruct (final_loop _ _ E2) as [A B].
  assert (K : sound (net_of s0) s1 /\ (forall l, In l links -> live l = true -> limits l (s1 (l_id l))) /\ (forall l, In l links -> live l = false -> s1 (l_id l) = s0 (l_id l))).
  { assert (S0 := start_sound s s0 E0). destruct E1 as [[Ef ->]|E1].
    - split; [exact S0|]. split; [|auto]. intros l Hl Lv. exfalso. assert (In l (filter live links)) by (now apply filter_In). now rewrite Ef in H.
    - destruct (iterate_sound _ _ _ _ _ S0 E1) as (X & Y & Z). split; [exact X|]. split; [|exact Z]. intros l Hl Lv. apply (Y l Hl Lv). lia. }
  destruct K as (K1 & K2 & K3). split; [exact E0|]. split; [exact K1|]. split; [intros k; now rewrite B, analyze_tx|]. split.
  - intros l Hl Lv. split; [now apply K2|]. destruct (A l Hl) as (m & Em & Es). rewrite (analyze_live s1 l Hl Lv) in Em. eauto.
  - intros l Hl Lv. destruct (A l Hl) as (m & Em & Es). rewrite (analyze_at s1 l Hl), Lv, (K3 l Hl Lv) in Em. eauto.
Qed.
Lemma conclude_class l m m' : In l links -> wired l = false -> x_sinr m <> PInf -> conclude l m = Ok m' ->
  class_for (table l) (x_sinr m') (x_mcs m') /\ throughput (table l) (x_mcs m') (x_cap m') /\ x_rsl m' = x_rsl m /\ x_snr m' = x_snr m /\ x_tx m' = x_tx m /\ x_sinr m' = x_sinr m.
Proof.
  intros Hl W N E. unfold conclude in E. rewrite W in E. destruct (mcs_of _ _) as [lv|] eqn:El; [|discriminate]. cbn [rbind] in E. injection E as <-. cbn.
  split; [now apply mcs_of_class; auto|]. split; [apply capacity_throughput|]. auto.
Qed.
Lemma start_sinr l m m' : start l m = Ok m' -> x_sinr m' <> PInf.
Proof.
  unfold start. destruct (wired l); [intros [= <-]; discriminate|]. destruct (is_out_of_sector l); [intros [= <-]; discriminate|].
  destruct (link_budget _ _ _ _ _); [|discriminate]. intros [= <-]. discriminate.
Qed.
Lemma wired_type l : wired l = true <-> l_type l = ETHERNET.
Proof. unfold wired. apply beq_eq. Qed.
Lemma live_wired l : live l = true -> wired l = false.
Proof. unfold live. destruct (wired l), (active (l_status l)); auto; discriminate. Qed.

Lemma wireless_class n s s' b l : power_control n s = Ok (s', b) -> In l links -> l_type l <> ETHERNET ->
  class_for (table l) (x_sinr (s' (l_id l))) (x_mcs (s' (l_id l))) /\ throughput (table l) (x_mcs (s' (l_id l))) (x_cap (s' (l_id l))).
Proof.
  intros E Hl T. destruct (control_state n s s' b E) as (s0 & s1 & E0 & G & _ & A & B).
  assert (W : wired l = false) by (destruct (wired l) eqn:W; [apply wired_type in W; contradiction|reflexivity]). destruct (live l) eqn:Lv.
  - destruct (A l Hl Lv) as (_ & m & Em & ->). apply (conclude_class l _ m Hl W) in Em; [tauto|]. cbn. apply sinr_not_pinf. exact (good_rsl _ _ _ (G l Hl Lv)).
  - destruct (B l Hl Lv) as (m & Em & ->). apply (conclude_class l _ m Hl W) in Em; [tauto|]. destruct (start_loop s s0 E0 l Hl) as (m0 & S0 & ->). exact (start_sinr _ _ _ S0).
Qed.
Lemma wired_kept n s s' b l : power_control n s = Ok (s', b) -> In l links -> l_type l = ETHERNET ->
  s' (l_id l) = mkMeas 0 NInf NInf pop_capacity NInf NInf.
Proof.
  intros E Hl T. apply wired_type in T. destruct (control_state n s s' b E) as (s0 & s1 & E0 & _ & _ & _ & B).
  destruct (B l Hl) as (m & Em & ->); [unfold live; rewrite T; apply andb_false_r|]. unfold conclude in Em. rewrite T in Em. injection Em as <-.
  destruct (start_loop s s0 E0 l Hl) as (m0 & S0 & ->). unfold start in S0. rewrite T in S0. now injection S0 as <-.
Qed.
Lemma air_state n s s' b l : power_control n s = Ok (s', b) -> In l links -> on_air l -> has_sectors l ->
  silent (s' (l_id l)) \/ exists p, transmitting minimum max_power noise gain received s' l p.
Proof.
  intros E Hl Lv Hs. apply on_air_live in Lv. apply sectors_out in Hs. destruct (control_state n s s' b E) as (s0 & s1 & E0 & G & P & A & _).
  destruct (A l Hl Lv) as (Li & m & Em & E'). assert (N := sinr_not_pinf (powers s1) (l_id l) _ (good_rsl _ _ _ (G l Hl Lv))).
  apply (conclude_class l _ m Hl (live_wired l Lv)) in Em; [|exact N]. destruct Em as (_ & _ & Er & Esn & Et & Esi). cbn in Er, Esn, Et, Esi.
  generalize (G l Hl Lv). unfold good. rewrite Hs. intros [_ [(H1 & H2 & H3)|(p & H1 & (r & H2 & H2') & (q & H3 & H3'))]].
  - left. unfold silent. rewrite E', Er, Esn, Et, Esi, H1, H2, H3. auto.
  - right. exists p. unfold transmitting. rewrite E'. split; [congruence|]. destruct (Li p H1) as [L1 L2]. split; [exact L1|]. split; [exact L2|].
    exists r, q, (r - received (powers s1) (l_id l)). split; [congruence|]. split; [exact H2'|]. split; [congruence|]. split; [exact H3'|]. split.
    + rewrite Esi, H2. reflexivity.
    + rewrite (ext (powers s') (powers s1) (l_id l) P), H2'. reflexivity.
Qed.
Lemma air_lost n s s' b l : power_control n s = Ok (s', b) -> In l links -> on_air l -> ~ has_sectors l ->
  x_tx (s' (l_id l)) = NInf /\ x_mcs (s' (l_id l)) = 0%nat.
Proof.
  intros E Hl Lv Hs. destruct (wireless_class n s s' b l E Hl (proj2 Lv)) as [C _]. apply on_air_live in Lv.
  assert (Ho : is_out_of_sector l = true) by (destruct (is_out_of_sector l) eqn:X; [reflexivity|apply sectors_out in X; contradiction]).
  destruct (control_state n s s' b E) as (s0 & s1 & E0 & G & P & A & _). generalize (G l Hl Lv). unfold good. rewrite Ho. intros (_ & H1 & H2).
  split; [now rewrite P|]. destruct (A l Hl Lv) as (_ & m & Em & E'). apply (conclude_class l _ m Hl (live_wired l Lv)) in Em; [|apply sinr_not_pinf; cbn; tauto].
  destruct Em as (_ & _ & _ & _ & _ & Esi). cbn in Esi. rewrite E' in *. rewrite Esi in C. destruct H2 as [H2|H2]; rewrite H2 in C; exact C.
Qed.
Lemma off_air n s s' b l : power_control n s = Ok (s', b) -> In l links -> ~ on_air l -> l_type l <> ETHERNET -> has_sectors l ->
  exists bu, link_budget (max_power l) (minimum l) (gain l) (noise l) (table l) = Ok bu
    /\ x_tx (s' (l_id l)) = Fin (b_tx bu) /\ x_sinr (s' (l_id l)) = Fin (b_snr bu).
Proof.
  intros E Hl Lv T Hs. apply sectors_out in Hs. assert (W : wired l = false) by (destruct (wired l) eqn:W; [apply wired_type in W; contradiction|reflexivity]).
  assert (Lf : live l = false) by (destruct (live l) eqn:X; [apply on_air_live in X; contradiction|reflexivity]).
  destruct (control_state n s s' b E) as (s0 & s1 & E0 & _ & _ & _ & B). destruct (B l Hl Lf) as (m & Em & ->).
  destruct (start_loop s s0 E0 l Hl) as (m0 & S0 & E1). rewrite E1 in Em. apply (conclude_class l _ m Hl W) in Em; [|exact (start_sinr _ _ _ S0)].
  unfold start in S0. rewrite W, Hs in S0. destruct (link_budget _ _ _ _ _) as [bu|]; [|discriminate]. injection S0 as <-. exists bu. split; [reflexivity|]. tauto.
Qed.
End Control.
