(** Reading the answer of the redundancy problem (extract_redundancy_solution). *)
From Coq Require Import QArith Lqa Lia Permutation.
From Verif Require Import Base Dict TopologyModel TopologySpec TopologyLemmas GraphSpec GraphProofs RfModel SetupModel PruneModel
  IlpModel IlpSpec QLib MonadLib SetupProofs IlpLemmas IlpProofs ExtractModel ExtractSpec ExtractProofs RedunModel RedunSpec FlowCut RedunProofs.
Local Open Scope Q_scope.

Lemma rbinary_get {K} `{EqB K} v (d : dict K rexpr) k : dget (rbinary v d) k = option_map (fun x => get_binary_value (reval v x)) (dget d k).
Proof. unfold rbinary. apply (dget_map_val (fun x => get_binary_value (reval v x))). Qed.
Lemma rvalues_get {K} `{EqB K} v (d : dict K rexpr) k : dget (rvalues v d) k = option_map (reval v) (dget d k).
Proof. unfold rvalues. apply (dget_map_val (reval v)). Qed.
Lemma binary_bit q : get_binary_value q = 0%Z \/ get_binary_value q = 1%Z.
Proof. unfold get_binary_value. destruct (gtb q (1 - epsilon)); auto. Qed.
Lemma split_get (site odd : dict string Z) pol i : split_odd site odd = Ok pol ->
  dget pol i = match dget odd i with
               | None => None
               | Some a => match dget site i with None => None | Some z => Some (if Z.eqb z 0 then (0%Z, 0%Z) else (a, (1 - a)%Z)) end
               end.
Proof.
  unfold split_odd. intros E. apply mapM_ok in E. induction E as [|[k a] [k' b] l r Hab E IH]; [reflexivity|]. apply rbind_ok in Hab. destruct Hab as (z & Ez & Hab). apply get_ok in Ez. injection Hab as <- <-. cbn [fst snd dget] in *. destruct (beq_spec i k) as [->|Ne]; [|exact IH]. now rewrite Ez.
Qed.
Lemma filterM_total' {A} (f : A -> result bool) l : (forall x, In x l -> exists b, f x = Ok b) -> exists r, filterM f l = Ok r.
Proof.
  induction l as [|x l IH]; intros Hf; cbn [filterM]; [eauto|]. destruct (Hf x) as (b & Eb); [now left|]. rewrite Eb.
  destruct IH as (r & Er); [intros; apply Hf; now right|]. rewrite Er. cbn. eauto.
Qed.

Section Read.
Variables (ps : params) (at_ : attrs) (t : topo) (cs : caps) (only : option (list edge)) (R : rnet).
Hypothesis Hw : well_formed t.
Hypothesis Hn : names_ok at_ t.
Hypothesis HR : redundant_network ps at_ t cs only = Ok R.
Let I := r_inst R.
Let D : describes ps at_ t (a_cap at_) I := desc_R ps at_ t cs only R Hw Hn HR.
Let NF := net_fields ps at_ t cs only R Hw Hn HR.
Let HI : network ps at_ t = Ok I := proj1 NF.

(** in use: active, or an end of an active link *)
Definition in_use_R (i : string) : Prop := active_now t i \/ exists k l, link_stored t k l /\ active_link l /\ touches l i.
Lemma forced_iff i : In i (r_forced R) <-> in_use_R i.
Proof.
  unfold r_forced, in_use_R, active_now, in_service. fold I. rewrite !in_app_iff, (D_ps _ _ _ _ _ D), (D_es _ _ _ _ _ D), in_flat_map. split.
  - intros [(s & Es & St)|[(s & Es & St)|(e & He & Hi)]]; [left; exists s; auto|left; exists s; auto|right].
    apply (D_alinks _ _ _ _ _ D) in He. destruct He as (k & l & El & -> & St). exists k, l. split; [auto|]. split; [exact St|]. cbn in Hi. unfold touches. tauto.
  - intros [(s & Es & [St|St])|(k & l & El & St & Ht)]; [left; exists s; auto|right; left; exists s; auto|right; right].
    exists (l_tx l, l_rx l). split; [apply (D_alinks _ _ _ _ _ D); exists k, l; auto|]. cbn. unfold touches in Ht. tauto.
Qed.
Let one_place := colocated t.

Lemma any_dn_ok (site : dict string Z) i s locs : dget (t_sites t) i = Some s -> dget (i_colocated I) (s_loc s) = Some locs ->
  exists b, any_dn_active R site locs = Ok b /\ (b = true <-> exists j, one_place i j /\ backhaul_site t j /\ dget site j = Some 1%Z).
Proof.
  intros Es El. destruct (D_col _ _ _ _ _ D _ _ El) as (_ & Hl). unfold any_dn_active. fold I.
  destruct (filterM_total' (fun c => do ty <- get (i_type I) c ; Ok (dist ty && match dget site c with Some z => Z.eqb z 1 | None => false end)) locs) as (r & Er).
  { intros c Hc. apply Hl in Hc. destruct Hc as (s' & Es' & _). unfold get. rewrite (D_site _ _ _ _ _ D _ _ Es'). cbn. eauto. }
  rewrite Er. cbn [rbind]. eexists. split; [reflexivity|]. destruct (filterM_ok _ _ _ Er) as (_ & F & _).
  assert (G : forall c, In c r <-> one_place i c /\ backhaul_site t c /\ dget site c = Some 1%Z).
  { intros c. rewrite F, Hl. split.
    - intros ((s' & Es' & Ec) & Hc). inv_do. apply andb_true_iff in Hc. destruct Hc as (Hd & Hz). split; [exists s, s'; auto|].
      split; [apply (backhaul_dist ps at_ t cs only R Hw Hn HR); eauto|]. destruct (dget site c) as [z|]; [|discriminate]. apply Z.eqb_eq in Hz. now subst.
    - intros ((s1 & s2 & E1 & E2 & Ec) & B & Hz). rewrite Es in E1. injection E1 as <-. split; [exists s2; auto|].
      apply (backhaul_dist ps at_ t cs only R Hw Hn HR) in B. destruct B as (ty & Ht & Hd). unfold get. fold I in Ht. rewrite Ht. cbn [rbind]. now rewrite Hd, Hz. }
  destruct r as [|c r].
  - split; [discriminate|]. intros (j & Hj). apply G in Hj. contradiction.
  - split; [intros _; exists c; apply G; now left|reflexivity].
Qed.

Definition bitz (b : bool) : Z := if b then 1%Z else 0%Z.
Definition filled (l : list string) (s0 s1 : dict string Z) : Prop :=
  (forall i, ~ In i l -> dget s1 i = dget s0 i) /\
  (forall i, backhaul_site t i -> In i l -> dget s1 i = match dget s0 i with Some z => Some z | None => Some (bitz (mem i (r_forced R))) end) /\
  (forall i s, In i l -> dget (t_sites t) i = Some s -> s_type s = CN ->
     (~ In i (r_forced R) -> dget s1 i = Some 0%Z) /\
     (In i (r_forced R) ->
       (dget s1 i = Some 1%Z /\ forall j, one_place i j -> backhaul_site t j -> dget s0 j <> Some 1%Z) \/
       (dget s1 i = Some 0%Z /\ exists j, one_place i j /\ backhaul_site t j /\ dget s1 j = Some 1%Z))).
Lemma not_backhaul_cn i s : dget (t_sites t) i = Some s -> s_type s = CN -> ~ backhaul_site t i.
Proof. intros Es Hc (s' & Es' & [H|H]); congruence. Qed.
Lemma fill_step site i : In i (i_locations I) -> exists site', fill_site R site i = Ok site' /\ filled [i] site site'.
Proof.
  intros Hi. unfold fill_site. fold I. apply (D_locs _ _ _ _ _ D) in Hi. destruct Hi as [->|[(s & Es)|Hc]].
  - unfold get at 1. rewrite (D_super _ _ _ _ _ D). cbn [rbind imaginary]. eexists. split; [reflexivity|]. split; [auto|]. split.
    + intros j B [<-|[]]. exfalso. apply (proj1 Hn). now apply backhaul_stored.
    + intros j s [<-|[]] Es. exfalso. apply (proj1 Hn). now exists s.
  - unfold get at 1. rewrite (D_site _ _ _ _ _ D _ _ Es). cbn [rbind imaginary]. destruct (s_type s) eqn:Ty.
    + (* CN *) change (beq (Real CN) (Real CN)) with true. cbn match. destruct (mem i (r_forced R)) eqn:Mf.
      * unfold get at 1. rewrite (D_geo _ _ _ _ _ D _ _ Es). cbn [rbind]. destruct (D_col_dom _ _ _ _ _ D _ _ Es) as (locs & El). rewrite El.
        destruct (Nat.leb (List.length locs) 1) eqn:Hlen.
        -- eexists. split; [reflexivity|]. split; [intros j Hj; rewrite dget_set; destruct (beq_spec j i) as [->|]; [exfalso; apply Hj; now left|auto]|]. split.
           ++ intros j B [<-|[]]. exfalso. exact (not_backhaul_cn i s Es Ty B).
           ++ intros j s' [<-|[]] Es' _. split; [intros Hnf; exfalso; apply Hnf; now apply mem_In|intros _; left]. rewrite dget_set, beq_refl. split; [auto|].
              intros j (s1 & s2 & E1 & E2 & Ec) B. exfalso. destruct (D_col _ _ _ _ _ D _ _ El) as (Nd & Hl). rewrite Es in E1. injection E1 as <-.
              assert (Hi' : In i locs) by (apply Hl; exists s; auto). assert (Hj' : In j locs) by (apply Hl; exists s2; auto).
              assert (i <> j) by (intros Eij; rewrite <- Eij in B; exact (not_backhaul_cn i s Es Ty B)). apply Nat.leb_le in Hlen.
              destruct locs as [|a [|b r]]; cbn in Hlen, Hi', Hj'; [contradiction| |lia]. destruct Hi' as [<-|[]], Hj' as [<-|[]]. congruence.
        -- destruct (any_dn_ok site i s locs Es El) as (b & Eb & Hb). rewrite Eb. cbn [rbind]. eexists. split; [reflexivity|].
           split; [intros j Hj; rewrite dget_set; destruct (beq_spec j i) as [->|]; [exfalso; apply Hj; now left|auto]|]. split.
           ++ intros j B [<-|[]]. exfalso. exact (not_backhaul_cn i s Es Ty B).
           ++ intros j s' [<-|[]] Es' _. split; [intros Hnf; exfalso; apply Hnf; now apply mem_In|intros _]. rewrite dget_set, beq_refl. destruct b.
              ** right. split; [auto|]. destruct (proj1 Hb eq_refl) as (j & H1 & H2 & H3). exists j. split; [auto|]. split; [auto|].
                 rewrite dget_set. destruct (beq_spec j i) as [->|]; [exfalso; exact (not_backhaul_cn i s Es Ty H2)|auto].
              ** left. split; [auto|]. intros j H1 H2 H3. assert (false = true) by (apply Hb; eauto). discriminate.
      * eexists. split; [reflexivity|]. split; [intros j Hj; rewrite dget_set; destruct (beq_spec j i) as [->|]; [exfalso; apply Hj; now left|auto]|]. split.
        -- intros j B [<-|[]]. exfalso. exact (not_backhaul_cn i s Es Ty B).
        -- intros j s' [<-|[]] Es' _. rewrite dget_set, beq_refl. split; [auto|]. intros Hf. apply mem_not_In in Mf. contradiction.
    + (* DN *) change (beq (Real DN) (Real CN)) with false. cbn [dist andb]. unfold dmem. destruct (dget site i) as [z|] eqn:Ez; cbn [negb].
      * eexists. split; [reflexivity|]. split; [auto|]. split; [intros j B [<-|[]]; now rewrite Ez|]. intros j s' [<-|[]] Es'. congruence.
      * eexists. split; [reflexivity|]. split; [intros j Hj; rewrite dget_set; destruct (beq_spec j i) as [->|]; [exfalso; apply Hj; now left|auto]|].
        split; [intros j B [<-|[]]; rewrite dget_set, beq_refl, Ez; reflexivity|]. intros j s' [<-|[]] Es'. congruence.
    + (* POP *) change (beq (Real POP) (Real CN)) with false. cbn [dist andb]. unfold dmem. destruct (dget site i) as [z|] eqn:Ez; cbn [negb].
      * eexists. split; [reflexivity|]. split; [auto|]. split; [intros j B [<-|[]]; now rewrite Ez|]. intros j s' [<-|[]] Es'. congruence.
      * eexists. split; [reflexivity|]. split; [intros j Hj; rewrite dget_set; destruct (beq_spec j i) as [->|]; [exfalso; apply Hj; now left|auto]|].
        split; [intros j B [<-|[]]; rewrite dget_set, beq_refl, Ez; reflexivity|]. intros j s' [<-|[]] Es'. congruence.
  - unfold get at 1. rewrite (D_cons _ _ _ _ _ D _ Hc). cbn [rbind imaginary]. eexists. split; [reflexivity|]. assert (N := Hn). destruct N as (_ & _ & N3 & _). split; [auto|]. split.
    + intros j B [<-|[]]. exfalso. apply (N3 _ Hc). now apply backhaul_stored.
    + intros j s [<-|[]] Es. exfalso. apply (N3 _ Hc). now exists s.
Qed.
Lemma fill_all l : NoDup l -> (forall i, In i l -> In i (i_locations I)) -> forall s0, exists s1, foldM (fill_site R) l s0 = Ok s1 /\ filled l s0 s1.
Proof.
  induction 1 as [|x l Hx Hnd IH]; intros Hl s0.
  - exists s0. split; [reflexivity|]. split; [auto|]. split; [intros i _ []|intros i s []].
  - destruct (fill_step s0 x) as (s' & Es' & (A1 & A2 & A3)); [apply Hl; now left|].
    destruct (IH (fun i Hi => Hl i (or_intror Hi)) s') as (s1 & Es1 & (B1 & B2 & B3)).
    exists s1. split; [cbn [foldM]; rewrite Es'; exact Es1|].
    assert (Keep : forall j z, backhaul_site t j -> dget s' j = Some z -> dget s1 j = Some z).
    { intros j z Bj Hj. destruct (mem j l) eqn:Ej; [apply mem_In in Ej; rewrite (B2 j Bj Ej), Hj; reflexivity|apply mem_not_In in Ej; rewrite B1; auto]. }
    assert (Keep0 : forall j z, backhaul_site t j -> dget s0 j = Some z -> dget s' j = Some z).
    { intros j z Bj Hj. destruct (eqb_dec j x) as [->|Ne]; [rewrite A2, Hj; auto; now left|rewrite A1; auto]. intros [->|[]]. contradiction. }
    split; [|split].
    + intros i Hi. rewrite B1 by (intros ?; apply Hi; now right). apply A1. intros [->|[]]. apply Hi. now left.
    + intros i Bi [<-|Hi].
      * rewrite B1 by auto. apply A2; [auto|now left].
      * rewrite (B2 i Bi Hi). rewrite A1; [reflexivity|]. intros [->|[]]. contradiction.
    + intros i s [<-|Hi] Es Ec.
      * destruct (A3 x s (or_introl eq_refl) Es Ec) as (C1 & C2). rewrite B1 by auto. split; [exact C1|]. intros Hf. destruct (C2 Hf) as [(H1 & H2)|(H1 & (j & J1 & J2 & J3))]; [left; auto|right].
        split; [exact H1|]. exists j. eauto.
      * destruct (B3 i s Hi Es Ec) as (C1 & C2). split; [exact C1|]. intros Hf. destruct (C2 Hf) as [(H1 & H2)|?]; [left|right; auto]. split; [exact H1|].
        intros j J1 J2 J3. apply (H2 j J1 J2). now apply Keep0.
Qed.

Lemma fill_keys l s0 s1 : (forall i, In i l -> In i (i_locations I)) -> (forall j, ~ site_stored t j -> dget s0 j = None) ->
  foldM (fill_site R) l s0 = Ok s1 -> forall j, ~ site_stored t j -> dget s1 j = None.
Proof.
  intros Hl H0 E. revert E. apply (foldM_inv (fill_site R) (fun s => forall j, ~ site_stored t j -> dget s j = None)); [|exact H0].
  intros s x s' Hs Hx Es j Hj. destruct (fill_step s x (Hl x Hx)) as (s'' & Es'' & (A1 & _)). rewrite Es in Es''. injection Es'' as <-.
  destruct (eqb_dec j x) as [->|Ne]; [|rewrite A1; [auto|intros [->|[]]; contradiction]].
  assert (Hty := Hl x Hx). apply (D_locs _ _ _ _ _ D) in Hty. unfold fill_site in Es. fold I in Es. destruct Hty as [->|[?|Hc]]; [|contradiction|].
  - unfold get at 1 in Es. rewrite (D_super _ _ _ _ _ D) in Es. cbn in Es. injection Es as <-. auto.
  - unfold get at 1 in Es. rewrite (D_cons _ _ _ _ _ D _ Hc) in Es. cbn in Es. injection Es as <-. auto.
Qed.

(** polarities *)
Lemma odd_all site l : NoDup l -> (forall i, In i l -> In i (i_locations I)) -> (forall i, backhaul_site t i -> exists z, dget site i = Some z) ->
  forall o0, exists o1, foldM (fill_odd R site) l o0 = Ok o1 /\
    (forall i, (~ In i l \/ ~ backhaul_site t i) -> dget o1 i = dget o0 i) /\
    (forall i, backhaul_site t i -> In i l -> dget o1 i = match dget o0 i with Some z => Some z | None =>
       Some (match dget site i with Some z => bitz (Z.eqb z 1 && mem i (r_odd_in R)) | None => 0%Z end) end).
Proof.
  intros Hnd Hl Hs. induction Hnd as [|x l Hx Hnd IH]; intros o0.
  - exists o0. split; [reflexivity|]. split; [auto|]. intros i _ [].
  - assert (St : exists o', fill_odd R site o0 x = Ok o' /\ (forall i, i <> x \/ ~ backhaul_site t i -> dget o' i = dget o0 i) /\
       (backhaul_site t x -> dget o' x = match dget o0 x with Some z => Some z | None => Some (match dget site x with Some z => bitz (Z.eqb z 1 && mem x (r_odd_in R)) | None => 0%Z end) end)).
    { unfold fill_odd. fold I. assert (Hty : exists ty, dget (i_type I) x = Some ty).
      { assert (Hx' : In x (i_locations I)) by (apply Hl; now left). apply (D_locs _ _ _ _ _ D) in Hx'. destruct Hx' as [->|[(s & Es)|Hc]]; [rewrite (D_super _ _ _ _ _ D)|rewrite (D_site _ _ _ _ _ D _ _ Es)|rewrite (D_cons _ _ _ _ _ D _ Hc)]; eauto. }
      destruct Hty as (ty & Ety). unfold get at 1. rewrite Ety. cbn [rbind]. destruct (dist ty) eqn:Ed; cbn [andb].
      - assert (Bx : backhaul_site t x) by (apply (backhaul_dist ps at_ t cs only R Hw Hn HR); eauto). unfold dmem. destruct (dget o0 x) as [z|] eqn:Ez; cbn [negb].
        + exists o0. split; [auto|]. split; [auto|]. intros _. exact Ez.
        + destruct (Hs x Bx) as (z & Ezs). unfold get. rewrite Ezs. cbn [rbind]. eexists. split; [reflexivity|]. split.
          * intros i [Hi|Hi]; rewrite dget_set; destruct (beq_spec i x) as [->|]; auto; contradiction.
          * intros _. rewrite dget_set, beq_refl. reflexivity.
      - exists o0. split; [auto|]. split; [auto|]. intros Bx. apply (backhaul_dist ps at_ t cs only R Hw Hn HR) in Bx. destruct Bx as (ty' & E' & Ed'). fold I in E'. congruence. }
    destruct St as (o' & Eo' & S1 & S2). destruct (IH (fun i Hi => Hl i (or_intror Hi)) o') as (o1 & Eo1 & T1 & T2).
    exists o1. split; [cbn [foldM]; rewrite Eo'; exact Eo1|]. split.
    + intros i [Hi|Hi]; [rewrite T1 by (left; intros ?; apply Hi; now right); apply S1; left; intros ->; apply Hi; now left|rewrite T1 by auto; apply S1; auto].
    + intros i Bi [<-|Hi]; [rewrite T1 by auto; now apply S2|]. rewrite (T2 i Bi Hi), S1 by (left; intros ->; contradiction). reflexivity.
Qed.

Variables (sh : dict string Q) (v : rvar -> Q).
Definition choice_of (o : rsolution) : choice := mkChoice (n_site o) (n_odd o) (n_even o).
Record reading (o : rsolution) : Prop := mkReading {
  RD_site : forall i, In i (r_sites R) -> backhaul_site t i -> dget (n_site o) i = Some (get_binary_value (v (RSite i)));
  RD_other : forall i, ~ In i (r_sites R) -> backhaul_site t i -> dget (n_site o) i = Some (bitz (mem i (r_forced R)));
  RD_cn : forall i s, dget (t_sites t) i = Some s -> s_type s = CN ->
     (~ In i (r_forced R) -> r_off o i) /\
     (In i (r_forced R) ->
       (r_on o i /\ forall j, one_place i j -> backhaul_site t j -> In j (r_sites R) -> ~ r_on o j) \/
       (r_off o i /\ exists j, one_place i j /\ backhaul_site t j /\ r_on o j));
  RD_keys : forall i z, dget (n_site o) i = Some z -> site_stored t i;
  RD_bin : forall i, site_stored t i -> r_on o i \/ r_off o i;
  RD_odd : p_ignore_polarities ps = false -> forall i z, backhaul_site t i -> dget (n_site o) i = Some z -> exists a, (a = 0%Z \/ a = 1%Z) /\
     (In i (r_sites R) -> a = get_binary_value (v (ROdd i))) /\
     dget (n_odd o) i = Some (if Z.eqb z 0 then 0%Z else a) /\ dget (n_even o) i = Some (if Z.eqb z 0 then 0%Z else (1 - a)%Z);
  RD_sector : forall k x, sector_stored t k x -> dget (n_sector o) (x_site x, k) = dget (n_site o) (x_site x);
  RD_link : forall k l, link_stored t k l -> exists z, dget (n_link o) (l_tx l, l_rx l) = Some z /\ (z = 0%Z \/ z = 1%Z) /\ (z = 1%Z <-> wanted at_ t I (choice_of o) l);
  RD_flow : forall e d, In e (r_links R) -> In d (r_dns R) -> dget (n_flow o) (e, d) = Some (fl v d e);
  RD_short : n_short o = sh;
  RD_cost : forall zs zx, (forall i, site_stored t i -> exists z, dget (n_site o) i = Some z /\ zs i = inject_Z z) ->
    (forall k x, sector_stored t k x -> exists z, dget (n_sector o) (x_site x, k) = Some z /\ zx k = inject_Z z) -> n_cost o == bill t I zs zx }.

Lemma reading_ok : exists o, extract_redundancy R sh v = Ok o /\ reading o.
Proof.
  unfold extract_redundancy. destruct (tables_fields ps at_ t cs only R Hw Hn HR (Some sh)) as (V & sk & ok & EV & VS & VO & VF & VH & Hsk & Hok).
  rewrite EV. cbn [rbind]. fold I. assert (NdL := D_locs_nd _ _ _ _ _ D).
  destruct (fill_all (i_locations I) NdL (fun i Hi => Hi) (rbinary v (w_site V))) as (site & Esite & (A1 & A2 & A3)).
  rewrite Esite. cbn [rbind].
  assert (S0 : forall i, dget (rbinary v (w_site V)) i = if mem i sk then Some (get_binary_value (v (RSite i))) else None).
  { intros i. rewrite rbinary_get, VS, rfresh_get. destruct (mem i sk); reflexivity. }
  assert (Loc : forall i, site_stored t i -> In i (i_locations I)) by (intros i Hs; apply (D_locs _ _ _ _ _ D); auto).
  assert (FS : forall i, In i (r_sites R) -> backhaul_site t i -> dget site i = Some (get_binary_value (v (RSite i)))).
  { intros i Hi B. rewrite A2 by (auto; apply Loc; now apply backhaul_stored). rewrite S0. assert (Hm : In i sk) by (apply Hsk; auto). apply mem_In in Hm. now rewrite Hm. }
  assert (FO : forall i, ~ In i (r_sites R) -> backhaul_site t i -> dget site i = Some (bitz (mem i (r_forced R)))).
  { intros i Hi B. rewrite A2 by (auto; apply Loc; now apply backhaul_stored). rewrite S0. assert (Hm : ~ In i sk) by (rewrite Hsk; tauto). apply mem_not_In in Hm. now rewrite Hm. }
  assert (FB : forall i, site_stored t i -> dget site i = Some 1%Z \/ dget site i = Some 0%Z).
  { intros i (s & Es). destruct (s_type s) eqn:Ty.
    - destruct (A3 i s) as (C1 & C2); auto; [apply Loc; now exists s|]. destruct (mem i (r_forced R)) eqn:Mf.
      + apply mem_In in Mf. destruct (C2 Mf) as [(? & _)|(? & _)]; auto.
      + apply mem_not_In in Mf. right. now apply C1.
    - assert (B : backhaul_site t i) by (exists s; auto). destruct (mem i (r_sites R)) eqn:Mi; [apply mem_In in Mi; rewrite (FS i Mi B); destruct (binary_bit (v (RSite i))) as [-> | ->]; auto|].
      apply mem_not_In in Mi. rewrite (FO i Mi B). destruct (mem i (r_forced R)); auto.
    - assert (B : backhaul_site t i) by (exists s; auto). destruct (mem i (r_sites R)) eqn:Mi; [apply mem_In in Mi; rewrite (FS i Mi B); destruct (binary_bit (v (RSite i))) as [-> | ->]; auto|].
      apply mem_not_In in Mi. rewrite (FO i Mi B). destruct (mem i (r_forced R)); auto. }
  assert (Eps := params_R ps at_ t cs only R Hw Hn HR). fold I in Eps.
  assert (Odd : exists odd0, (if negb (p_ignore_polarities (i_params I)) then foldM (fill_odd R site) (i_locations I) (rbinary v (w_odd V)) else Ok []) = Ok odd0 /\
     (forall i a, dget odd0 i = Some a -> backhaul_site t i) /\
     (p_ignore_polarities ps = false -> forall i, backhaul_site t i -> exists a, dget odd0 i = Some a /\ (a = 0%Z \/ a = 1%Z) /\ (In i (r_sites R) -> a = get_binary_value (v (ROdd i))))).
  { rewrite Eps. destruct (p_ignore_polarities ps) eqn:Ip; cbn [negb]; [exists []; split; [auto|]; split; discriminate|].
    assert (O0 : forall i, dget (rbinary v (w_odd V)) i = if mem i ok then Some (get_binary_value (v (ROdd i))) else None).
    { intros i. rewrite rbinary_get, VO, rfresh_get. destruct (mem i ok); reflexivity. }
    destruct (odd_all site (i_locations I) NdL (fun i Hi => Hi)) with (o0 := rbinary v (w_odd V)) as (odd0 & Eo & B1 & B2).
    { intros i B. destruct (FB i) as [E|E]; [now apply backhaul_stored| |]; eauto. }
    exists odd0. split; [exact Eo|]. split.
    - intros i a Ha. apply (backhaul_dist ps at_ t cs only R Hw Hn HR). fold I. destruct (dget (i_type I) i) as [ty|] eqn:Ety.
      + destruct (dist ty) eqn:Ed; [eauto|exfalso]. assert (~ backhaul_site t i) as Nb.
        { intros B. apply (backhaul_dist ps at_ t cs only R Hw Hn HR) in B. destruct B as (ty' & E' & Ed'). fold I in E'. congruence. }
        rewrite B1, O0 in Ha by auto. destruct (mem i ok) eqn:Mo; [|discriminate]. apply mem_In, Hok in Mo. tauto.
      + exfalso. assert (~ backhaul_site t i) as Nb.
        { intros B. apply (backhaul_dist ps at_ t cs only R Hw Hn HR) in B. destruct B as (ty' & E' & Ed'). fold I in E'. congruence. }
        rewrite B1, O0 in Ha by auto. destruct (mem i ok) eqn:Mo; [|discriminate]. apply mem_In, Hok in Mo. tauto.
    - intros _ i B. rewrite (B2 i B) by (apply Loc; now apply backhaul_stored). rewrite O0. destruct (mem i ok) eqn:Mo.
      + eexists. split; [reflexivity|]. split; [apply binary_bit|auto].
      + eexists. split; [reflexivity|]. split; [destruct (dget site i) as [z|]; [|auto]; destruct (Z.eqb z 1 && mem i (r_odd_in R)); cbn; auto|].
        intros Hi. exfalso. apply mem_not_In in Mo. apply Mo, Hok. rewrite <- Eps in *. auto. }
  destruct Odd as (odd0 & Eodd & O1 & O2). rewrite Eodd. cbn [rbind].
  assert (Sp : exists pol, split_odd site odd0 = Ok pol).
  { unfold split_odd. assert (G : forall l, (forall p, In p l -> exists z, dget site (fst p) = Some z) -> exists r, mapM (fun p => do z <- get site (fst p) ; Ok (fst p, if Z.eqb z 0 then (0%Z, 0%Z) else (snd p, (1 - snd p)%Z))) l = Ok r).
    { intros l Hl. apply mapM_total. intros p Hp. destruct (Hl p Hp) as (z & Ez). unfold get. rewrite Ez. cbn. eauto. }
    apply G. intros [k a] Hin. cbn. assert (Hk : In k (dkeys odd0)) by (apply in_map_iff; exists (k, a); auto). apply In_dkeys in Hk. destruct Hk as (a' & Ea').
    destruct (FB k) as [E|E]; [apply backhaul_stored; eauto| |]; eauto. }
  destruct Sp as (pol & Epol). rewrite Epol. cbn [rbind].
  set (odd := map (fun p => (fst p, fst (snd p))) pol). set (even := map (fun p => (fst p, snd (snd p))) pol).
  assert (PO : p_ignore_polarities ps = false -> forall i z, backhaul_site t i -> dget site i = Some z -> exists a, (a = 0%Z \/ a = 1%Z) /\
     (In i (r_sites R) -> a = get_binary_value (v (ROdd i))) /\ dget odd i = Some (if Z.eqb z 0 then 0%Z else a) /\ dget even i = Some (if Z.eqb z 0 then 0%Z else (1 - a)%Z)).
  { intros Ip i z B Hz. destruct (O2 Ip i B) as (a & Ea & Ba & Ha). exists a. split; [auto|]. split; [auto|]. unfold odd, even.
    rewrite (dget_map_val (fun p : Z * Z => fst p) pol i), (dget_map_val (fun p : Z * Z => snd p) pol i), (split_get _ _ _ i Epol), Ea, Hz. cbn. destruct (Z.eqb z 0); auto. }
  set (st := mkChoice site odd even).
  set (v' := fun x => match x with VOdd i => match dget odd i with Some z => inject_Z z | None => 0 end | _ => 1 end).
  assert (Good : good t I v' st).
  { split.
    - intros i Hs. cbn. destruct (FB i Hs) as [E|E]; rewrite E; eexists; (split; [reflexivity|]); [right; split; reflexivity|auto].
    - intros Hp i z B Hz. cbn [c_site c_odd c_even st] in *. assert (Ip : p_ignore_polarities ps = false) by (rewrite <- Eps; change (i_params (with_channels 1 I)) with (i_params (with_channels 1 I)) in Hp; cbn in Hp; now destruct (p_ignore_polarities (i_params I))).
      destruct (PO Ip i z B Hz) as (a & Ba & _ & E1 & E2). rewrite E1, E2. unfold bit, v'. rewrite E1.
      destruct (Z.eqb z 0); [auto|]. destruct Ba as [-> | ->]; auto. }
  destruct (sectors_ok ps at_ t I v' Hw Hn HI st Good) as (sec & Esec & Sec1 & Sec2). change (sector_decisions (with_channels 1 I) (c_site st)) with (sector_decisions I site) in Esec.
  rewrite Esec. cbn [rbind].
  destruct (links_ok ps at_ t I v' Hw Hn HI st sec Good Sec1 Sec2) as (links & Elinks & L1 & _). change (link_decisions (with_channels 1 I) (c_site st) (c_odd st) sec) with (link_decisions I site odd sec) in Elinks.
  rewrite Elinks. cbn [rbind].
  assert (CO : exists c, solution_cost I site sec = Ok c /\ (forall zs zx, (forall i, site_stored t i -> exists z, dget site i = Some z /\ zs i = inject_Z z) ->
     (forall k x, sector_stored t k x -> exists z, dget sec (x_site x, k) = Some z /\ zx k = inject_Z z) -> c == bill t I zs zx)).
  { assert (G : forall zs zx, (forall i, site_stored t i -> exists z, dget site i = Some z /\ zs i = inject_Z z) ->
     (forall k x, sector_stored t k x -> exists z, dget sec (x_site x, k) = Some z /\ zx k = inject_Z z) -> exists c, solution_cost I site sec = Ok c /\ c == bill t I zs zx).
    { intros zs zx H1 H2. apply (cost_ok ps at_ t I Hw Hn HI site sec zs zx H1 H2). }
    destruct (G (fun i => match dget site i with Some z => inject_Z z | None => 0 end) (fun k => match dget (t_sectors t) k with Some x => match dget sec (x_site x, k) with Some z => inject_Z z | None => 0 end | None => 0 end)) as (c & Ec & _).
    - intros i Hs. destruct (FB i Hs) as [E|E]; rewrite E; eauto.
    - intros k x Hx. rewrite (Sec1 _ _ Hx). unfold sector_stored in Hx. rewrite Hx. rewrite (Sec1 k x Hx). cbn. destruct (FB (x_site x)) as [E|E]; [eapply sector_site_stored; eauto| |]; rewrite E; eauto.
    - exists c. split; [exact Ec|]. intros zs zx H1 H2. destruct (G zs zx H1 H2) as (c' & Ec' & Q). rewrite Ec in Ec'. injection Ec' as <-. exact Q. }
  destruct CO as (c & Ec & Hc). rewrite Ec. cbn [rbind]. eexists. split; [reflexivity|].
  split; cbn [n_site n_sector n_link n_odd n_even n_flow n_short n_cost]; unfold r_on, r_off; cbn [n_site]; auto.
  - intros i s Es Ty. destruct (A3 i s) as (C1 & C2); auto; [apply Loc; now exists s|]. split; [exact C1|]. intros Hf. destruct (C2 Hf) as [(H1 & H2)|H]; [left|right; exact H].
    split; [exact H1|]. intros j J1 J2 J3 J4. apply (H2 j J1 J2). rewrite S0. assert (Hm : In j sk) by (apply Hsk; auto). apply mem_In in Hm. rewrite Hm. rewrite <- (FS j J3 J2). exact J4.
  - intros i z Hz. destruct (dget (t_sites t) i) as [s|] eqn:Es; [now exists s|exfalso]. assert (Ns : ~ site_stored t i) by (intros (s & Es'); congruence).
    assert (K := fun H0 => fill_keys (i_locations I) (rbinary v (w_site V)) site (fun i Hi => Hi) H0 Esite i Ns). rewrite K in Hz; [discriminate|].
    intros j Hj. rewrite S0. destruct (mem j sk) eqn:Mj; [|reflexivity]. apply mem_In, Hsk in Mj. exfalso. apply Hj. now apply backhaul_stored.
  - intros e d He Hd. rewrite rvalues_get, VF, rfresh_get. assert (Hm : In (e, d) (r_flow_keys R)) by (apply (flow_keys_iff ps at_ t cs only R Hw Hn HR); auto). apply mem_In in Hm. rewrite Hm. reflexivity.
Qed.
Lemma reading_of o : extract_redundancy R sh v = Ok o -> reading o.
Proof. intros E. destruct reading_ok as (o' & E' & Ro). rewrite E in E'. injection E' as <-. exact Ro. Qed.
End Read.
