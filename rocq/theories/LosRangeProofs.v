(** Proofs of C20 and C21. *)
From Coq Require Import QArith.
From Verif Require Import Base Dict QLib MonadLib RfModel RfSpec RfProofs LosRangeModel LosRangeSpec.
Local Open Scope Z_scope.

Section Search.
Variable cap : Z -> result Q.
Lemma mid_bounds lo hi : lo < hi -> lo <= (lo + hi) / 2 < hi.
Proof. intros H. split; [apply Z.div_le_lower_bound; lia|apply Z.div_lt_upper_bound; lia]. Qed.
Lemma search_loop_ok fuel : forall lo hi, total_on cap lo hi -> (Z.to_nat (hi - lo) <= fuel)%nat ->
  exists d, search_loop cap fuel lo hi = Ok d /\ (lo <= hi -> lo <= d <= hi) /\ (hi <= lo -> d = lo) /\
    (d = lo \/ closes_at cap (d - 1)) /\ (hi <= lo \/ d = hi \/ dead_at cap d).
Proof.
  induction fuel as [|fuel IH]; intros lo hi Ht Hf; cbn [search_loop].
  - destruct (Z.ltb_spec lo hi); [lia|]. exists lo. repeat split; try lia; auto.
  - destruct (Z.ltb_spec lo hi) as [Hlt|Hge].
    2:{ exists lo. repeat split; try lia; auto. }
    assert (B := mid_bounds lo hi Hlt). set (mid := (lo + hi) / 2) in *. destruct (Ht mid) as (c & Ec); [lia|]. rewrite Ec. cbn [rbind].
    destruct (Qle_bool c 0) eqn:Q0; cbn [negb].
    + destruct (IH lo mid) as (d & E & I1 & I2 & I3 & I4); [intros d Hd; apply Ht; lia|lia|]. exists d. split; [exact E|]. split; [lia|]. split; [lia|]. split; [exact I3|].
      right. right. apply qle_true in Q0. destruct I4 as [I4|[->|I4]]; [|now exists c|exact I4]. assert (d = mid) by (specialize (I2 I4); lia). subst d. now exists c.
    + destruct (IH (mid + 1) hi) as (d & E & I1 & I2 & I3 & I4); [intros d Hd; apply Ht; lia|lia|]. exists d. split; [exact E|]. split; [lia|]. split; [lia|]. split.
      * destruct I3 as [->|I3]; [|now right]. right. replace (mid + 1 - 1) with mid by lia. exists c. split; [exact Ec|]. now apply qle_false.
      * right. destruct I4 as [I4|[->|I4]]; [|now left|now right]. left. specialize (I2 I4). lia.
Qed.
Lemma search_total lo hi : total_on cap lo (Z.max lo hi) -> exists r, search_max_los_dist_based_on_capacity cap lo hi = Ok r.
Proof.
  intros Ht. unfold search_max_los_dist_based_on_capacity. destruct (search_loop_ok (Z.to_nat (hi - lo)) lo hi) as (d & E & I1 & I2 & _); [intros d Hd; apply Ht; lia|lia|].
  rewrite E. cbn [rbind]. destruct (Ht d) as (c & Ec); [destruct (Z.le_gt_cases lo hi); [lia|specialize (I2 ltac:(lia)); lia]|]. rewrite Ec. cbn [rbind]. eauto.
Qed.
Lemma search_inv lo hi r : total_on cap lo hi -> lo <= hi -> search_max_los_dist_based_on_capacity cap lo hi = Ok r ->
  match r with
  | Some d => lo <= d <= hi /\ dead_at cap d /\ (d = lo \/ closes_at cap (d - 1))
  | None => closes_at cap hi
  end.
Proof.
  intros Ht Hle. unfold search_max_los_dist_based_on_capacity. destruct (search_loop_ok (Z.to_nat (hi - lo)) lo hi Ht ltac:(lia)) as (d & E & I1 & I2 & I3 & I4).
  rewrite E. cbn [rbind]. destruct (Ht d (I1 Hle)) as (c & Ec). rewrite Ec. cbn [rbind]. intros H. injection H as <-.
  destruct (Qle_bool c 0) eqn:Q0; cbn [negb].
  - apply qle_true in Q0. split; [auto|]. split; [now exists c|auto].
  - apply qle_false in Q0. assert (Hc : closes_at cap d) by now exists c. destruct I4 as [I4|[->|(c' & Ec' & Hle')]]; [|exact Hc|].
    + replace hi with d; [exact Hc|]. specialize (I1 Hle). lia.
    + rewrite Ec in Ec'. injection Ec' as <-. exfalso. apply (Qlt_not_le _ _ Q0 Hle').
Qed.
Lemma dead_not_closes d : dead_at cap d -> closes_at cap d -> False.
Proof. intros (c & E & H) (c' & E' & H'). rewrite E in E'. injection E' as <-. apply (Qlt_not_le _ _ H' H). Qed.
Lemma search_least lo hi d : total_on cap lo hi -> lo <= hi -> monotone_on cap lo hi ->
  search_max_los_dist_based_on_capacity cap lo hi = Ok (Some d) -> forall d', lo <= d' <= hi -> (dead_at cap d' <-> d <= d').
Proof.
  intros Ht Hle Hm E d' Hd'. destruct (search_inv lo hi _ Ht Hle E) as (I1 & I2 & I3). split.
  - intros Hdead. destruct (Z.le_gt_cases d d') as [|Hlt]; [auto|]. exfalso. destruct I3 as [->|I3]; [lia|].
    apply (dead_not_closes (d - 1)); [|exact I3]. apply (Hm d'); auto; lia.
  - intros Hge. apply (Hm d); auto; lia.
Qed.
Lemma search_none lo hi r : total_on cap lo hi -> lo <= hi -> monotone_on cap lo hi ->
  search_max_los_dist_based_on_capacity cap lo hi = Ok r -> (r = None <-> closes_at cap hi).
Proof.
  intros Ht Hle Hm E. assert (I := search_inv lo hi r Ht Hle E). destruct r as [d|]; [|tauto]. split; [discriminate|]. intros Hc. exfalso.
  destruct I as (I1 & I2 & _). apply (dead_not_closes hi); [|exact Hc]. apply (Hm d); auto; lia.
Qed.
End Search.

(** with the capacity of a link budget whose gain falls with distance *)
Section Budget.
Variable max_tx noise : Q.
Variable minimum : option Q.
Variable table : list mcsrow.
Variable gain : Z -> Q.
Definition budget_capacity (d : Z) : result Q := do b <- link_budget max_tx minimum (gain d) noise table ; Ok (b_capacity b).
Hypothesis Ht : good_table table.
Hypothesis Hi : throughput_increasing table.
Lemma budget_total lo hi : total_on budget_capacity lo hi.
Proof. intros d _. destruct (link_budget_best max_tx minimum (gain d) noise table Ht) as (b & E & _). unfold budget_capacity. rewrite E. cbn. eauto. Qed.
Lemma budget_monotone lo hi : (forall d d', lo <= d -> d <= d' -> d' <= hi -> (gain d' <= gain d)%Q) -> monotone_on budget_capacity lo hi.
Proof.
  intros Hg d d' H1 H2 H3 (c & Ec & Hc). unfold budget_capacity in Ec. apply rbind_ok in Ec. destruct Ec as (b & Eb & Ec). injection Ec as <-.
  destruct (link_budget_best max_tx minimum (gain d') noise table Ht) as (b' & E' & _). exists (b_capacity b'). unfold budget_capacity. rewrite E'. split; [reflexivity|].
  apply Qle_trans with (b_capacity b); [|exact Hc].
  apply (link_budget_monotone table max_tx minimum (gain d') noise max_tx (gain d) noise b' b); auto using Qle_refl.
Qed.
End Budget.

Section Pairs.
Variable capacity : device -> device -> list mcsrow -> Z -> result Q.
Variable m1 m2 : option nat.
Variable bound : option Z.
Notation one_way := (range capacity m1 m2).
Variable all : list device.
Hypothesis Hnd : distinct_skus all.
Variable w : device -> device -> Z.
Hypothesis Hw : forall tx rx, In tx all -> In rx all -> dv_type tx = DevDN -> one_way tx rx = Ok (w tx rx).
Notation lim := (limited bound).

Lemma lim_max x y : lim (Z.max x y) = Z.max (lim x) (lim y).
Proof. unfold limited. destruct bound; lia. Qed.
Lemma lim_lim x : lim (lim x) = lim x.
Proof. unfold limited. destruct bound; lia. Qed.
Lemma sku_inj a b : In a all -> In b all -> dv_sku a = dv_sku b -> a = b.
Proof.
  intros Ha Hb E. unfold distinct_skus in Hnd. clear Hw. induction all as [|x l IH]; [destruct Ha|]. cbn in Hnd. inversion Hnd as [|? ? Hx Hl]. subst.
  destruct Ha as [<-|Ha], Hb as [<-|Hb]; auto.
  - exfalso. apply Hx. rewrite E. now apply in_map.
  - exfalso. apply Hx. rewrite <- E. now apply in_map.
Qed.
(** the pairs treated so far and what is stored for them *)
Definition inv (P : list (device * device)) (d : dict (string * string) Z) : Prop :=
  dwf d /\ NoDup P /\ (forall a b, In (a, b) P -> In a all /\ In b all /\ dv_type a = DevDN) /\
  (forall k, In k (dkeys d) <-> exists a b, In (a, b) P /\ k = (dv_sku a, dv_sku b)) /\
  (forall a b, In (a, b) P -> exists x, dget d (dv_sku a, dv_sku b) = Some x /\
     ((~ In (b, a) P -> lim x = lim (w a b)) /\ (In (b, a) P -> lim x = lim (Z.max (w a b) (w b a))))).
Lemma dev_eq_dec (a b : device) : In a all -> In b all -> a = b \/ a <> b.
Proof. intros Ha Hb. destruct (String.eqb_spec (dv_sku a) (dv_sku b)) as [E|E]; [left; now apply sku_inj|right; congruence]. Qed.
Lemma key_in P d a b : inv P d -> In a all -> In b all -> (In (dv_sku a, dv_sku b) (dkeys d) <-> In (a, b) P).
Proof.
  intros (_ & _ & I3 & I4 & _) Ha Hb. rewrite I4. split.
  - intros (a' & b' & Hp & E). injection E as E1 E2. destruct (I3 _ _ Hp) as (X & Y & _). now rewrite (sku_inj a a'), (sku_inj b b').
  - intros Hp. eauto.
Qed.
Lemma pair_step_inv P d tx rx : inv P d -> In tx all -> In rx all -> dv_type tx = DevDN -> ~ In (tx, rx) P ->
  exists d', pair_step capacity m1 m2 tx d rx = Ok d' /\ inv (P ++ [(tx, rx)]) d'.
Proof.
  intros I Htx Hrx Hty Hnew. unfold pair_step. rewrite (Hw tx rx Htx Hrx Hty). cbn [rbind]. eexists. split; [reflexivity|].
  assert (K := key_in P d rx tx I Hrx Htx). assert (K0 := key_in P d tx rx I Htx Hrx). assert (I' := I). destruct I as (I1 & I2 & I3 & I4 & I5).
  set (k := (dv_sku tx, dv_sku rx)) in *. set (k' := (dv_sku rx, dv_sku tx)) in *.
  assert (Kother : forall a b, In (a, b) P -> (dv_sku a, dv_sku b) <> k).
  { intros a b Hp E. injection E as E1 E2. destruct (I3 _ _ Hp) as (X & Y & _). apply Hnew. now rewrite (sku_inj tx a), (sku_inj rx b). }
  assert (ND : NoDup (P ++ [(tx, rx)])).
  { clear - I2 Hnew. induction P as [|p P IH]; cbn; [repeat constructor; auto|]. inversion I2. subst. constructor.
    - rewrite in_app_iff. intros [H|[H|[]]]; [contradiction|]. apply Hnew. now left.
    - apply IH; auto. intros H. apply Hnew. now right. }
  assert (Dom : forall a b, In (a, b) (P ++ [(tx, rx)]) -> In a all /\ In b all /\ dv_type a = DevDN).
  { intros a b Hp. apply in_app_iff in Hp. destruct Hp as [Hp|[Hp|[]]]; [now apply I3|]. injection Hp as <- <-. auto. }
  destruct (dget d k') as [r'|] eqn:E.
  - assert (Hrev : In (rx, tx) P) by (apply K, In_dkeys; eauto).
    assert (Hdiff : k' <> k) by now apply Kother. assert (Hne : tx <> rx) by (intros ->; now apply Hdiff).
    destruct (I5 _ _ Hrev) as (x0 & Ex0 & V1 & V2). fold k' in Ex0. rewrite E in Ex0. injection Ex0 as <-.
    assert (L : lim (Z.max r' (w tx rx)) = lim (Z.max (w tx rx) (w rx tx))) by (rewrite lim_max, (V1 Hnew), <- lim_max, Z.max_comm; reflexivity).
    split; [now repeat apply dwf_set|]. split; [exact ND|]. split; [exact Dom|]. split.
    + intros q. rewrite In_dkeys. setoid_rewrite dget_set. setoid_rewrite dget_set. destruct (beq_spec q k) as [->|Nk].
      * split; [|eauto]. intros _. exists tx, rx. split; [apply in_app_iff; right; now left|reflexivity].
      * destruct (beq_spec q k') as [->|Nk'].
        -- split; [|eauto]. intros _. exists rx, tx. split; [apply in_app_iff; now left|reflexivity].
        -- rewrite <- In_dkeys, I4. split; intros (a & b & Hp & ->); exists a, b; (split; [|reflexivity]).
           ++ apply in_app_iff. now left.
           ++ apply in_app_iff in Hp. destruct Hp as [Hp|[Hp|[]]]; [auto|]. injection Hp as <- <-. now contradiction Nk.
    + intros a b Hp. apply in_app_iff in Hp. destruct Hp as [Hp|[Hp|[]]].
      * destruct (I3 _ _ Hp) as (X & Y & _). rewrite dget_set. destruct (beq_spec (dv_sku a, dv_sku b) k) as [E1|_]; [now contradiction (Kother _ _ Hp)|].
        rewrite dget_set. destruct (beq_spec (dv_sku a, dv_sku b) k') as [E1|N1].
        -- injection E1 as E1 E2. assert (a = rx) by now apply sku_inj. assert (b = tx) by now apply sku_inj. subst a b. eexists. split; [reflexivity|]. split.
           ++ intros N. exfalso. apply N, in_app_iff. right. now left.
           ++ intros _. rewrite L, Z.max_comm. reflexivity.
        -- destruct (I5 _ _ Hp) as (x & Ex & A & B). exists x. split; [exact Ex|]. split.
           ++ intros N. apply A. intros Q. apply N, in_app_iff. now left.
           ++ intros Q. apply in_app_iff in Q. destruct Q as [Q|[Q|[]]]; [auto|]. injection Q as <- <-. now contradiction N1.
      * injection Hp as <- <-. rewrite dget_set. fold k. rewrite beq_refl. eexists. split; [reflexivity|]. split; [intros N; exfalso; apply N, in_app_iff; now left|intros _; exact L].
  - assert (Hrev : ~ In (rx, tx) P) by (intros Hp; apply K, In_dkeys in Hp; destruct Hp; congruence).
    split; [now apply dwf_set|]. split; [exact ND|]. split; [exact Dom|]. split.
    + intros q. rewrite In_dkeys. setoid_rewrite dget_set. destruct (beq_spec q k) as [->|Nk].
      * split; [|eauto]. intros _. exists tx, rx. split; [apply in_app_iff; right; now left|reflexivity].
      * rewrite <- In_dkeys, I4. split; intros (a & b & Hp & ->); exists a, b; (split; [|reflexivity]).
        -- apply in_app_iff. now left.
        -- apply in_app_iff in Hp. destruct Hp as [Hp|[Hp|[]]]; [auto|]. injection Hp as <- <-. now contradiction Nk.
    + intros a b Hp. apply in_app_iff in Hp. destruct Hp as [Hp|[Hp|[]]].
      * rewrite dget_set. destruct (beq_spec (dv_sku a, dv_sku b) k) as [E1|_]; [now contradiction (Kother _ _ Hp)|].
        destruct (I5 _ _ Hp) as (x & Ex & A & B). exists x. split; [exact Ex|]. split.
        -- intros N. apply A. intros Q. apply N, in_app_iff. now left.
        -- intros Q. apply in_app_iff in Q. destruct Q as [Q|[Q|[]]]; [auto|]. injection Q as <- <-. contradiction.
      * injection Hp as <- <-. rewrite dget_set. fold k. rewrite beq_refl. eexists. split; [reflexivity|]. split; [auto|].
        intros Q. apply in_app_iff in Q. destruct Q as [Q|[Q|[]]]; [contradiction|]. injection Q as Q1 Q2. rewrite <- Q1. rewrite Z.max_id. reflexivity.
Qed.
Lemma pairs_inv tx : In tx all -> dv_type tx = DevDN -> forall rxs P d, inv P d -> incl rxs all -> NoDup rxs -> (forall rx, In rx rxs -> ~ In (tx, rx) P) ->
  exists d', foldM (pair_step capacity m1 m2 tx) d rxs = Ok d' /\ inv (P ++ map (pair tx) rxs) d'.
Proof.
  intros Htx Hty. induction rxs as [|rx rxs IH]; intros P d I Hin Hnd' Hfresh; cbn [foldM map].
  - exists d. split; [reflexivity|]. now rewrite app_nil_r.
  - destruct (pair_step_inv P d tx rx I Htx (Hin _ (or_introl eq_refl)) Hty (Hfresh _ (or_introl eq_refl))) as (d1 & E1 & I1). rewrite E1. cbn [rbind].
    inversion Hnd' as [|? ? Nx Nl]. subst. destruct (IH _ _ I1) as (d' & E' & I'').
    + intros y Hy. apply Hin. now right.
    + exact Nl.
    + intros y Hy Q. apply in_app_iff in Q. destruct Q as [Q|[Q|[]]]; [now apply (Hfresh y (or_intror Hy))|]. injection Q as <-. contradiction.
    + exists d'. split; [exact E'|]. rewrite <- app_assoc in I''. exact I''.
Qed.
Lemma clamp_get d k : dget (clamp bound d) k = match dget d k with Some x => Some (lim x) | None => None end.
Proof.
  unfold clamp, limited. destruct bound as [b|]; [|destruct (dget d k); reflexivity]. induction d as [|(k1, x) d IH]; [reflexivity|]. cbn [map fst snd dget].
  destruct (beq k k1); [|exact IH]. f_equal. destruct (Z.ltb_spec b x); lia.
Qed.
Lemma clamp_keys d : dkeys (clamp bound d) = dkeys d.
Proof. unfold clamp. destruct bound; [|reflexivity]. unfold dkeys. rewrite map_map. reflexivity. Qed.
Lemma clamp_inv P d : inv P d -> inv P (clamp bound d).
Proof.
  intros (I1 & I2 & I3 & I4 & I5). split; [unfold dwf; now rewrite clamp_keys|]. split; [auto|]. split; [auto|]. split; [intros k; now rewrite clamp_keys|].
  intros a b Hp. destruct (I5 a b Hp) as (x & Ex & V). exists (lim x). rewrite clamp_get, Ex. split; [reflexivity|]. rewrite lim_lim. exact V.
Qed.
Definition dns (l : list device) : list device := filter (fun x => match dv_type x with DevDN => true | DevCN => false end) l.
Lemma NoDup_all : NoDup all. Proof. unfold distinct_skus in Hnd. clear - Hnd. induction all; [constructor|]. cbn in Hnd. inversion Hnd. subst. constructor; [|auto]. intros H. apply H1. now apply in_map. Qed.
Definition capped (d : dict (string * string) Z) : Prop := forall k x, dget d k = Some x -> lim x = x.
Lemma tx_inv : forall txs P d, inv P d -> capped d -> incl txs all -> NoDup txs -> (forall a b, In (a, b) P -> ~ In a txs) ->
  exists d', foldM (tx_step capacity m1 m2 bound all) d txs = Ok d' /\ inv (P ++ flat_map (fun tx => map (pair tx) all) (dns txs)) d' /\ capped d'.
Proof.
  induction txs as [|tx txs IH]; intros P d I Hc Hin Hnd' Hfresh; cbn [foldM dns filter flat_map].
  - exists d. split; [reflexivity|]. rewrite app_nil_r. auto.
  - inversion Hnd' as [|? ? Nx Nl]. subst. unfold tx_step at 1. destruct (dv_type tx) eqn:Ty; cbn [rbind flat_map].
    + destruct (pairs_inv tx (Hin _ (or_introl eq_refl)) Ty all P d I (incl_refl _) NoDup_all) as (d1 & E1 & I1).
      { intros rx _ Q. apply (Hfresh _ _ Q). now left. }
      rewrite E1. cbn [rbind]. destruct (IH (P ++ map (pair tx) all) (clamp bound d1)) as (d' & E' & I' & C').
      * now apply clamp_inv.
      * intros k x. rewrite clamp_get. destruct (dget d1 k); [|discriminate]. intros H. injection H as <-. apply lim_lim.
      * intros y Hy. apply Hin. now right.
      * exact Nl.
      * intros a b Q. apply in_app_iff in Q. destruct Q as [Q|Q]; [intros X; apply (Hfresh _ _ Q); now right|]. apply in_map_iff in Q. destruct Q as (y & Q & _). injection Q as <- _. exact Nx.
      * exists d'. split; [exact E'|]. rewrite <- app_assoc in I'. auto.
    + destruct (IH P d I Hc) as (d' & E' & X); auto.
      * intros y Hy. apply Hin. now right.
      * intros a b Q X. apply (Hfresh _ _ Q). now right.
      * exists d'. auto.
Qed.
Theorem device_pairs : exists d, get_max_los_dist_for_device_pairs capacity m1 m2 bound all = Ok d /\ dwf d /\
  (forall k, In k (dkeys d) <-> exists tx rx, In tx all /\ In rx all /\ dv_type tx = DevDN /\ k = (dv_sku tx, dv_sku rx)) /\
  (forall tx rx, In tx all -> In rx all -> dv_type tx = DevDN -> dget d (dv_sku tx, dv_sku rx) = Some (lim (pair_range w tx rx))).
Proof.
  destruct (tx_inv all [] []) as (d & E & I & C).
  - split; [constructor|]. split; [constructor|]. split; [intros a b []|]. split; [|intros a b []]. intros k. split; [intros []|intros (a & b & [] & _)].
  - intros k x. discriminate.
  - apply incl_refl.
  - apply NoDup_all.
  - intros a b [].
  - assert (PP : forall a b, In (a, b) (flat_map (fun tx => map (pair tx) all) (dns all)) <-> In a all /\ In b all /\ dv_type a = DevDN).
    { intros a b. rewrite in_flat_map. split.
      - intros (x & Hx & Hp). apply in_map_iff in Hp. destruct Hp as (y & Hp & Hy). injection Hp as -> ->. apply filter_In in Hx. destruct Hx as (Hx & Ty). destruct (dv_type a); [auto|discriminate].
      - intros (Ha & Hb & Ty). exists a. split; [apply filter_In; rewrite Ty; auto|]. now apply in_map. }
    exists d. split; [exact E|]. destruct I as (I1 & I2 & I3 & I4 & I5). split; [exact I1|]. split.
    + intros k. rewrite I4. split; [intros (a & b & Hp & ->); apply PP in Hp; destruct Hp as (A & B & Ty); exists a, b; auto|].
      intros (a & b & Ha & Hb & Ty & ->). exists a, b. split; [apply PP; auto|reflexivity].
    + intros tx rx Htx Hrx Ty. destruct (I5 tx rx) as (x & Ex & V1 & V2); [apply PP; auto|]. rewrite Ex. f_equal. rewrite <- (C _ _ Ex). unfold pair_range. destruct (dv_type rx) eqn:Tr.
      * apply V2, PP. auto.
      * apply V1. intros Q. apply PP in Q. destruct Q as (_ & _ & Q). congruence.
Qed.
End Pairs.
Lemma foldM_each {A S} (f : S -> A -> result S) (P : A -> Prop) : (forall s a s', f s a = Ok s' -> P a) ->
  forall l s s', foldM f s l = Ok s' -> forall a, In a l -> P a.
Proof.
  intros Hf. induction l as [|x l IH]; intros s s' E a Ha; [destruct Ha|]. cbn [foldM] in E. apply rbind_ok in E. destruct E as (s1 & E1 & E2).
  destruct Ha as [<-|Ha]; [eapply Hf; eauto|eapply IH; eauto].
Qed.
Lemma pairs_ok_ranges capacity m1 m2 bound all d : get_max_los_dist_for_device_pairs capacity m1 m2 bound all = Ok d ->
  forall tx rx, In tx all -> In rx all -> dv_type tx = DevDN -> exists r, range capacity m1 m2 tx rx = Ok r.
Proof.
  intros E tx rx Htx Hrx Ty.
  assert (H := foldM_each (tx_step capacity m1 m2 bound all) (fun tx => dv_type tx = DevDN -> exists r, range capacity m1 m2 tx rx = Ok r)).
  eapply H; [|exact E|exact Htx|exact Ty]. intros s a s' E1 Ty1. unfold tx_step in E1. rewrite Ty1 in E1. apply rbind_ok in E1. destruct E1 as (d1 & E1 & _).
  assert (H2 := foldM_each (pair_step capacity m1 m2 a) (fun rx => exists r, range capacity m1 m2 a rx = Ok r)). eapply H2; [|exact E1|exact Hrx].
  intros s0 a0 s0' E2. unfold pair_step in E2. apply rbind_ok in E2. destruct E2 as (r & E2 & _). eauto.
Qed.
Definition way (capacity : device -> device -> list mcsrow -> Z -> result Q) (m1 m2 : option nat) (tx rx : device) : Z :=
  match range capacity m1 m2 tx rx with Ok r => r | Err _ => 0 end.
Lemma device_pairs_ok capacity m1 m2 bound all d : distinct_skus all -> get_max_los_dist_for_device_pairs capacity m1 m2 bound all = Ok d ->
  exists w, (forall tx rx, In tx all -> In rx all -> dv_type tx = DevDN -> range capacity m1 m2 tx rx = Ok (w tx rx)) /\
  (forall k, In k (dkeys d) <-> exists tx rx, In tx all /\ In rx all /\ dv_type tx = DevDN /\ k = (dv_sku tx, dv_sku rx)) /\
  (forall tx rx, In tx all -> In rx all -> dv_type tx = DevDN -> dget d (dv_sku tx, dv_sku rx) = Some (limited bound (pair_range w tx rx))).
Proof.
  intros Hd E. set (w := way capacity m1 m2).
  assert (Hw : forall tx rx, In tx all -> In rx all -> dv_type tx = DevDN -> range capacity m1 m2 tx rx = Ok (w tx rx)).
  { intros tx rx Htx Hrx Ty. destruct (pairs_ok_ranges _ _ _ _ _ _ E tx rx Htx Hrx Ty) as (r & Er). unfold w, way. now rewrite Er. }
  exists w. split; [exact Hw|]. destruct (device_pairs capacity m1 m2 bound all Hd w Hw) as (d' & E' & _ & K & V). rewrite E in E'. injection E' as <-. auto.
Qed.
Lemma device_pairs_symmetric capacity m1 m2 bound all d a b : distinct_skus all -> get_max_los_dist_for_device_pairs capacity m1 m2 bound all = Ok d ->
  In a all -> In b all -> dv_type a = DevDN -> dv_type b = DevDN -> dget d (dv_sku a, dv_sku b) = dget d (dv_sku b, dv_sku a).
Proof.
  intros Hd E Ha Hb Ta Tb. destruct (device_pairs_ok _ _ _ _ _ _ Hd E) as (w & _ & _ & V). rewrite (V a b), (V b a); auto.
  unfold pair_range. rewrite Ta, Tb, Z.max_comm. reflexivity.
Qed.
(** every stored range is at most the bound *)
Lemma device_pairs_bounded capacity m1 m2 b all d k x : distinct_skus all -> get_max_los_dist_for_device_pairs capacity m1 m2 (Some b) all = Ok d ->
  dget d k = Some x -> x <= b.
Proof.
  intros Hd E Ek. destruct (device_pairs_ok _ _ _ _ _ _ Hd E) as (w & _ & K & V). assert (Hk : In k (dkeys d)) by (apply In_dkeys; eauto). apply K in Hk.
  destruct Hk as (tx & rx & Htx & Hrx & Ty & ->). rewrite (V tx rx Htx Hrx Ty) in Ek. injection Ek as <-. unfold limited. lia.
Qed.
(** the range a pair is given covers every distance at which some direction has capacity *)
Lemma range_covers capacity m1 m2 tx rx t r : usable_table m1 m2 rx = Ok t -> range capacity m1 m2 tx rx = Ok r ->
  total_on (capacity tx rx t) LOWER_BOUND_FOR_LOS_DISTANCE UPPER_BOUND_FOR_LOS_DISTANCE ->
  monotone_on (capacity tx rx t) LOWER_BOUND_FOR_LOS_DISTANCE UPPER_BOUND_FOR_LOS_DISTANCE ->
  forall x, LOWER_BOUND_FOR_LOS_DISTANCE <= x <= UPPER_BOUND_FOR_LOS_DISTANCE -> (closes_at (capacity tx rx t) x <-> x < r).
Proof.
  intros Et E Ht Hm x Hx. unfold range in E. apply rbind_ok in E. destruct E as (t' & Et' & E). assert (t' = t) by congruence. subst t'.
  apply rbind_ok in E. destruct E as (o & Eo & E). destruct o as [r'|]; [|discriminate]. injection E as <-.
  assert (HB : LOWER_BOUND_FOR_LOS_DISTANCE <= UPPER_BOUND_FOR_LOS_DISTANCE) by lia.
  assert (L := search_least _ _ _ r' Ht HB Hm Eo x Hx). split.
  - intros Hc. destruct (Z.lt_ge_cases x r') as [|Hge]; [auto|]. exfalso. eapply dead_not_closes; [apply L; lia|exact Hc].
  - intros Hlt. destruct (Ht x Hx) as (c & Ec). exists c. split; [exact Ec|]. destruct (Qlt_le_dec 0 c) as [|Hle]; [auto|]. exfalso.
    assert (r' <= x) by (apply L; now exists c). lia.
Qed.
