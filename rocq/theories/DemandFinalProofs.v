From Coq Require Import QArith ZArith Lia.
From Verif Require Import Base Dict QLib MonadLib TopologyModel TopologyProofs SetupModel SetupProofs GraphProofs DemandModel DemandSpec DemandProofs DemandMainProofs.
Local Open Scope list_scope.

Section Final.
Variable did : Z -> Z -> string.
Variable dist : Z -> Z -> Z -> Z -> Q.
Variable deltas : Z -> Z -> Q -> Z * Z.
Variables (rooftop : string -> bool) (building : string -> option Z) (subscribers : string -> nat).
Variable deg : Z.
Variable sites : dict string site.
Variable p : dparams.
Variable D0 : dict string dsite.
Hypothesis Wf : dwf sites.
Hypothesis Hids : ids_ok did D0.
Hypothesis Hroom : p_uniform p = true -> roomy deg sites deltas (p_spacing p).
Notation grid := (grid_point deg sites deltas (p_spacing p)).
Notation expect := (expected did dist sites p D0 grid).

Lemma reset_get k : dget (reset_demands p D0) k = if p_manual p then option_map (fun d => mkD (q_lat d) (q_lon d) (q_num d) (p_demand p) []) (dget D0 k) else None.
Proof using.
  unfold reset_demands. destruct (p_manual p); [|reflexivity]. clear Hids. induction D0 as [|[k' d] r IH]; [reflexivity|]. cbn [map dget fst snd].
  destruct (beq k k'); [reflexivity|exact IH].
Qed.
Lemma reset_keys : dkeys (reset_demands p D0) = if p_manual p then dkeys D0 else [].
Proof using. unfold reset_demands. destruct (p_manual p); [|reflexivity]. unfold dkeys. rewrite map_map. reflexivity. Qed.
Lemma reset_wf : dwf (reset_demands p D0).
Proof using Hids. unfold dwf. rewrite reset_keys. destruct (p_manual p); [apply Hids|constructor]. Qed.

Definition fits (k : string) (lat lon : Z) (base : string -> Prop) (d : dsite) : Prop :=
  q_lat d = lat /\ q_lon d = lon /\ q_demand d = p_demand p /\ NoDup (q_sites d) /\ (forall i, In i (q_sites d) <-> base i)
  /\ number did sites subscribers p D0 grid k (q_num d).
Definition number0 (k : string) (n : nat) : Prop :=
  (forall lat lon, p_uniform p = true -> grid lat lon -> k = did lat lon -> n = 1%nat)
  /\ ((forall a b, p_uniform p = true -> grid a b -> k <> did a b) -> forall d0, In (k, d0) D0 -> n = q_num d0).

(** before CN demand is added *)
Definition expect0 (k : string) (lat lon : Z) (base : string -> Prop) : Prop :=
  from_manual dist sites p D0 k lat lon base \/ from_grid did dist sites p grid k lat lon base.
Lemma manual_mem k : mem k (dkeys (reset_demands p D0)) = true <-> p_manual p = true /\ exists d, In (k, d) D0.
Proof using.
  rewrite mem_In, reset_keys. destruct (p_manual p).
  - unfold dkeys. rewrite in_map_iff. split.
    + intros ((k' & d) & <- & H). split; [reflexivity|eauto].
    + intros (_ & d & H). exists (k, d). auto.
  - split; [intros []|intros [? _]; discriminate].
Qed.
Lemma first_stages fuel D2 : (if p_uniform p then add_uniform did deltas deg sites fuel (p_spacing p) (p_demand p) (reset_demands p D0) else Ok (reset_demands p D0)) = Ok D2 ->
  exists D3, connect dist sites (p_radius p) (dkeys (reset_demands p D0)) (dkeys D2) D2 = Ok D3 /\ dwf D3
   /\ (forall k, dmem D3 k = true <-> exists lat lon base, expect0 k lat lon base)
   /\ (forall k d lat lon base, dget D3 k = Some d -> expect0 k lat lon base ->
        q_lat d = lat /\ q_lon d = lon /\ q_demand d = p_demand p /\ NoDup (q_sites d) /\ (forall i, In i (q_sites d) <-> base i) /\ number0 k (q_num d)).
Proof using Wf Hids Hroom.
  intros E.
  destruct Hids as (W0 & Hinj & Hpos).
  assert (S2 : sets did (p_demand p) (fun lat lon => p_uniform p = true /\ grid lat lon) (reset_demands p D0) D2).
  { destruct (p_uniform p).
    - specialize (Hroom eq_refl). destruct (Hroom) as (Hdeg & _). apply (add_uniform_ok did deg Hinj Hdeg deltas sites _ _ _ _ _ Hroom) in E.
      destruct E as (W & P1 & P2 & P3). split; [exact W|]. split; [|split].
      + intros lat lon [_ H]. now apply P1.
      + intros k Hk. apply P2. intros lat lon H. apply Hk. auto.
      + intros k. destruct (P3 k) as [(a & b & Hab & Ek)|N]; [left; exists a, b; auto|right]. intros a b [_ Hab]. now apply N.
    - injection E as <-. apply sets_none. intros lat lon [H _]. discriminate. }
  destruct S2 as (W2 & P1 & P2 & P3). specialize (W2 reset_wf).
  destruct (connect_spec dist sites (p_radius p) (dkeys (reset_demands p D0)) (dkeys D2) D2 W2 W2) as (D3 & E3 & W3 & G3).
  { intros k Hk. now apply dmem_keys. }
  exists D3. split; [exact E3|]. split; [exact W3|].
  set (radius := p_radius p) in *.
  assert (G : forall k, dget D3 k = match dget D2 k with Some d => reached dist sites radius (dkeys (reset_demands p D0)) k d | None => None end).
  { intros k. rewrite G3. destruct (mem k (dkeys D2)) eqn:Em; [reflexivity|]. apply mem_not_In in Em. apply dget_None_keys in Em. now rewrite Em. }
  assert (Fit : forall d', q_demand d' = p_demand p -> let d := with_sites d' (near dist sites radius d') in
     q_lat d = q_lat d' /\ q_lon d = q_lon d' /\ q_demand d = p_demand p /\ NoDup (q_sites d) /\ (forall i, In i (q_sites d) <-> within dist sites radius (q_lat d') (q_lon d') i)).
  { intros d' Hd'. cbn. repeat match goal with |- _ /\ _ => split end; try reflexivity; [exact Hd'|now apply near_NoDup|]. intros i. apply near_iff. }
  assert (N2 : forall k d', dget D2 k = Some d' -> number0 k (q_num d')).
  { intros k d' Hk. split.
    - intros a b Hu Hg ->. rewrite (P1 a b (conj Hu Hg)) in Hk. injection Hk as <-. reflexivity.
    - intros N d0 Hd0. assert (N' : forall a b, p_uniform p = true /\ grid a b -> k <> did a b) by (intros a b [H1 H2]; exact (N a b H1 H2)).
      rewrite (P2 k N'), reset_get in Hk. destruct (p_manual p); [|discriminate]. apply (In_dget _ _ _ W0) in Hd0. rewrite Hd0 in Hk. cbn in Hk. injection Hk as <-. reflexivity. }
  (* what is found under [k] before connecting *)
  assert (C2 : forall k d', dget D2 k = Some d' -> q_demand d' = p_demand p
     /\ ((p_uniform p = true /\ grid (q_lat d') (q_lon d') /\ k = did (q_lat d') (q_lon d')) \/ (p_manual p = true /\ exists d, In (k, d) D0 /\ q_lat d = q_lat d' /\ q_lon d = q_lon d'))).
  { intros k d' Hk. destruct (P3 k) as [(a & b & [Hu Hg] & ->)|N].
    - rewrite (P1 a b (conj Hu Hg)) in Hk. injection Hk as <-. cbn. auto.
    - rewrite (P2 k N), reset_get in Hk. destruct (p_manual p); [|discriminate]. destruct (dget D0 k) as [d|] eqn:Ed; [|discriminate]. cbn in Hk. injection Hk as <-. cbn. split; [reflexivity|]. right. split; [reflexivity|]. exists d. split; [now apply dget_In|auto]. }
  assert (M2 : forall k lat lon base, expect0 k lat lon base -> exists d', dget D2 k = Some d' /\ q_lat d' = lat /\ q_lon d' = lon /\ base = within dist sites radius lat lon
     /\ (mem k (dkeys (reset_demands p D0)) = true \/ exists i, within dist sites radius lat lon i)).
  { intros k lat lon base [(Hm & (d & Hd & Hlat & Hlon) & Hb)|(Hu & -> & Hg & Hw & Hb)].
    - change (p_radius p) with radius in Hb. assert (Hmem : mem k (dkeys (reset_demands p D0)) = true) by (apply manual_mem; eauto).
      destruct (P3 k) as [(a & b & [Hu Hg] & Ek)|N].
      + exists (mkD a b 1 (p_demand p) []). destruct (Hpos _ _ _ _ Hd Ek) as [Ea Eb]. rewrite Ek at 1. rewrite (P1 a b (conj Hu Hg)). cbn. repeat match goal with |- _ /\ _ => split end; try congruence. now left.
      + exists (mkD (q_lat d) (q_lon d) (q_num d) (p_demand p) []). rewrite (P2 k N), reset_get, Hm. apply (In_dget _ _ _ W0) in Hd. rewrite Hd. cbn. repeat match goal with |- _ /\ _ => split end; try congruence. now left.
    - exists (mkD lat lon 1 (p_demand p) []). rewrite (P1 lat lon (conj Hu Hg)). cbn. repeat match goal with |- _ /\ _ => split end; try reflexivity; [exact Hb|now right]. }
  split.
  - intros k. rewrite dmem_Some. rewrite G. split.
    + intros (d & Hd). destruct (dget D2 k) as [d'|] eqn:E2; [|discriminate]. destruct (C2 _ _ E2) as [_ [(Hu & Hg & Ek)|(Hm & d1 & H1 & H2 & H3)]].
      * unfold reached in Hd. destruct (mem k (dkeys (reset_demands p D0))) eqn:Em.
        { apply manual_mem in Em. destruct Em as (Hm & d1 & Hd1). destruct (Hpos _ _ _ _ Hd1 Ek) as [Ea Eb].
          exists (q_lat d'), (q_lon d'), (within dist sites radius (q_lat d') (q_lon d')). left. split; [exact Hm|]. split; [exists d1; auto|reflexivity]. }
        { cbn [negb] in Hd. rewrite andb_true_r in Hd. destruct (near dist sites radius d') as [|i r] eqn:En; cbn [nil] in Hd; [discriminate|].
          exists (q_lat d'), (q_lon d'), (within dist sites radius (q_lat d') (q_lon d')). right. split; [exact Hu|]. split; [exact Ek|]. split; [exact Hg|]. split; [|reflexivity].
          exists i. change (p_radius p) with radius. apply near_iff. rewrite En. now left. }
      * exists (q_lat d'), (q_lon d'), (within dist sites radius (q_lat d') (q_lon d')). left. split; [exact Hm|]. split; [exists d1; auto|reflexivity].
    + intros (lat & lon & base & H). destruct (M2 _ _ _ _ H) as (d' & E2 & Hlat & Hlon & Hb & Hk). rewrite E2. unfold reached.
      destruct Hk as [Hk|(i & Hi)].
      * rewrite Hk. cbn [negb]. rewrite andb_false_r. eauto.
      * subst lat lon. apply near_iff in Hi. destruct (near dist sites radius d') as [|j r]; [destruct Hi|]. cbn [nil andb]. eauto.
  - intros k d lat lon base Hd H. destruct (M2 _ _ _ _ H) as (d' & E2 & Hlat & Hlon & Hb & _). rewrite G, E2 in Hd. unfold reached in Hd.
    destruct (nil _ && negb _) in Hd; [discriminate|]. injection Hd as <-. subst base. rewrite <- Hlat, <- Hlon. destruct (Fit d' (proj1 (C2 _ _ E2))) as (F1 & F2 & F3 & F4 & F5). repeat match goal with |- _ /\ _ => split end; try assumption. exact (N2 _ _ E2).
Qed.

Lemma cn_key_dec k : (exists lat lon i, cn_at sites lat lon i /\ k = did lat lon) \/ (forall lat lon i, cn_at sites lat lon i -> k <> did lat lon).
Proof using.
  destruct (existsb (fun q => beq (s_type (snd q)) CN && beq k (did (s_lat (snd q)) (s_lon (snd q)))) sites) eqn:E.
  - left. apply existsb_exists in E. destruct E as ([i s] & Hi & H). apply andb_true_iff in H. destruct H as [Ht Hk]. apply beq_true in Ht. apply beq_true in Hk. cbn [snd] in *.
    exists (s_lat s), (s_lon s), i. split; [|exact Hk]. exists s. split; [exact Hi|]. split; [exact Ht|]. now apply lies_pos.
  - right. intros lat lon i (s & Hi & Ht & Hl) Ek. apply lies_pos in Hl. injection Hl as <- <-.
    assert (X : existsb (fun q => beq (s_type (snd q)) CN && beq k (did (s_lat (snd q)) (s_lon (snd q)))) sites = true); [|congruence].
    apply existsb_exists. exists (i, s). split; [exact Hi|]. cbn [snd]. now rewrite Ht, Ek, !beq_refl.
Qed.
Lemma cn_stages fuel D2 : (if p_uniform p then add_uniform did deltas deg sites fuel (p_spacing p) (p_demand p) (reset_demands p D0) else Ok (reset_demands p D0)) = Ok D2 ->
  exists D3 D4, connect dist sites (p_radius p) (dkeys (reset_demands p D0)) (dkeys D2) D2 = Ok D3
   /\ (if p_cn p then add_cn_demand did subscribers sites (p_demand p) D3 else Ok D3) = Ok D4 /\ dwf D4
   /\ (forall k, dmem D4 k = true <-> exists lat lon base, expect k lat lon base)
   /\ (forall k d lat lon base, dget D4 k = Some d -> expect k lat lon base -> fits k lat lon base d).
Proof using Wf Hids Hroom.
  intros E. destruct (first_stages _ _ E) as (D3 & E3 & W3 & K3 & F3). exists D3.
  destruct Hids as (W0 & Hinj & Hpos).
  destruct (p_cn p) eqn:Ecn.
  - destruct (add_cn_demand_spec did subscribers Hinj sites (p_demand p) D3 W3) as (D4 & E4 & W4 & N4 & C4).
    exists D4. split; [exact E3|]. split; [exact E4|]. split; [exact W4|]. split.
    + intros k. destruct (cn_key_dec k) as [(lat & lon & i & Hi & ->)|N].
      * split; intros _.
        { exists lat, lon, (cn_at sites lat lon). left. split; [exact Ecn|]. split; [reflexivity|]. eauto. }
        { destruct (C4 _ _ _ Hi) as (f & l & G & _). apply dmem_Some. eauto. }
      * rewrite dmem_Some. rewrite (N4 k N). rewrite <- dmem_Some. pose proof (K3 k) as K. rewrite K.
        assert (NF : forall a b bs, ~ from_cn did sites p k a b bs) by (intros a b bs (_ & Ek & (i & Hi) & _); exact (N _ _ _ Hi Ek)).
        split; intros (lat & lon & base & H); exists lat, lon, base.
        { right. split; [exact NF|exact H]. }
        { destruct H as [H|[_ H]]; [destruct (NF _ _ _ H)|exact H]. }
    + intros k d lat lon base Hd [(_ & Ek & (i & Hi) & Hb)|[NF H]].
      * destruct (C4 _ _ _ Hi) as (f & l & G & Hf & Hl & Nl). rewrite Ek, G in Hd. injection Hd as <-. unfold fits. cbn.
        split; [reflexivity|]. split; [reflexivity|]. split; [reflexivity|]. split; [now apply Nl|]. split; [subst base; exact Hl|]. split.
        { intros lat' lon' base' (_ & Ek' & _). rewrite Ek in Ek'. apply Hinj in Ek'. destruct Ek' as [<- <-]. eauto. }
        { intros NF. exfalso. apply (NF lat lon (cn_at sites lat lon)). split; [exact Ecn|]. eauto. }
      * assert (N : forall a b i, cn_at sites a b i -> k <> did a b).
        { intros a b i Hi Ek. apply (NF a b (cn_at sites a b)). split; [exact Ecn|]. eauto. }
        rewrite (N4 k N) in Hd. destruct (F3 _ _ _ _ _ Hd H) as (H1 & H2 & H3 & H4 & H5 & H6).
        unfold fits. repeat match goal with |- _ /\ _ => split end; try assumption. split; [intros a b bs Hc; destruct (NF _ _ _ Hc)|]. intros _. exact H6.
  - exists D3. split; [exact E3|]. split; [reflexivity|]. split; [exact W3|].
    assert (NF : forall k a b bs, ~ from_cn did sites p k a b bs) by (intros k a b bs (H & _); congruence).
    split.
    + intros k. pose proof (K3 k) as K. rewrite K. split; intros (lat & lon & base & H); exists lat, lon, base.
      * right. split; [exact (NF k)|exact H].
      * destruct H as [H|[_ H]]; [destruct (NF _ _ _ _ H)|exact H].
    + intros k d lat lon base Hd [H|[_ H]]; [destruct (NF _ _ _ _ H)|]. destruct (F3 _ _ _ _ _ Hd H) as (H1 & H2 & H3 & H4 & H5 & H6).
      unfold fits. repeat match goal with |- _ /\ _ => split end; try assumption. split; [intros a b bs Hc; destruct (NF _ _ _ _ Hc)|]. intros _. exact H6.
Qed.
Lemma closure_connected m base i : (forall i j, In j (row m i) <-> shares rooftop building sites i j) ->
  closure (arrow m) base i <-> connected rooftop building sites base i.
Proof using Wf.
  intros Hm. split.
  - intros C. induction C as [i Hi|i j C IH Ha]; [now left|]. right. apply Hm in Ha. destruct IH as [Hb|(i0 & Hb & Hs)]; [eauto|].
    exfalso. destruct Hs as (s0 & s1 & _ & Hi & _ & Ht & _). destruct Ha as (s2 & s3 & Hi' & _ & Ht' & _).
    apply (In_dget _ _ _ Wf) in Hi. apply (In_dget _ _ _ Wf) in Hi'. congruence.
  - intros [Hb|(i0 & Hb & Hs)]; [now constructor|]. apply closure_step with i0; [now constructor|]. now apply Hm.
Qed.
Lemma demand_main fuel R : add_demand_to_topology did dist deltas rooftop building subscribers deg sites fuel p D0 = Ok R ->
  dwf R /\ R <> []
  /\ (forall k, dmem R k = true <-> exists lat lon base, expect k lat lon base)
  /\ (forall k d lat lon base, dget R k = Some d -> expect k lat lon base ->
        q_lat d = lat /\ q_lon d = lon /\ q_demand d = p_demand p
        /\ NoDup (q_sites d) /\ (forall j, In j (q_sites d) <-> connected rooftop building sites base j)
        /\ number did sites subscribers p D0 grid k (q_num d)).
Proof using Wf Hids Hroom.
  unfold add_demand_to_topology. intros E. apply rbind_ok in E. destruct E as (D2 & E2 & E).
  destruct (cn_stages _ _ E2) as (D3 & D4 & E3 & E4 & W4 & K4 & F4). rewrite E3 in E. cbn [rbind] in E. rewrite E4 in E. cbn [rbind] in E.
  apply rbind_ok in E. destruct E as (m & Em & E). apply rbind_ok in E. destruct E as (R' & ER & E). apply rbind_ok in E. destruct E as (u & Eg & E). injection E as ->.
  apply guard_ok in Eg.
  pose proof (map_shares sites Wf rooftop building m Em) as Hm.
  apply connect_colocated_spec in ER. destruct ER as [KR HR].
  assert (WR : dwf R) by (unfold dwf; rewrite KR; exact W4).
  split; [exact WR|]. split; [intros ->; discriminate|]. split.
  - intros k. rewrite <- K4. rewrite !dmem_keys, KR. reflexivity.
  - intros k d' lat lon base Hd He. apply dget_In in Hd. destruct (HR _ _ Hd) as (d & l & Hin & -> & Hc & Hn & _).
    apply (In_dget _ _ _ W4) in Hin. destruct (F4 _ _ _ _ _ Hin He) as (H1 & H2 & H3 & H4 & H5 & H6).
    unfold with_sites. cbn [q_lat q_lon q_demand q_sites q_num]. repeat match goal with |- _ /\ _ => split end; try assumption; [now apply Hn|].
    intros j. rewrite (Hc j). rewrite <- (closure_connected m base j Hm). split; apply closure_ext; intros x Hx; constructor; now apply H5.
Qed.
Lemma demand_total : (p_uniform p = true -> on_globe deg sites deltas (p_spacing p)) ->
  (forall i s, In (i, s) sites -> rooftop i = true -> building i <> None) ->
  (exists k lat lon base, expect k lat lon base) ->
  exists fuel0, forall fuel, (fuel0 <= fuel)%nat -> exists R, add_demand_to_topology did dist deltas rooftop building subscribers deg sites fuel p D0 = Ok R.
Proof using Wf Hids Hroom.
  intros Hg Hb (k & lat & lon & base & He).
  assert (T : exists fuel0, forall fuel, (fuel0 <= fuel)%nat -> exists D2,
     (if p_uniform p then add_uniform did deltas deg sites fuel (p_spacing p) (p_demand p) (reset_demands p D0) else Ok (reset_demands p D0)) = Ok D2).
  { destruct (p_uniform p); [|exists 0%nat; eauto]. pose proof (Hroom eq_refl) as Hr. exact (add_uniform_total did deg (proj1 Hr) deltas sites _ _ _ Hr (Hg eq_refl)). }
  destruct T as [fuel0 T]. exists fuel0. intros fuel Hf. destruct (T fuel Hf) as [D2 E2].
  destruct (cn_stages _ _ E2) as (D3 & D4 & E3 & E4 & W4 & K4 & F4).
  destruct (by_building_total rooftop building sites Hb [] []) as [cd Ecd].
  assert (Em : exists m, rooftops rooftop building sites (hybrid sites []) = Ok m) by (unfold rooftops; rewrite Ecd; cbn [rbind]; eauto). destruct Em as [m Em].
  pose proof (map_shares sites Wf rooftop building m Em) as Hm.
  destruct (connect_colocated_total sites m D4) as [R ER].
  { intros i j Hj. apply Hm in Hj. destruct Hj as (s & s' & _ & Hj & _). apply dmem_Some. exists s'. now apply In_dget. }
  unfold add_demand_to_topology. rewrite E2. cbn [rbind]. rewrite E3. cbn [rbind]. rewrite E4. cbn [rbind]. rewrite Em. cbn [rbind].
  unfold connect_demand_to_colocated_sites. rewrite ER. cbn [rbind]. destruct R as [|q R]; [|cbn [negb guard rbind]; eauto].
  exfalso. apply connect_colocated_spec in ER. destruct ER as [KR _]. assert (M : dmem D4 k = true) by (apply K4; eauto). apply dmem_keys in M. rewrite <- KR in M. destruct M.
Qed.
End Final.
(** an area whose grid reaches 180 degrees without crossing the antimeridian *)
Lemma demand_never did dist deltas rooftop building subscribers deg sites p D0 fuel R left right bottom top dx dy :
  p_uniform p = true -> (0 < deg)%Z -> area deg sites false left right bottom top -> deltas left bottom (p_spacing p) = (dx, dy) ->
  (0 < dx <= 360 * deg)%Z -> (left <= 180 * deg)%Z -> (180 * deg <= right + dx)%Z ->
  add_demand_to_topology did dist deltas rooftop building subscribers deg sites fuel p D0 <> Ok R.
Proof.
  intros Hu Hdeg Ha Hd Hx Hl Hr E. unfold add_demand_to_topology in E. rewrite Hu in E. apply rbind_ok in E. destruct E as (D2 & E & _).
  apply add_uniform_area in E. destruct E as (left' & right' & bottom' & top' & dx' & dy' & Ha' & Hd' & E).
  destruct (area_unique _ _ _ _ _ _ _ _ _ _ _ _ Ha Ha') as (Eam & <- & <- & <- & <-). rewrite Hd in Hd'. injection Hd' as <- <-.
  rewrite <- Eam in E. revert E. apply lon_loop_never; [exact Hdeg|lia|lia|lia].
Qed.
(** the general statement about connecting co-located sites *)
Lemma colocated_main sites m D R : dwf D -> connect_demand_to_colocated_sites sites m D = Ok R ->
  dkeys R = dkeys D /\ forall k d d', dget D k = Some d -> dget R k = Some d' ->
    q_lat d' = q_lat d /\ q_lon d' = q_lon d /\ q_num d' = q_num d /\ q_demand d' = q_demand d
    /\ (exists e, q_sites d' = q_sites d ++ e) /\ (NoDup (q_sites d) -> NoDup (q_sites d'))
    /\ (forall i, In i (q_sites d') <-> closure (fun i j => exists l, dget m i = Some l /\ In j l) (fun j => In j (q_sites d)) i).
Proof.
  intros W E. apply connect_colocated_spec in E. destruct E as [K H]. split; [exact K|]. intros k d d' Hd Hd'. apply dget_In in Hd'.
  destruct (H _ _ Hd') as (d1 & l & Hin & -> & Hc & Hn & He). apply (In_dget _ _ _ W) in Hin. rewrite Hd in Hin. injection Hin as <-.
  unfold with_sites. cbn. repeat match goal with |- _ /\ _ => split end; try reflexivity; try assumption.
  intros i. rewrite (Hc i). assert (X : forall a b, arrow m a b <-> exists l, dget m a = Some l /\ In b l).
  { intros a b. unfold arrow, row. destruct (dget m a) as [v|]; split.
    - eauto. - intros (l' & El & Hb). now injection El as ->. - intros []. - intros (l' & El & _). discriminate. }
  split; intros C; (induction C as [x Hx|x y C IH Ha]; [now constructor|]).
  - apply closure_step with x; [exact IH|now apply X].
  - apply closure_step with x; [exact IH|now apply X].
Qed.
Lemma colocated_total sites m D : (forall i l j, dget m i = Some l -> In j l -> dmem sites j = true) -> exists R, connect_demand_to_colocated_sites sites m D = Ok R.
Proof. intros H. apply connect_colocated_total. intros i j Hj. unfold row in Hj. destruct (dget m i) as [l|] eqn:E; [|destruct Hj]. eauto. Qed.
