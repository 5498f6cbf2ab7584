(** LOSParams and OptimizerParams accept exactly the documented ranges, and give the devices the parameters of the project. *)
From Coq Require Import ZArith QArith Lqa Ascii Lia.
From Verif Require Import Base Dict QLib TopologyModel SetupModel LosRangeModel MonadLib ConfModel ConfSpec ConfProofs.
Local Open Scope string_scope.
Local Open Scope list_scope.

(** ** names up to case *)
Lemma lower_char_iff c d : lower_char c = lower_char d <->
  (c = d \/ exists i, (i < 26)%nat /\ ((c = ascii_of_nat (65 + i) /\ d = ascii_of_nat (97 + i)) \/ (d = ascii_of_nat (65 + i) /\ c = ascii_of_nat (97 + i)))).
Proof.
  split.
  - unfold lower_char. pose proof (nat_ascii_bounded c) as Bc. pose proof (nat_ascii_bounded d) as Bd.
    destruct ((65 <=? nat_of_ascii c)%nat && (nat_of_ascii c <=? 90)%nat) eqn:Ec; destruct ((65 <=? nat_of_ascii d)%nat && (nat_of_ascii d <=? 90)%nat) eqn:Ed;
      try (apply Bool.andb_true_iff in Ec; rewrite !Nat.leb_le in Ec); try (apply Bool.andb_true_iff in Ed; rewrite !Nat.leb_le in Ed); intros E.
    + left. apply (f_equal nat_of_ascii) in E. rewrite !nat_ascii_embedding in E by lia. rewrite <- (ascii_nat_embedding c), <- (ascii_nat_embedding d). f_equal. lia.
    + right. exists (nat_of_ascii c - 65)%nat. split; [lia|]. left. split; [rewrite <- (ascii_nat_embedding c) at 1; f_equal; lia|]. rewrite <- E. f_equal. lia.
    + right. exists (nat_of_ascii d - 65)%nat. split; [lia|]. right. split; [rewrite <- (ascii_nat_embedding d) at 1; f_equal; lia|]. rewrite E. f_equal. lia.
    + now left.
  - intros [->|(i & Hi & [[-> ->]|[-> ->]])]; [reflexivity|..]; do 26 (destruct i as [|i]; [reflexivity|]); lia.
Qed.
Lemma casefold_iff a : forall b, casefold a = casefold b <-> same_name a b.
Proof.
  induction a as [|c a IH]; intros [|d b]; cbn; [tauto|split; [discriminate|contradiction]|split; [discriminate|contradiction]|].
  rewrite <- IH, <- lower_char_iff. split; [intros [= E1 E2]; auto|]. intros [-> E2]. f_equal. exact E2.
Qed.

(** ** the list of devices *)
Lemma check_duplicated_iff l : forall seen, devices_typed l ->
  (check_duplicated seen l = Ok tt <-> (forall d s, In d l -> has_sku d s -> ~ In (casefold s) seen) /\ distinct_skus l) /\ (check_duplicated seen l = Ok tt \/ check_duplicated seen l = Err ConfigExn).
Proof.
  induction l as [|d l IH]; intros seen Ht; [cbn; split; [tauto|now left]|].
  destruct (Ht d) as [s Hs]; [now left|]. cbn [check_duplicated]. pose proof (proj2 (attr_ok _ _ _) Hs) as Ea. rewrite Ea. cbn [rbind].
  assert (Hu : forall s', has_sku d s' -> s' = s). { intros s' Hs'. apply attr_ok in Hs'. rewrite Ea in Hs'. congruence. }
  destruct (mem (casefold s) seen) eqn:Em.
  - apply mem_In in Em. split; [|now right]. split; [discriminate|]. intros [H _]. destruct (H d s); [now left|exact Hs|exact Em].
  - apply mem_not_In in Em. destruct (IH (casefold s :: seen)) as [IH1 IH2]; [intros x Hx; apply Ht; now right|]. split; [|exact IH2]. rewrite IH1. split.
    + intros [H1 H2]. split.
      * intros x t [<-|Hx] Hxs; [rewrite (Hu _ Hxs); exact Em|]. intros Hin. apply (H1 x t Hx Hxs). now right.
      * split; [|exact H2]. intros x t t' Hx Ht1 Ht2 Hn. apply casefold_iff in Hn. apply (H1 x t' Hx Ht2). left. rewrite <- (Hu _ Ht1). now rewrite Hn.
    + intros [H1 [H2 H3]]. split; [|exact H3]. intros x t Hx Hxs [E|Hin]; [|exact (H1 x t (or_intror Hx) Hxs Hin)].
      apply (H2 x s t Hx Hs Hxs). now apply casefold_iff.
Qed.
Lemma check_duplicated_typed l : forall seen, check_duplicated seen l = Ok tt -> devices_typed l.
Proof.
  induction l as [|d l IH]; intros seen E; [intros x []|]. cbn [check_duplicated] in E. inv_do. destruct x; try discriminate.
  destruct (mem (casefold s) seen); [discriminate|]. intros y [<-|Hy]; [|eapply IH; eauto]. exists s. now apply attr_ok.
Qed.
Lemma is_nil_false {A} (l : list A) : is_nil l = false <-> l <> [].
Proof. destruct l; cbn; split; congruence. Qed.
Lemma devices_iff v : devices_ok v <-> exists l, devices v = Ok l /\ is_nil l = false /\ check_duplicated [] l = Ok tt.
Proof.
  unfold devices_ok. split.
  - intros (l & -> & Hl & Ht & Hd). exists l. split; [reflexivity|]. split; [now apply is_nil_false|]. apply check_duplicated_iff; auto.
  - intros (l & E & Hl & Hc). destruct v; try discriminate. injection E as ->. exists l. split; [reflexivity|]. split; [now apply is_nil_false|].
    pose proof (check_duplicated_typed _ _ Hc) as Ht. split; [exact Ht|]. now apply (check_duplicated_iff l [] Ht) in Hc.
Qed.

(** ** LOSParams *)
Lemma rest_ok v w c (f : Q -> Q -> bool) :
  cmp (ge c) v = Ok true /\ (if is_none w then Ok true else do a <- num v ; do b <- num w ; Ok (f a b)) = Ok true <-> range v (fun x => c <= x /\ optional w (fun y => f x y = true))%Q.
Proof.
  rewrite range_ge. destruct (is_none w) eqn:E.
  - apply is_none_true in E. split.
    + intros [(x & Hx & Hp) _]. exists x. repeat split; auto. now left.
    + intros (x & Hx & Hp & _). split; [|reflexivity]. now exists x.
  - apply is_none_false in E. rewrite two_true. split.
    + intros [(x & Hx & Hp) (a & Ha & b & Hb & Hf)]. exists x. repeat split; auto. right. exists b. split; [exact Hb|]. now rewrite (number_unique _ _ _ Hx Ha).
    + intros (x & Hx & Hp & [Hw|(b & Hb & Hf)]); [congruence|]. split; [now exists x|]. exists x. split; [exact Hx|]. now exists b.
Qed.
Lemma negb_le b a : negb (Qle_bool b a) = true <-> (a < b)%Q.
Proof. apply (gt_true a b). Qed.
Definition los_rest (v : string -> val) : Prop :=
  (optional (v "minimum_mcs_of_backhaul_links") (fun x => 0 <= x) /\ optional (v "minimum_mcs_of_access_links") (fun x => 0 <= x) /\
  range (v "minimum_los_distance") (fun x => 5 <= x /\ optional (v "maximum_los_distance") (fun y => x < y)) /\ range (v "maximum_elevation_scan_angle") (fun x => 0 <= x <= 90) /\
  range (v "mounting_height_above_rooftop") (fun x => 0 <= x) /\ range (v "default_dn_height_on_pole") (fun x => 0 <= x) /\ range (v "default_cn_height_on_pole") (fun x => 0 <= x) /\
  range (v "default_pop_height_on_pole") (fun x => 0 <= x) /\ range (v "fresnel_radius") (fun x => 0 < x) /\ range (v "los_confidence_threshold") (fun x => 0 <= x <= 1))%Q.
Lemma los_checks_iff e l : asserts (los_checks e l) = Ok tt <-> is_nil l = false /\ los_rest (at_ e).
Proof.
  unfold los_checks. rewrite config_ok. rewrite !Forall_cons_iff. rewrite !andr_true. rewrite rest_ok.
  rewrite !range_ge, !range_gt, !range_within, !optional_ge. unfold los_rest.
  rewrite (range_ext _ (fun x => 5 <= x /\ optional (at_ e "maximum_los_distance") (fun y => negb (Qle_bool y x) = true))%Q (fun x => 5 <= x /\ optional (at_ e "maximum_los_distance") (fun y => x < y))%Q).
  2: { intros x. rewrite (optional_ext _ _ (fun y => x < y)%Q); [reflexivity|]. intros y. apply negb_le. }
  assert (Hn : Ok (negb (is_nil l)) = Ok true <-> is_nil l = false) by (destruct (is_nil l); cbn; split; congruence). rewrite Hn.
  split; [tauto|]. intros H. repeat (split; [tauto|]). constructor.
Qed.
Lemma los_setting kw e : fill los_args kw = Ok e -> forall k, In k (map fst los_args) -> at_ e k = setting los_defaults kw k.
Proof. intros E k. apply (fill_at _ _ _ _ _ los_documented E). Qed.
Lemma los_rest_ext v w : (forall k, In k (map fst los_args) -> v k = w k) -> los_rest v -> los_rest w.
Proof. intros E. unfold los_rest. rewrite !(E _) by names. auto. Qed.
Lemma los_fill kw : dget kw "device_list" <> None -> exists e, fill los_args kw = Ok e.
Proof.
  intros H. apply fill_total; [|apply (nodup_dec los_args eq_refl)]. intros k Hk. apply dget_In in Hk.
  destruct Hk as [Hk|Hk]; [injection Hk as <-; exact H|]. exfalso. repeat (destruct Hk as [Hk|Hk]; [discriminate Hk|]). contradiction.
Qed.
Lemma los_given kw l : setting los_defaults kw "device_list" = VList l -> dget kw "device_list" <> None.
Proof. unfold setting. intros E N. rewrite N in E. discriminate. Qed.
Theorem los_iff kw : (exists o, los_params kw = Ok o) <-> los_ok (setting los_defaults kw).
Proof.
  assert (Hs : los_ok (setting los_defaults kw) <-> devices_ok (setting los_defaults kw "device_list") /\ los_rest (setting los_defaults kw)) by (unfold los_ok, los_rest; tauto).
  rewrite Hs. split.
  - intros [o H]. unfold los_params in H. apply rbind_ok in H. destruct H as (e & E & H). pose proof (los_setting kw e E) as Ev. rewrite (Ev "device_list") in H by names.
    apply rbind_ok in H. destruct H as (l & El & H). apply rbind_ok in H. destruct H as ([] & Ea & H). apply rbind_ok in H. destruct H as ([] & Ec & H).
    apply los_checks_iff in Ea. destruct Ea as [Hl Hr]. split; [apply devices_iff; eauto|]. now apply (los_rest_ext (at_ e)).
  - intros [Hd Hr]. apply devices_iff in Hd. destruct Hd as (l & El & Hl & Hc). assert (Hv : exists l, setting los_defaults kw "device_list" = VList l).
    { destruct (setting los_defaults kw "device_list"); try discriminate. eauto. }
    destruct Hv as [l' Hv]. destruct (los_fill kw) as [e E]; [eapply los_given; eauto|]. unfold los_params. rewrite E. cbn [rbind]. pose proof (los_setting kw e E) as Ev. rewrite (Ev "device_list") by names.
    rewrite El. cbn [rbind]. apply (los_rest_ext _ (at_ e)) in Hr; [|intros k Hk; symmetry; auto]. rewrite (proj2 (los_checks_iff e l) (conj Hl Hr)). cbn [rbind]. rewrite Hc. cbn [rbind]. eauto.
Qed.
Ltac evaluable := repeat first [apply andr_num | apply cmp_num | apply opt_num | apply two_num]; auto.
Theorem los_rejected kw : los_typed (setting los_defaults kw) -> ~ los_ok (setting los_defaults kw) -> los_params kw = Err ConfigExn.
Proof.
  intros ((l & El & Ht) & H1 & H2) Hn. destruct (los_params kw) as [o|x] eqn:Ep; [destruct Hn; apply los_iff; eauto|].
  destruct (los_fill kw) as [e E]; [eapply los_given; eauto|]. unfold los_params in Ep. rewrite E in Ep. cbn [rbind] in Ep. pose proof (los_setting kw e E) as Ev. rewrite (Ev "device_list"), El in Ep by names.
  cbn [devices rbind] in Ep.
  assert (Hc : asserts (los_checks e l) = Ok tt \/ asserts (los_checks e l) = Err ConfigExn).
  { apply config_err. intros c Hc. rewrite !(Ev _) in Hc by names.
    assert (No : numeric (setting los_defaults kw "minimum_los_distance")) by (apply H1; names).
    repeat (destruct Hc as [<-|Hc]); [..|contradiction]; try (evaluable; try (apply H1; names); apply H2; names).
    - eauto.
    - apply andr_num; [now apply cmp_num|]. destruct (is_none (setting los_defaults kw "maximum_los_distance")) eqn:En; [eauto|]. apply is_none_false in En. apply two_num; [exact No|].
      destruct (H2 "maximum_los_distance") as [?|?]; [names|congruence|auto]. }
  destruct Hc as [Hc|Hc]; rewrite Hc in Ep; cbn [rbind] in Ep; [|now symmetry].
  destruct (check_duplicated_iff l [] Ht) as [_ [Hd|Hd]]; rewrite Hd in Ep; cbn [rbind] in Ep; [discriminate|now symmetry].
Qed.
