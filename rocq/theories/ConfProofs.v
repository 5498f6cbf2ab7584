(** The constructors of configuration objects accept exactly the documented ranges. *)
From Coq Require Import ZArith QArith Lqa Ascii Lia.
From Verif Require Import Base Dict QLib TopologyModel SetupModel LosRangeModel MonadLib ConfModel ConfSpec.
Local Open Scope string_scope.
Local Open Scope list_scope.
Local Open Scope Q_scope.

(** ** values *)
Lemma num_ok v x : num v = Ok x <-> number v x.
Proof.
  unfold number. split.
  - destruct v; cbn; try discriminate; intros [= <-]; auto. destruct b; auto.
  - intros [->|[[-> ->]|[-> ->]]]; reflexivity.
Qed.
Lemma number_unique v x y : number v x -> number v y -> x = y.
Proof. rewrite <- !num_ok. congruence. Qed.
Lemma cmp_true p v : cmp p v = Ok true <-> range v (fun x => p x = true).
Proof.
  unfold cmp, range. destruct (num v) as [x|e] eqn:E; cbn.
  - split; [intros [= H]; exists x; split; [now apply num_ok|exact H]|]. intros (y & Hy & Hp). apply num_ok in Hy. rewrite E in Hy. injection Hy as <-. now rewrite Hp.
  - split; [discriminate|]. intros (y & Hy & _). apply num_ok in Hy. congruence.
Qed.
Lemma cmp_num p v : numeric v -> exists b, cmp p v = Ok b.
Proof. intros [x Hx]. apply num_ok in Hx. unfold cmp. rewrite Hx. cbn. eauto. Qed.
Lemma range_ext v (P P' : Q -> Prop) : (forall x, P x <-> P' x) -> (range v P <-> range v P').
Proof. intros H. unfold range. split; intros (x & Hx & Hp); exists x; split; auto; now apply H. Qed.
Lemma is_none_true v : is_none v = true <-> v = VNone.
Proof. destruct v; cbn; split; congruence. Qed.
Lemma is_none_false v : is_none v = false <-> v <> VNone.
Proof. destruct v; cbn; split; congruence. Qed.
Lemma numeric_not_none v : numeric v -> v <> VNone.
Proof. intros [x [->|[[-> _]|[-> _]]]]; discriminate. Qed.
Lemma range_numeric v P : range v P -> numeric v.
Proof. intros (x & Hx & _). exists x. exact Hx. Qed.
Lemma opt_true p v : opt p v = Ok true <-> optional v (fun x => p x = true).
Proof.
  unfold opt, optional. destruct (is_none v) eqn:E.
  - apply is_none_true in E. subst. split; auto.
  - apply is_none_false in E. rewrite cmp_true. tauto.
Qed.
Lemma opt_num p v : opt_numeric v -> exists b, opt p v = Ok b.
Proof. unfold opt. intros [->|Hn]; cbn; [eauto|]. destruct (is_none v); [eauto|]. now apply cmp_num. Qed.
Lemma andr_true a b : andr a b = Ok true <-> a = Ok true /\ b = Ok true.
Proof. unfold andr. destruct a as [[|]|e]; cbn; [tauto| |]; split; try discriminate; intros [? ?]; congruence. Qed.
Lemma andr_num a b : (exists x, a = Ok x) -> (exists y, b = Ok y) -> exists z, andr a b = Ok z.
Proof. intros [x ->] [y ->]. unfold andr. cbn. destruct x; eauto. Qed.
Lemma ge_true c x : ge c x = true <-> c <= x.
Proof. apply Qle_bool_iff. Qed.
Lemma gt_true c x : gt c x = true <-> c < x.
Proof. unfold gt. rewrite Bool.negb_true_iff. qb. destruct (Qle_bool x c) eqn:E; qb; split; try discriminate; try lra; reflexivity. Qed.
Lemma within_true a b x : within a b x = true <-> a <= x <= b.
Proof. unfold within. rewrite Bool.andb_true_iff, !Qle_bool_iff. tauto. Qed.
Lemma truthy_true v : truthy v = true <-> counts_as_true v.
Proof.
  unfold counts_as_true. destruct v as [|[|]|q|s|[|? ?]|[|? ?]|? ?|? ?|?]; cbn; split; intros H; try discriminate; try reflexivity;
    try (repeat split; congruence); try (destruct H as (? & ? & ? & ? & ? & ?); congruence).
  - repeat split; try congruence. intros x [= <-]. intros E. apply Qeq_bool_iff in E. rewrite E in H. discriminate.
  - destruct (Qeq_bool q 0) eqn:E; [|reflexivity]. apply Qeq_bool_iff in E. destruct H as (_ & _ & _ & _ & _ & H). destruct (H q eq_refl E).
  - repeat split; try congruence. intros [= ->]. discriminate.
  - destruct (beq_spec s "") as [->|?]; [|reflexivity]. destruct H as (_ & _ & H & _). congruence.
Qed.
Lemma range_ge v c : cmp (ge c) v = Ok true <-> range v (fun x => c <= x).
Proof. rewrite cmp_true. apply range_ext. intros x. apply ge_true. Qed.
Lemma range_gt v c : cmp (gt c) v = Ok true <-> range v (fun x => c < x).
Proof. rewrite cmp_true. apply range_ext. intros x. apply gt_true. Qed.
Lemma range_within v a b : cmp (within a b) v = Ok true <-> range v (fun x => a <= x <= b).
Proof. rewrite cmp_true. apply range_ext. intros x. apply within_true. Qed.
Lemma optional_ext v (P P' : Q -> Prop) : (forall x, P x <-> P' x) -> (optional v P <-> optional v P').
Proof. intros H. unfold optional. now rewrite (range_ext v P P' H). Qed.
Lemma optional_ge v c : opt (ge c) v = Ok true <-> optional v (fun x => c <= x).
Proof. rewrite opt_true. apply optional_ext. intros x. apply ge_true. Qed.
Lemma optional_gt v c : opt (gt c) v = Ok true <-> optional v (fun x => c < x).
Proof. rewrite opt_true. apply optional_ext. intros x. apply gt_true. Qed.
(** two parameters compared with each other *)
Lemma two_true v w (f : Q -> Q -> bool) : (do a <- num v ; do b <- num w ; Ok (f a b)) = Ok true <-> range v (fun x => range w (fun y => f x y = true)).
Proof.
  split.
  - intros E. inv_do. exists x. split; [now apply num_ok|]. exists x0. split; [now apply num_ok|exact E].
  - intros (x & Hx & y & Hy & E). apply num_ok in Hx, Hy. rewrite Hx. cbn. rewrite Hy. cbn. now rewrite E.
Qed.
Lemma two_num v w (f : Q -> Q -> bool) : numeric v -> numeric w -> exists b, (do a <- num v ; do b <- num w ; Ok (f a b)) = Ok b.
Proof. intros [x Hx] [y Hy]. apply num_ok in Hx, Hy. rewrite Hx. cbn. rewrite Hy. cbn. eauto. Qed.

(** ** checks *)
Lemma asserts_ok l : asserts l = Ok tt <-> Forall (fun q => fst q = Ok true) l.
Proof.
  induction l as [|[c e] l IH]; cbn; [split; auto|]. split.
  - intros E. inv_do. destruct x; [|discriminate]. constructor; [exact E0|]. now apply IH.
  - intros H. inversion_clear H as [|? ? Hc Hl]. cbn in Hc. rewrite Hc. cbn. now apply IH.
Qed.
Lemma asserts_app a b : asserts (a ++ b) = do _ <- asserts a ; asserts b.
Proof. induction a as [|[c e] a IH]; cbn; [reflexivity|]. destruct c as [[|]|]; cbn; auto. Qed.
(** every check can be evaluated: it passes, or fails with the exception of a check *)
Lemma asserts_err l : (forall q, In q l -> exists b, fst q = Ok b) -> asserts l = Ok tt \/ exists q, In q l /\ asserts l = Err (snd q) /\ fst q = Ok false.
Proof.
  induction l as [|[c e] l IH]; intros H; [now left|]. cbn. destruct (H (c, e)) as [b E]; [now left|]. cbn in E. subst c. cbn.
  destruct b; [|right; exists (Ok false, e); repeat split; now left].
  destruct IH as [E|(q & Hq & E & Ef)]; [intros; apply H; now right|now left|]. right. exists q. split; [now right|auto].
Qed.
Lemma config_ok l : asserts (config l) = Ok tt <-> Forall (fun c => c = Ok true) l.
Proof. rewrite asserts_ok. unfold config. rewrite Forall_map. reflexivity. Qed.
Lemma config_err l : (forall c, In c l -> exists b, c = Ok b) -> asserts (config l) = Ok tt \/ asserts (config l) = Err ConfigExn.
Proof.
  intros H. destruct (asserts_err (config l)) as [E|(q & Hq & E & _)].
  - intros q Hq. unfold config in Hq. apply in_map_iff in Hq. destruct Hq as (c & <- & Hc). cbn. auto.
  - now left.
  - right. unfold config in Hq. apply in_map_iff in Hq. destruct Hq as (c & <- & Hc). exact E.
Qed.
Lemma Forall_in {A} (P : A -> Prop) l : Forall P l <-> (forall x, In x l -> P x).
Proof. apply Forall_forall. Qed.

(** ** arguments *)
Lemma fill_keys args : forall kw e, fill args kw = Ok e -> map fst e = map fst args.
Proof.
  induction args as [|[k d] args IH]; intros kw e; unfold fill; cbn [mapM]; [intros [= <-]; reflexivity|].
  intros E. apply rbind_ok in E. destruct E as (p & Ep & E). apply rbind_ok in E. destruct E as (r & Er & E). injection E as <-.
  cbn [map fst]. f_equal; [|now apply (IH kw)]. cbn [fst snd] in Ep. destruct (dget kw k); [now injection Ep as <-|]. destruct d; [now injection Ep as <-|discriminate].
Qed.
Lemma fill_get args : forall kw e k d, fill args kw = Ok e -> dget args k = Some d ->
  dget e k = match dget kw k with Some v => Some v | None => d end /\ (d = None -> dget kw k <> None).
Proof.
  induction args as [|[k1 d1] args IH]; intros kw e k d; unfold fill; cbn [mapM dget]; [intros ? ?; discriminate|].
  intros E. apply rbind_ok in E. destruct E as (p & Ep & E). apply rbind_ok in E. destruct E as (r & Er & E). injection E as <-.
  destruct (beq_spec k k1) as [->|Hk].
  - intros [= ->]. cbn [fst snd] in Ep. destruct (dget kw k1) as [v|]; [injection Ep as <-; cbn [dget]; rewrite beq_refl; split; [auto|discriminate]|].
    destruct d as [v|]; [|discriminate]. injection Ep as <-. cbn [dget]. rewrite beq_refl. split; [auto|discriminate].
  - intros Hd. assert (Ek : fst p = k1).
    { cbn [fst snd] in Ep. destruct (dget kw k1); [now injection Ep as <-|]. destruct d1; [now injection Ep as <-|discriminate]. }
    destruct p as [k' v']. cbn in Ek. subst k'. cbn [dget]. rewrite (proj2 (beq_neq k k1) Hk). now apply IH.
Qed.
Lemma fill_total args kw : (forall k, dget args k = Some None -> dget kw k <> None) -> NoDup (map fst args) -> exists e, fill args kw = Ok e.
Proof.
  intros H Hn. apply mapM_total. intros [k d] Hin. cbn [fst snd].
  pose proof (In_dget args k d Hn Hin) as E. destruct (dget kw k) eqn:Ek; [eauto|]. destruct d; [eauto|]. destruct (H _ E Ek).
Qed.
(** the defaults are the documented ones *)
Definition documented (args : params) (doc : defaults) : Prop :=
  forall k d, In (k, Some d) args -> d = match dget doc k with Some v => v | None => VNone end.
Lemma fill_setting args doc kw e k : documented args doc -> fill args kw = Ok e -> In k (map fst args) -> dget e k = Some (setting doc kw k).
Proof.
  intros Hd E Hk. apply In_dkeys in Hk. destruct Hk as [d Ed]. destruct (fill_get _ _ _ _ _ E Ed) as [Eg Hn]. rewrite Eg. unfold setting.
  destruct (dget kw k); [reflexivity|]. destruct d as [d|]; [|now destruct Hn]. f_equal. apply (Hd k). now apply dget_In.
Qed.
Lemma fill_at args doc kw e k : documented args doc -> fill args kw = Ok e -> In k (map fst args) -> at_ e k = setting doc kw k.
Proof. intros Hd E Hk. unfold at_. now rewrite (fill_setting args doc kw e k Hd E Hk). Qed.
Ltac documented := intros k d H; repeat (destruct H as [[= <- <-]|H]; [reflexivity|]); try discriminate; try contradiction;
  repeat (destruct H as [H|H]; [try discriminate H; injection H as <- <-; reflexivity|]); contradiction.
Ltac names := apply mem_In; vm_compute; reflexivity.
Lemma nodup_dec (args : params) : (fix go (l : list string) : bool := match l with [] => true | k :: l => negb (mem k l) && go l end) (map fst args) = true -> NoDup (map fst args).
Proof.
  induction (map fst args) as [|k l IH]; [constructor|]. intros H. apply Bool.andb_true_iff in H. destruct H as [H1 H2]. constructor; [|auto].
  apply mem_not_In. now apply Bool.negb_true_iff.
Qed.
Lemma sector_documented : documented sector_args sector_defaults.
Proof. documented. Qed.
Lemma device_documented : documented device_args device_defaults.
Proof. documented. Qed.
Lemma los_documented : documented los_args los_defaults.
Proof. documented. Qed.
Lemma optimizer_documented : documented opt_args optimizer_defaults.
Proof. documented. Qed.
Lemma pick_get names e k : In k names -> dget (pick names e) k = Some (at_ e k).
Proof.
  unfold pick. induction names as [|n names IH]; [contradiction|]. cbn [map dget]. destruct (beq_spec k n) as [->|Hk]; [reflexivity|].
  intros [->|Hin]; [congruence|auto].
Qed.
Lemma dget_app {V} (a b : dict string V) k : dget (a ++ b) k = match dget a k with Some v => Some v | None => dget b k end.
Proof. induction a as [|[k1 v1] a IH]; cbn; [reflexivity|]. destruct (beq k k1); auto. Qed.

Section Files.
Variable rf : string -> val -> list val -> result val.
(** ** SectorParams *)
Lemma dependent v w p (f : Q -> Q -> bool) :
  range v (fun x => p x) /\ (if is_none w then Ok true else do a <- num w ; do b <- num v ; Ok (f a b)) = Ok true <-> range v (fun x => p x /\ optional w (fun y => f y x = true)).
Proof.
  destruct (is_none w) eqn:E.
  - apply is_none_true in E. split.
    + intros [(x & Hx & Hp) _]. exists x. repeat split; auto. now left.
    + intros (x & Hx & Hp & _). split; [|reflexivity]. now exists x.
  - apply is_none_false in E. rewrite two_true. split.
    + intros [(x & Hx & Hp) (a & Ha & b & Hb & Hf)]. exists x. repeat split; auto. right. exists a. split; [exact Ha|]. now rewrite (number_unique _ _ _ Hx Hb).
    + intros (x & Hx & Hp & [Hw|(a & Ha & Hf)]); [congruence|]. split; [now exists x|]. exists a. split; [exact Ha|]. now exists x.
Qed.
Lemma sector_checks_iff e : asserts (sector_checks e) = Ok tt <-> sector_ok (at_ e).
Proof.
  unfold sector_checks. rewrite config_ok. rewrite !Forall_cons_iff, !andr_true, !range_ge, !range_gt, !range_within, optional_ge.
  unfold sector_ok, radio_ok.
  pose proof (dependent (at_ e "maximum_tx_power") (at_ e "minimum_tx_power") (fun x => 0 <= x) Qle_bool) as D.
  rewrite (range_ext _ (fun x => 0 <= x /\ optional (at_ e "minimum_tx_power") (fun y => Qle_bool y x = true)) (fun x => 0 <= x /\ optional (at_ e "minimum_tx_power") (fun y => y <= x))) in D.
  2: { intros x. rewrite (optional_ext _ _ (fun y => y <= x)); [reflexivity|]. intros y. apply Qle_bool_iff. }
  rewrite <- D. split; [tauto|]. intros H. repeat (split; [tauto|]). constructor.
Qed.
Lemma ok_iff {A} (r : result A) P : (r = Ok P <-> r = Ok P).
Proof. reflexivity. Qed.
Ltac evaluable := repeat first [apply andr_num | apply cmp_num | apply opt_num | apply two_num]; auto.
Lemma load_ok kind path d more : (exists a, load rf kind path d more = Ok a) <-> path = VNone \/ exists a, rf kind path more = Ok a.
Proof.
  unfold load. destruct (is_none path) eqn:E.
  - apply is_none_true in E. split; [auto|eauto].
  - apply is_none_false in E. split; [auto|]. intros [?|?]; [congruence|auto].
Qed.
Lemma sector_checks_err e : sector_typed (at_ e) -> asserts (sector_checks e) = Ok tt \/ asserts (sector_checks e) = Err ConfigExn.
Proof.
  intros (H & H1 & H2). apply config_err. intros c Hc.
  repeat (destruct Hc as [<-|Hc]); [..|contradiction]; evaluable; try (apply H; names).
  destruct (is_none (at_ e "minimum_tx_power")) eqn:E; [eauto|]. apply is_none_false in E. destruct H2 as [?|H2]; [congruence|]. apply two_num; [exact H2|]. apply H. names.
Qed.
(** the specification depends on the values only *)
Lemma sector_ok_ext v w : (forall k, In k (map fst sector_args) -> v k = w k) -> sector_ok v -> sector_ok w.
Proof. intros E. unfold sector_ok, radio_ok. rewrite !(E _) by names. auto. Qed.
Lemma sector_typed_ext v w : (forall k, In k (map fst sector_args) -> v k = w k) -> sector_typed v -> sector_typed w.
Proof.
  intros E (H & H1 & H2). split; [|rewrite <- !(E _) by names; auto]. intros k Hk. rewrite <- E; [auto|].
  repeat (destruct Hk as [<-|Hk]; [names|]). contradiction.
Qed.
Lemma files_ok_ext v w : (forall k, In k (map fst sector_args) -> v k = w k) -> files_ok rf v -> files_ok rf w.
Proof. intros E. unfold files_ok. rewrite !(E _) by names. auto. Qed.
Lemma sector_fill kw : exists e, fill sector_args kw = Ok e.
Proof.
  apply fill_total; [|apply (nodup_dec sector_args eq_refl)]. intros k Hk. exfalso. apply dget_In in Hk.
  repeat (destruct Hk as [Hk|Hk]; [discriminate Hk|]). contradiction.
Qed.
Theorem sector_iff kw : (exists o, sector_params rf kw = Ok o) <-> sector_ok (setting sector_defaults kw) /\ files_ok rf (setting sector_defaults kw).
Proof.
  destruct (sector_fill kw) as [e E]. assert (Ev : forall k, In k (map fst sector_args) -> at_ e k = setting sector_defaults kw k).
  { intros k. apply (fill_at _ _ _ _ _ sector_documented E). }
  unfold sector_params. rewrite E. cbn [rbind]. split.
  - intros [o H]. inv_do. split; [apply (sector_ok_ext (at_ e)); [exact Ev|]; apply sector_checks_iff; now destruct x|].
    apply (files_ok_ext (at_ e)); [exact Ev|]. unfold files_ok. repeat split; eapply load_ok; eauto.
  - intros [Hs Hf]. apply (sector_ok_ext _ (at_ e)) in Hs; [|intros k Hk; symmetry; auto]. apply (files_ok_ext _ (at_ e)) in Hf; [|intros k Hk; symmetry; auto].
    apply sector_checks_iff in Hs. rewrite Hs. cbn [rbind]. destruct Hf as (F1 & F2 & F3).
    apply (load_ok _ _ VNone) in F1. apply (load_ok _ _ VNone) in F2. apply (load_ok _ _ default_mcs) in F3.
    destruct F1 as [a ->], F2 as [b ->], F3 as [c ->]. cbn [rbind]. eauto.
Qed.
Theorem sector_rejected kw : sector_typed (setting sector_defaults kw) -> ~ sector_ok (setting sector_defaults kw) -> sector_params rf kw = Err ConfigExn.
Proof.
  destruct (sector_fill kw) as [e E]. assert (Ev : forall k, In k (map fst sector_args) -> at_ e k = setting sector_defaults kw k).
  { intros k. apply (fill_at _ _ _ _ _ sector_documented E). }
  intros Ht Hn. unfold sector_params. rewrite E. cbn [rbind].
  destruct (sector_checks_err e) as [Ec|Ec]; [eapply sector_typed_ext; [|exact Ht]; intros; symmetry; auto| |now rewrite Ec].
  destruct Hn. apply (sector_ok_ext (at_ e)); [exact Ev|]. now apply sector_checks_iff.
Qed.
Theorem sector_values kw o k : sector_params rf kw = Ok o -> In k (map fst sector_args) -> attribute o k (setting sector_defaults kw k).
Proof.
  unfold sector_params. intros H Hk. inv_do. rewrite <- (fill_at _ _ _ _ _ sector_documented E Hk). subst o. exists "SectorParams". eexists. split; [reflexivity|].
  repeat (destruct Hk as [<-|Hk]; [reflexivity|]). contradiction.
Qed.

(** ** DeviceData *)
Lemma is_cn_true v : is_cn v = true <-> client v.
Proof.
  unfold client. destruct v; cbn; split; try discriminate.
  - intros H. apply Bool.andb_true_iff in H. destruct H as [H1 H2]. apply beq_true in H1, H2. now subst.
  - intros [= -> ->]. reflexivity.
Qed.
Lemma is_cn_false v : is_cn v = false <-> ~ client v.
Proof. rewrite <- is_cn_true. destruct (is_cn v); split; congruence. Qed.
Definition sector_of (kw : dict string val) (k : string) : val :=
  match attr (setting device_defaults kw "sector_params") k with Ok v => v | Err _ => VNone end.
Lemma attr_ok o k v : attr o k = Ok v <-> attribute o k v.
Proof.
  unfold attr, attribute. split.
  - destruct o; try discriminate. destruct (dget attrs k) eqn:E; [|discriminate]. intros [= <-]. eauto.
  - intros (c & a & -> & E). now rewrite E.
Qed.
Lemma attr_number o k x : number (match attr o k with Ok v => v | Err _ => VNone end) x <-> (do v <- attr o k ; num v) = Ok x.
Proof. destruct (attr o k); cbn; [symmetry; apply num_ok|]. split; [intros [?|[[? _]|[? _]]]; discriminate|discriminate]. Qed.
Lemma device_fill kw e : fill device_args kw = Ok e -> forall k, In k (map fst device_args) -> at_ e k = setting device_defaults kw k.
Proof. intros E k. apply (fill_at _ _ _ _ _ device_documented E). Qed.
Lemma device_total kw : (exists s, setting device_defaults kw "device_sku" = VStr s) -> numeric (sector_of kw "horizontal_scan_range") -> exists e, fill device_args kw = Ok e.
Proof.
  intros [s Hs] Hn. apply fill_total; [|apply (nodup_dec device_args eq_refl)]. intros k Hk E. apply dget_In in Hk.
  destruct Hk as [Hk|[Hk|Hk]].
  - injection Hk as <-. unfold setting in Hs. rewrite E in Hs. discriminate.
  - injection Hk as <-. unfold sector_of, setting in Hn. rewrite E in Hn. cbn in Hn. now apply numeric_not_none in Hn.
  - repeat (destruct Hk as [Hk|Hk]; [discriminate Hk|]). contradiction.
Qed.
Definition node_count (v : string -> val) : result val :=
  if is_none (v "number_of_nodes_per_site") then Ok (VNum (if is_cn (v "device_type") then 1 else 4))
  else do k <- num (v "number_of_nodes_per_site") ; if negb (Qeq_bool k 1) && is_cn (v "device_type") then Err ConfigExn else Ok (v "number_of_nodes_per_site").
Lemma node_count_ok v n : node_count v = Ok n -> exists k, number n k /\ nodes v k /\ (client (v "device_type") -> k == 1).
Proof.
  unfold node_count, nodes. destruct (is_none (v "number_of_nodes_per_site")) eqn:E.
  - apply is_none_true in E. intros [= <-]. eexists. split; [left; reflexivity|]. destruct (is_cn (v "device_type")) eqn:Ec.
    + apply is_cn_true in Ec. split; [right; repeat split; auto; intros; tauto|]. intros _. reflexivity.
    + apply is_cn_false in Ec. split; [right; repeat split; auto; intros; tauto|]. tauto.
  - intros H. inv_do. destruct (negb (Qeq_bool x 1) && is_cn (v "device_type")) eqn:Ec; [discriminate|]. injection H as <-. apply num_ok in E0. exists x. split; [exact E0|]. split; [now left|].
    intros Hc. apply is_cn_true in Hc. rewrite Hc, Bool.andb_true_r in Ec. apply Bool.negb_false_iff in Ec. now apply Qeq_bool_iff.
Qed.
Lemma node_count_total v k : nodes v k -> (client (v "device_type") -> k == 1) -> exists n, node_count v = Ok n /\ number n k.
Proof.
  unfold node_count, nodes. intros [Hk|(E & H1 & H2)] Hc.
  - destruct (is_none (v "number_of_nodes_per_site")) eqn:E; [apply is_none_true in E; rewrite E in Hk; destruct Hk as [?|[[? _]|[? _]]]; discriminate|].
    pose proof (proj2 (num_ok _ _) Hk) as En. rewrite En. cbn [rbind]. destruct (is_cn (v "device_type")) eqn:Ec.
    + apply is_cn_true in Ec. rewrite (proj2 (Qeq_bool_iff k 1) (Hc Ec)). cbn. eauto.
    + rewrite Bool.andb_false_r. eauto.
  - rewrite E. cbn [is_none]. eexists. split; [reflexivity|]. left. f_equal. destruct (is_cn (v "device_type")) eqn:Ec; [apply is_cn_true in Ec; symmetry; auto|apply is_cn_false in Ec; symmetry; auto].
Qed.
Lemma nodes_unique v k k' : nodes v k -> nodes v k' -> k = k'.
Proof.
  intros [H|(E & H1 & H2)] [H'|(E' & H1' & H2')].
  - eapply number_unique; eauto.
  - rewrite E' in H. destruct H as [?|[[? _]|[? _]]]; discriminate.
  - rewrite E in H'. destruct H' as [?|[[? _]|[? _]]]; discriminate.
  - destruct (is_cn (v "device_type")) eqn:Ec; [apply is_cn_true in Ec; now rewrite H1, H1'|apply is_cn_false in Ec; now rewrite H2, H2'].
Qed.
Definition device_first (v : string -> val) : list (result bool) :=
  [match v "device_sku" with VStr s => Ok (negb (beq s "")) | _ => Err PyTypeError end; cmp (ge 0) (v "node_capex"); opt (ge 1) (v "number_of_nodes_per_site")].
Lemma device_unfold kw e : fill device_args kw = Ok e -> device_data kw =
  (do _ <- asserts (config (device_first (setting device_defaults kw))) ;
   do n <- node_count (setting device_defaults kw) ;
   do h <- (do h <- attr (setting device_defaults kw "sector_params") "horizontal_scan_range" ; num h) ;
   do s <- (do s <- attr (setting device_defaults kw "sector_params") "number_sectors_per_node" ; num s) ;
   do k <- num n ;
   do _ <- asserts (config [Ok (Qle_bool (h * s * k) 360)]) ;
   Ok (VObj "DeviceData" [("device_sku", setting device_defaults kw "device_sku"); ("sector_params", setting device_defaults kw "sector_params"); ("node_capex", setting device_defaults kw "node_capex");
                          ("number_of_nodes_per_site", n); ("device_type", setting device_defaults kw "device_type")])).
Proof.
  intros E. unfold device_data. rewrite E. cbn [rbind]. unfold device_first, node_count. rewrite !(device_fill kw e E) by names.
  destruct (asserts _) as [[]|]; cbn [rbind]; [|reflexivity]. destruct (if is_none _ then _ else _); cbn [rbind]; [|reflexivity].
  destruct (attr (setting device_defaults kw "sector_params") "horizontal_scan_range") as [vh|]; cbn [rbind]; [|reflexivity]. destruct (num vh); cbn [rbind]; [|reflexivity].
  destruct (attr (setting device_defaults kw "sector_params") "number_sectors_per_node") as [vs|]; cbn [rbind]; [|reflexivity]. destruct (num vs); cbn [rbind]; reflexivity.
Qed.
Lemma one_check b : asserts (config [Ok b]) = if b then Ok tt else Err ConfigExn.
Proof. destruct b; reflexivity. Qed.
Theorem device_iff kw : (exists o, device_data kw = Ok o) <-> device_ok (setting device_defaults kw) (sector_of kw).
Proof.
  split.
  - intros [o H]. destruct (fill device_args kw) as [e|] eqn:E; [|unfold device_data in H; rewrite E in H; discriminate]. rewrite (device_unfold kw e E) in H.
    apply rbind_ok in H. destruct H as ([] & Ha & H). apply rbind_ok in H. destruct H as (n & En & H). apply rbind_ok in H. destruct H as (h & Eh & H). apply rbind_ok in H. destruct H as (s & Es & H).
    apply rbind_ok in H. destruct H as (k & Ek & H). apply rbind_ok in H. destruct H as ([] & Ec & H).
    apply config_ok in Ha. unfold device_first in Ha. rewrite !Forall_cons_iff, range_ge, optional_ge in Ha. destruct Ha as (H1 & H2 & H3 & _).
    split; [|split; [exact H2|]].
    + destruct (setting device_defaults kw "device_sku"); try discriminate. exists s0. split; [reflexivity|]. intros ->. discriminate.
    + destruct (node_count_ok _ _ En) as (k' & Hk' & Hn & Hc). apply num_ok in Ek. assert (k' = k) as -> by (eapply number_unique; eauto).
      exists k, h, s. repeat split; auto.
      * destruct Hn as [Hn|(Hn & Hy & Hz)].
        -- destruct H3 as [H3|(x & Hx & Hp)]; [rewrite H3 in Hn; destruct Hn as [?|[[? _]|[? _]]]; discriminate|]. now rewrite (number_unique _ _ _ Hn Hx).
        -- destruct (is_cn (setting device_defaults kw "device_type")) eqn:Ecn; [apply is_cn_true in Ecn; rewrite Hy by auto; lra|apply is_cn_false in Ecn; rewrite Hz by auto; lra].
      * apply attr_number. exact Eh.
      * apply attr_number. exact Es.
      * rewrite one_check in Ec. destruct (Qle_bool (h * s * k) 360) eqn:Eq; [now apply Qle_bool_iff|discriminate].
  - intros ((s0 & Es & Hs) & H2 & k & h & s & Hn & Hk & Hc & Hh & Hsn & Hle).
    destruct (device_total kw) as [e E]; [eauto|exists h; exact Hh|]. rewrite (device_unfold kw e E).
    assert (Ha : asserts (config (device_first (setting device_defaults kw))) = Ok tt).
    { apply config_ok. unfold device_first. rewrite !Forall_cons_iff, range_ge, optional_ge, Es. split; [|split; [exact H2|split; [|constructor]]].
      - destruct (beq_spec s0 ""); [contradiction|reflexivity].
      - destruct Hn as [Hn|(Hn & _)]; [right; exists k; auto|left; exact Hn]. }
    rewrite Ha. cbn [rbind]. destruct (node_count_total _ _ Hn Hc) as (n & En & Hnn). rewrite En. cbn [rbind].
    apply attr_number in Hh, Hsn. rewrite Hh. cbn [rbind]. rewrite Hsn. cbn [rbind]. apply num_ok in Hnn. rewrite Hnn. cbn [rbind].
    rewrite one_check. apply Qle_bool_iff in Hle. rewrite Hle. cbn [rbind]. eauto.
Qed.
Theorem device_rejected kw : device_typed (setting device_defaults kw) (sector_of kw) -> ~ device_ok (setting device_defaults kw) (sector_of kw) -> device_data kw = Err ConfigExn.
Proof.
  intros ((s0 & Es) & H2 & H3 & [h Hh] & [s Hs]) Hn. destruct (device_total kw) as [e E]; [eauto|exists h; exact Hh|].
  destruct (device_data kw) as [o|x] eqn:Ed; [destruct Hn; apply device_iff; eauto|]. rewrite (device_unfold kw e E) in Ed.
  assert (Hc : asserts (config (device_first (setting device_defaults kw))) = Ok tt \/ asserts (config (device_first (setting device_defaults kw))) = Err ConfigExn).
  { apply config_err. intros c [<-|[<-|[<-|[]]]]; [rewrite Es; eauto|now apply cmp_num|now apply opt_num]. }
  destruct Hc as [Hc|Hc]; rewrite Hc in Ed; cbn [rbind] in Ed; [|now symmetry].
  assert (Hc' : (exists n k, node_count (setting device_defaults kw) = Ok n /\ num n = Ok k) \/ node_count (setting device_defaults kw) = Err ConfigExn).
  { unfold node_count. destruct (is_none (setting device_defaults kw "number_of_nodes_per_site")) eqn:En; [left; eexists; eexists; split; reflexivity|].
    destruct H3 as [H3|[k Hk]]; [rewrite H3 in En; discriminate|]. apply num_ok in Hk. rewrite Hk. cbn [rbind]. destruct (_ && _); [now right|left; eauto]. }
  destruct Hc' as [(n & k & En & Ek)|En]; rewrite En in Ed; cbn [rbind] in Ed; [|now symmetry].
  apply attr_number in Hh, Hs. rewrite Hh in Ed. cbn [rbind] in Ed. rewrite Hs in Ed. cbn [rbind] in Ed. rewrite Ek in Ed. cbn [rbind] in Ed. rewrite one_check in Ed.
  destruct (Qle_bool (h * s * k) 360); cbn [rbind] in Ed; [discriminate|now symmetry].
Qed.
(** the number of nodes is filled in *)
Theorem device_values kw o : device_data kw = Ok o ->
  (forall k, In k ["device_sku"; "sector_params"; "node_capex"; "device_type"] -> attribute o k (setting device_defaults kw k)) /\
  (forall n, attribute o "number_of_nodes_per_site" n -> exists k, number n k /\ nodes (setting device_defaults kw) k).
Proof.
  intros H. destruct (fill device_args kw) as [e|] eqn:E; [|unfold device_data in H; rewrite E in H; discriminate]. rewrite (device_unfold kw e E) in H.
  inv_do. subst o. split.
  - intros k Hk. eexists. eexists. split; [reflexivity|]. repeat (destruct Hk as [<-|Hk]; [reflexivity|]). contradiction.
  - intros n (c & a & [= <- <-] & En). cbn in En. injection En as <-. destruct (node_count_ok _ _ E1) as (k & Hk & Hn & _). eauto.
Qed.
End Files.
