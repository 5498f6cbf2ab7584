(** A configuration file that is accepted has its radio parameters checked, and every device works with them. *)
From Coq Require Import ZArith QArith Lqa Ascii Lia.
From Verif Require Import Base Dict QLib TopologyModel SetupModel LosRangeModel MonadLib ConfModel ConfSpec ConfProofs ConfLosProofs ConfOptProofs ConfFileProofs.
Local Open Scope string_scope.
Local Open Scope list_scope.

(** ** the parameters of the project *)
Lemma dset_fold_iff e ks k x s : dget (fold_left (fun s k => dset s k (at_ e k)) ks s) k = Some x <-> (In k ks /\ x = at_ e k) \/ (~ In k ks /\ dget s k = Some x).
Proof.
  rewrite dset_fold_get. destruct (mem k ks) eqn:Em.
  - apply mem_In in Em. split; [intros [= <-]; auto|]. intros [[_ ->]|[? _]]; [reflexivity|contradiction].
  - apply mem_not_In in Em. tauto.
Qed.
Lemma attribute_iff c a k x : attribute (VObj c a) k x <-> dget a k = Some x.
Proof. split; [intros (c' & a' & [= <- <-] & E); exact E|]. intros E. exists c, a. auto. Qed.
Lemma populate_project e v d : (forall k, In k radio_keys -> at_ e k = v k) -> with_project v d (populate e d).
Proof.
  intros Hv. unfold with_project, populate. destruct d as [| | | | | | |c a|]; try (split; [tauto|intros c a (c' & a' & [=] & _)]).
  destruct (dget a "sector_params") as [[| | | | | | |c' s|]|] eqn:Es;
    try (split; [tauto|intros c1 a1 H; apply attribute_iff in H; congruence]).
  split.
  - intros k x Hk. rewrite !attribute_iff. now rewrite dget_set_neq by exact Hk.
  - intros c1 a1 H. apply attribute_iff in H. rewrite Es in H. injection H as <- <-. eexists. split; [apply attribute_iff; apply dget_set_eq|].
    intros k x. rewrite !attribute_iff. rewrite dset_fold_iff. change project_keys with radio_keys. split; (intros [[H1 H2]|H]; [left; split; [exact H1|]; subst x; now rewrite Hv|now right]).
Qed.
Theorem optimizer_values kw o : optimizer_params kw = Ok o ->
  (forall k, In k (map fst opt_args) -> k <> "device_list" -> attribute o k (setting optimizer_defaults kw k)) /\
  exists l l', setting optimizer_defaults kw "device_list" = VList l /\ attribute o "device_list" (VList l') /\ Forall2 (with_project (setting optimizer_defaults kw)) l l'.
Proof.
  unfold optimizer_params. intros H. apply rbind_ok in H. destruct H as (e & E & H). pose proof (opt_setting kw e E) as Ev. rewrite (Ev "device_list") in H by names.
  apply rbind_ok in H. destruct H as (l & El & H). apply rbind_ok in H. destruct H as ([] & Ea & H). apply rbind_ok in H. destruct H as ([] & Ec & H). apply rbind_ok in H. destruct H as ([] & Ed & H). injection H as <-. split.
  - intros k Hk Hn. rewrite <- (Ev k Hk). apply attribute_iff. repeat (destruct Hk as [<-|Hk]; [first [reflexivity | now contradict Hn]|]). contradiction.
  - destruct (setting optimizer_defaults kw "device_list"); try discriminate. injection El as ->. exists l, (map (populate e) l). split; [reflexivity|]. split; [apply attribute_iff; reflexivity|].
    clear - Ev. induction l as [|d l IH]; constructor; [|exact IH]. apply populate_project. intros k Hk. apply Ev. repeat (destruct Hk as [<-|Hk]; [names|]). contradiction.
Qed.
Theorem los_values kw o : los_params kw = Ok o ->
  (forall k, In k (map fst los_args) -> k <> "device_list" -> attribute o k (setting los_defaults kw k)) /\
  exists l l', setting los_defaults kw "device_list" = VList l /\ attribute o "device_list" (VList l') /\ Forall2 (with_project (setting los_defaults kw)) l l'.
Proof.
  unfold los_params. intros H. apply rbind_ok in H. destruct H as (e & E & H). pose proof (los_setting kw e E) as Ev. rewrite (Ev "device_list") in H by names.
  apply rbind_ok in H. destruct H as (l & El & H). apply rbind_ok in H. destruct H as ([] & Ea & H). apply rbind_ok in H. destruct H as ([] & Ec & H). injection H as <-. split.
  - intros k Hk Hn. rewrite <- (Ev k Hk). apply attribute_iff. repeat (destruct Hk as [<-|Hk]; [first [reflexivity | now contradict Hn]|]). contradiction.
  - destruct (setting los_defaults kw "device_list"); try discriminate. injection El as ->. exists l, (map (populate e) l). split; [reflexivity|]. split; [apply attribute_iff; reflexivity|].
    clear - Ev. induction l as [|d l IH]; constructor; [|exact IH]. apply populate_project. intros k Hk. apply Ev. repeat (destruct Hk as [<-|Hk]; [names|]). contradiction.
Qed.

(** ** what a value that reaches the constructor comes from *)
Definition comes (sub : string -> dict string val -> result val) (prop : dict string val) (k : string) (v x : val) : Prop :=
  match v with
  | VDict d => sub k (merge d prop) = Ok x
  | VList l => exists l', mapM (element sub k prop) l = Ok l' /\ x = VList l'
  | _ => x = v
  end.
Lemma take_comes sub args prop k kw v kw' x : In k args -> enum_of k = None -> take sub args prop kw (k, v) = Ok kw' -> dget kw' k = Some x -> dget kw k = Some x \/ comes sub prop k v x.
Proof.
  intros Ha He. unfold take. rewrite (proj2 (mem_In k args) Ha), He. destruct v; cbn [comes]; try (intros [= <-]; rewrite dget_set_eq; intros [= <-]; now right); try (intros [= <-]; intros Hx; now left).
  - intros E. inv_do. subst. rewrite dget_set_eq. intros [= <-]. right. eauto.
  - destruct (class_key k); intros E; inv_do; subst; [rewrite dget_set_eq; intros [= <-]; auto|auto].
Qed.
Lemma fold_comes sub args prop k : In k args -> enum_of k = None -> forall l, inner_free k l ->
  forall kw kw' x, foldM (take sub args prop) kw l = Ok kw' -> dget kw' k = Some x -> dget kw k = Some x \/ exists v, In (k, v) l /\ comes sub prop k v x.
Proof.
  intros Ha He l. induction l as [|[key v] l IH]; intros Hf kw kw' x E Hx; [cbn in E; injection E as <-; auto|].
  cbn [foldM] in E. apply rbind_ok in E. destruct E as (kw1 & E1 & E2).
  destruct (IH (fun key d' Hin => Hf key d' (or_intror Hin)) _ _ _ E2 Hx) as [Hg|(w & Hin & Hw)]; [|right; exists w; split; [now right|exact Hw]].
  destruct (eqb_dec key k) as [->|Hk].
  - destruct (take_comes _ _ _ _ _ _ _ _ Ha He E1 Hg) as [?|Hc]; [auto|]. right. exists v. split; [now left|exact Hc].
  - left. rewrite <- Hg. symmetry. eapply take_other; [|intros d Ed|exact E1]; cbn in *; [exact Hk|]. subst v. apply (Hf key d). now left.
Qed.
Lemma given_Some kw k x : NoDup (map fst kw) -> dget (given kw) k = Some x -> dget kw k = Some x /\ x <> VNone.
Proof.
  intros Hn E. apply dget_In in E. unfold given in E. apply filter_In in E. destruct E as [Hin Hx]. cbn in Hx. split; [now apply In_dget|]. intros ->. discriminate.
Qed.

(** ** templates of the sections *)
Definition sect (name : string) : dict string val := match template with VDict t => match dget t name with Some (VDict o) => o | _ => [] end | _ => [] end.
Definition device_t : dict string val := match dget (sect "RADIO") "DEVICE_LIST" with Some (VList (VDict o :: _)) => o | _ => [] end.
Definition sector_t : dict string val := match dget device_t "SECTOR_PARAMS" with Some (VDict o) => o | _ => [] end.
Definition sections : list string := ["LINE_OF_SIGHT"; "RADIO"; "NETWORK_DESIGN"].
Lemma in_los : In "LINE_OF_SIGHT" sections. Proof. now left. Qed.
Lemma in_radio : In "RADIO" sections. Proof. right. now left. Qed.
Lemma in_design : In "NETWORK_DESIGN" sections. Proof. right. right. now left. Qed.
Lemma section_typo d name s : In name sections -> detect_typo (VDict d) template = Ok tt -> section d name = Ok s -> detect_typo (VDict s) (VDict (sect name)) = Ok tt.
Proof.
  intros Hn E Es. unfold section in Es. destruct (dget d name) as [[]|] eqn:Ed; try discriminate. injection Es as ->. unfold template in E.
  destruct (typo_In _ _ E _ _ (dget_In _ _ _ Ed)) as (key & ov & E1 & E2 & E3). cbn [nested] in E3.
  repeat (destruct Hn as [<-|Hn]; [vm_compute in E1; injection E1 as <-; vm_compute in E2; injection E2 as <-; exact E3|]). contradiction.
Qed.
(** ** the dictionary that LOSParams and OptimizerParams are made from *)
Record top (prop : dict string val) : Prop := {
  top_nodup : NoDup (map fst prop);
  top_inner : forall k, In k ("sector_params" :: "device_list" :: radio_keys) -> inner_free k prop;
  top_plain : forall k key v, In k radio_keys -> In (key, v) prop -> casefold key = k -> plain_value v;
  top_sector : free "sector_params" prop;
  top_devices : forall key v, In (key, v) prop -> casefold key = "device_list" -> plain_value v \/ exists l, v = VList l /\ forall x, In x l -> detect_typo x (VDict device_t) = Ok tt;
  top_file : forall key v, In (key, v) prop -> file_value v }.
Lemma file_dict d : file_value (VDict d) -> NoDup (map fst d) /\ forall key v, In (key, v) d -> file_value v.
Proof.
  intros [Hn H]. split; [exact Hn|]. clear Hn. induction d as [|[k x] d IH]; [contradiction|]. destruct H as [H1 H2]. intros key v [[= <- <-]|Hin]; [exact H1|eapply IH; eauto].
Qed.
Lemma file_list l : file_value (VList l) -> forall x, In x l -> file_value x.
Proof. induction l as [|y l IH]; [contradiction|]. intros [H1 H2] x [<-|Hin]; [exact H1|]. now apply IH. Qed.
Ltac cases_in H := repeat (destruct H as [<-|H]; [|]); [..|contradiction].
Lemma radio_number name k key : In name sections -> In k radio_keys -> dget (lowmap (sect name)) k = Some key -> exists q, dget (sect name) key = Some (VNum q).
Proof.
  intros Hn Hk. repeat (destruct Hn as [<-|Hn]; [repeat (destruct Hk as [<-|Hk]; [vm_compute; intros E; try discriminate; injection E as <-; eexists; reflexivity|]); contradiction|]). contradiction.
Qed.
Lemma section_top d name s : In name sections -> file_value (VDict d) -> detect_typo (VDict d) template = Ok tt -> section d name = Ok s -> top s.
Proof.
  intros Hn Hf E Es. pose proof (section_typo _ _ _ Hn E Es) as Et.
  assert (Hs : file_value (VDict s)). { unfold section in Es. destruct (dget d name) as [[]|] eqn:Ed; try discriminate. injection Es as ->. apply dget_In in Ed. exact (proj2 (file_dict d Hf) _ _ Ed). }
  destruct (file_dict s Hs) as [Hnd Hv]. split.
  - exact Hnd.
  - intros k Hk. eapply typo_inner; [exact Et| |].
    + repeat (destruct Hk as [<-|Hk]; [reflexivity|]). contradiction.
    + repeat (destruct Hn as [<-|Hn]; [repeat (destruct Hk as [<-|Hk]; [vm_compute; reflexivity|]); contradiction|]). contradiction.
  - intros k key v Hk Hin Hc. eapply typo_plain; [exact Et| |intros key' Hk'; eapply radio_number; eauto|exact Hin|exact Hc].
    repeat (destruct Hk as [<-|Hk]; [reflexivity|]). contradiction.
  - eapply typo_free; [exact Et|reflexivity|]. repeat (destruct Hn as [<-|Hn]; [vm_compute; reflexivity|]). contradiction.
  - intros key v Hin Hc. destruct (typo_In _ _ Et _ _ Hin) as (key' & ov & E1 & E2 & E3). rewrite (fold_strip key "device_list" Hc eq_refl) in E1.
    repeat (destruct Hn as [<-|Hn]; [vm_compute in E1; try discriminate E1|]); [|contradiction]. injection E1 as <-.
    destruct v; cbn [plain_value]; auto.
    + right. exists l. split; [reflexivity|]. eapply nested_list. rewrite <- E3. vm_compute in E2. injection E2 as <-. reflexivity.
    + exfalso. vm_compute in E2. injection E2 as <-. discriminate.
  - exact Hv.
Qed.
Lemma merge_top a b : top a -> top b -> top (merge a b).
Proof.
  intros [A1 A2 A3 A4 A5 A6] [B1 B2 B3 B4 B5 B6]. split.
  - now apply merge_nodup.
  - intros k Hk key d' Hin. apply merge_In in Hin. destruct Hin as [Hin|Hin]; [eapply A2|eapply B2]; eauto.
  - intros k key v Hk Hin. apply merge_In in Hin. destruct Hin; eauto.
  - intros key v Hin. apply merge_In in Hin. destruct Hin; eauto.
  - intros key v Hin. apply merge_In in Hin. destruct Hin; eauto.
  - intros key v Hin. apply merge_In in Hin. destruct Hin; eauto.
Qed.
Lemma lower_inner k d : inner_free k d -> inner_free k (lower_keys d).
Proof. intros H key d' Hin. apply lower_In in Hin. destruct Hin as (key' & _ & Hin). apply (H key' d' Hin). Qed.
Lemma merge_inner k a b : inner_free k a -> inner_free k b -> inner_free k (merge a b).
Proof. intros Ha Hb key d' Hin. apply merge_In in Hin. destruct Hin; eauto. Qed.

Ltac radio_cases Hk := repeat (destruct Hk as [<-|Hk]; [vm_compute; first [reflexivity | tauto]|]); contradiction.
Lemma radio_strip k : In k radio_keys -> strip k = k. Proof. intros Hk. radio_cases Hk. Qed.
Lemma radio_enum k : In k radio_keys -> enum_of k = None. Proof. intros Hk. radio_cases Hk. Qed.
Lemma radio_sector_arg k : In k radio_keys -> In k (map fst sector_args). Proof. intros Hk. repeat (destruct Hk as [<-|Hk]; [names|]). contradiction. Qed.
Lemma radio_los_arg k : In k radio_keys -> In k (map fst los_args) /\ k <> "device_list". Proof. intros Hk. repeat (destruct Hk as [<-|Hk]; [split; [names|discriminate]|]). contradiction. Qed.
Lemma radio_opt_arg k : In k radio_keys -> In k (map fst opt_args) /\ k <> "device_list". Proof. intros Hk. repeat (destruct Hk as [<-|Hk]; [split; [names|discriminate]|]). contradiction. Qed.
Section Rf.
Variable rf : string -> val -> list val -> result val.
Lemma sector_typo dd key sd : detect_typo (VDict dd) (VDict device_t) = Ok tt -> In (key, VDict sd) dd -> casefold key = "sector_params" -> detect_typo (VDict sd) (VDict sector_t) = Ok tt.
Proof.
  intros E Hin Hc. destruct (typo_In _ _ E _ _ Hin) as (key' & ov & E1 & E2 & E3). rewrite (fold_strip key "sector_params" Hc eq_refl) in E1. vm_compute in E1. injection E1 as <-.
  vm_compute in E2. injection E2 as <-. exact E3.
Qed.
Lemma lower_find d k v : dget (lower_keys d) k = Some v -> exists key, casefold key = k /\ In (key, v) d.
Proof. intros E. apply dget_In in E. apply lower_In in E. exact E. Qed.
Lemma sector_radio prop dd key sd sp : top prop -> NoDup (map fst dd) -> detect_typo (VDict dd) (VDict device_t) = Ok tt -> In (key, VDict sd) dd -> casefold key = "sector_params" -> sector_from rf (merge sd (merge dd prop)) = Ok sp ->
  exists kws, sector_params rf kws = Ok sp /\ forall k, In k radio_keys -> dget kws k = lookup prop k.
Proof.
  intros T Hn Et Hin Hc E. pose proof (sector_typo _ _ _ Et Hin Hc) as Es. unfold sector_from in E. apply from_dict_ok in E. destruct E as (kw & Ek & Hkn & E). exists (given kw). split; [exact E|].
  intros k Hk. assert (Fs : free k sd). { eapply typo_free; [exact Es|now apply radio_strip|radio_cases Hk]. }
  assert (Fd : free k dd). { eapply typo_free; [exact Et|now apply radio_strip|radio_cases Hk]. }
  assert (G : dget (lower_keys (merge sd (merge dd prop))) k = dget (lower_keys prop) k).
  { rewrite (lower_merge_free k sd (merge dd prop) Fs (merge_nodup _ _ Hn)). apply (lower_merge_free k dd prop Fd (top_nodup _ T)). }
  erewrite given_lookup; [|now apply radio_sector_arg|now apply radio_enum| | |exact Ek|exact Hkn].
  - unfold lookup. now rewrite G.
  - apply lower_inner. apply merge_inner; [|apply merge_inner].
    + eapply typo_inner; [exact Es|now apply radio_strip|radio_cases Hk].
    + eapply typo_inner; [exact Et|now apply radio_strip|radio_cases Hk].
    + apply (top_inner _ T). right. now right.
  - intros v Hv. rewrite G in Hv. destruct (lower_find _ _ _ Hv) as (key' & Hc' & Hin'). eapply (top_plain _ T); eauto.
Qed.
Lemma device_radio prop dd dv : top prop -> file_value (VDict dd) -> detect_typo (VDict dd) (VDict device_t) = Ok tt -> device_from rf (merge dd prop) = Ok dv ->
  exists sp kws, attribute dv "sector_params" sp /\ sector_params rf kws = Ok sp /\ forall k, In k radio_keys -> dget kws k = lookup prop k.
Proof.
  intros T Hf Et E. destruct (file_dict dd Hf) as [Hn Hv]. unfold device_from in E. apply from_dict_ok in E. destruct E as (kw & Ek & Hkn & E).
  destruct (device_values _ _ E) as [Hval _]. specialize (Hval "sector_params" (or_intror (or_introl eq_refl))).
  pose proof (proj1 (device_iff (given kw)) (ex_intro _ dv E)) as Hok. destruct Hok as (_ & _ & nk & h & s & _ & _ & _ & Hh & _).
  unfold sector_of in Hh. destruct (attr (setting device_defaults (given kw) "sector_params") "horizontal_scan_range") as [hv|] eqn:Ea; [|destruct Hh as [?|[[? _]|[? _]]]; discriminate].
  apply attr_ok in Ea. destruct Ea as (c & a & Eo & _). rewrite Eo in Hval. exists (VObj c a).
  assert (Eg : dget (given kw) "sector_params" = Some (VObj c a)). { unfold setting in Eo. destruct (dget (given kw) "sector_params"); [now subst|discriminate]. }
  destruct (given_Some _ _ _ Hkn Eg) as [Eg' _].
  assert (Hi : inner_free "sector_params" (lower_keys (merge dd prop))).
  { apply lower_inner. apply merge_inner; [|apply (top_inner _ T); now left]. eapply typo_inner; [exact Et|reflexivity|vm_compute; reflexivity]. }
  destruct (fold_comes _ (map fst device_args) _ "sector_params" ltac:(names) eq_refl _ Hi _ _ _ Ek Eg') as [?|(v & Hin & Hc)]; [discriminate|].
  apply lower_In in Hin. destruct Hin as (key & Hkey & Hin). cbn in Hkey, Hin. apply merge_In in Hin. destruct Hin as [Hin|Hin]; [|destruct (top_sector _ T key v Hin Hkey)].
  pose proof (Hv _ _ Hin) as Hfv. destruct v as [| | | |lv|sd| | |]; cbn [comes] in Hc; try discriminate Hc; try (exfalso; exact Hfv).
  - destruct Hc as (l' & _ & ?). discriminate.
  - change (device_sub rf "sector_params" (merge sd (merge dd prop))) with (sector_from rf (merge sd (merge dd prop))) in Hc.
    destruct (sector_radio prop dd key sd (VObj c a) T Hn Et Hin Hkey Hc) as (kws & E1 & E2). exists kws. auto.
Qed.
Lemma list_radio (args : params) build prop o : top prop -> In "device_list" (map fst args) -> from_dict (top_sub rf) args build prop = Ok o ->
  exists kw, build kw = Ok o /\ (forall k, In k (map fst args) -> In k radio_keys -> dget kw k = lookup prop k) /\
  forall l, dget kw "device_list" = Some (VList l) -> forall dv, In dv l -> exists sp kws, attribute dv "sector_params" sp /\ sector_params rf kws = Ok sp /\ forall k, In k radio_keys -> dget kws k = lookup prop k.
Proof.
  intros T Ha E. apply from_dict_ok in E. destruct E as (kw & Ek & Hkn & E). exists (given kw). split; [exact E|]. split.
  - intros k Hka Hk. eapply given_lookup; [exact Hka|now apply radio_enum| | |exact Ek|exact Hkn].
    + apply lower_inner. apply (top_inner _ T). right. now right.
    + intros v Hv. destruct (lower_find _ _ _ Hv) as (key' & Hc' & Hin'). eapply (top_plain _ T); eauto.
  - intros l Hl dv Hdv. destruct (given_Some _ _ _ Hkn Hl) as [Hl' _].
    assert (Hi : inner_free "device_list" (lower_keys prop)). { apply lower_inner. apply (top_inner _ T). right. now left. }
    destruct (fold_comes _ (map fst args) _ "device_list" Ha eq_refl _ Hi _ _ _ Ek Hl') as [?|(v & Hin & Hc)]; [discriminate|].
    apply lower_In in Hin. destruct Hin as (key & Hkey & Hin). cbn in Hkey, Hin.
    destruct (top_devices _ T _ _ Hin Hkey) as [Hp|(l0 & -> & Ht)].
    { pose proof (top_file _ T _ _ Hin) as Hfv. destruct v; cbn in Hc, Hp, Hfv; try contradiction; discriminate. }
    cbn [comes] in Hc. destruct Hc as (l' & Em & [= ->]). destruct (mapM_inv _ _ _ _ Em Hdv) as (x & Hx & Ex).
    pose proof (Ht x Hx) as Etx. pose proof (file_list l0 (top_file _ T _ _ Hin) x Hx) as Hfx.
    destruct x as [| | | | |dd| | |]; try discriminate Etx. change (element (top_sub rf) "device_list" prop (VDict dd)) with (device_from rf (merge dd prop)) in Ex.
    eapply device_radio; eauto.
Qed.
Lemma Forall2_in_r {A B} (R : A -> B -> Prop) la lb b : Forall2 R la lb -> In b lb -> exists a, In a la /\ R a b.
Proof. intros F. induction F as [|x y la lb Hxy F IH]; [contradiction|]. intros [<-|Hin]; [exists x; split; [now left|exact Hxy]|]. destruct (IH Hin) as (a & Ha & Hr). exists a. split; [now right|exact Hr]. Qed.
Lemma value_of_iff o k v : attribute o k v -> value_of o k = v.
Proof. intros (c & a & -> & E). cbn. now rewrite E. Qed.
Lemma radio_default k d1 d2 kw1 kw2 : dget kw1 k = dget kw2 k -> dget d1 k = dget d2 k -> setting d1 kw1 k = setting d2 kw2 k.
Proof. unfold setting. intros -> ->. reflexivity. Qed.
Lemma sector_ok_ext v w : (forall k, In k (map fst sector_args) -> v k = w k) -> sector_ok v -> sector_ok w.
Proof. intros H. unfold sector_ok, radio_ok. rewrite !H by names. exact (fun x => x). Qed.
Lemma radio_ok_ext v w : (forall k, In k radio_keys -> v k = w k) -> radio_ok v -> radio_ok w.
Proof. intros H. unfold radio_ok. rewrite !H by (cbn; tauto). exact (fun x => x). Qed.
Lemma checked_gen (args : params) doc kw o l l' prop :
  (forall k, In k radio_keys -> In k (map fst args) /\ k <> "device_list") -> (forall k, In k radio_keys -> dget doc k = dget sector_defaults k) ->
  (forall k, In k (map fst args) -> k <> "device_list" -> attribute o k (setting doc kw k)) ->
  dget kw "device_list" = Some (VList l) -> l <> [] -> attribute o "device_list" (VList l') -> Forall2 (with_project (setting doc kw)) l l' ->
  (forall k, In k (map fst args) -> In k radio_keys -> dget kw k = lookup prop k) ->
  (forall dv, In dv l -> exists sp kws, attribute dv "sector_params" sp /\ sector_params rf kws = Ok sp /\ forall k, In k radio_keys -> dget kws k = lookup prop k) ->
  checked o.
Proof.
  intros Hargs Hdoc Hval El Hne Hl Hf Hlook Hdev.
  assert (Hset : forall k kws, In k radio_keys -> dget kws k = lookup prop k -> setting sector_defaults kws k = value_of o k).
  { intros k kws Hk Hs. destruct (Hargs k Hk) as [Ha Hn]. rewrite (value_of_iff _ _ _ (Hval k Ha Hn)). symmetry. apply radio_default; [rewrite Hs; auto|auto]. }
  assert (Hd' : forall d', In d' l' -> exists s, attribute d' "sector_params" s /\ sector_ok (value_of s) /\ forall k, In k radio_keys -> value_of s k = value_of o k).
  { intros d' Hd'. destruct (Forall2_in_r _ _ _ _ Hf Hd') as (d & Hd & [_ Hw]). destruct (Hdev d Hd) as (sp & kws & Hsp & Es & Hk).
    assert (Hv : forall k, sector_params rf kws = Ok sp -> In k (map fst sector_args) -> attribute sp k (setting sector_defaults kws k)) by (intros k0; apply sector_values). pose proof (proj1 (sector_iff rf kws) (ex_intro _ sp Es)) as [Hok _].
    assert (exists c a, sp = VObj c a) as (c & a & ->). { destruct (Hv "rain_rate" Es ltac:(names)) as (c & a & Ec & _). eauto. }
    destruct (Hw c a Hsp) as (s' & Hs' & Hs). exists s'. split; [exact Hs'|].
    assert (Hr : forall k, In k radio_keys -> value_of s' k = value_of o k).
    { intros k Hkr. destruct (Hargs k Hkr) as [Ha Hn]. rewrite (value_of_iff _ _ _ (Hval k Ha Hn)). apply value_of_iff. apply Hs. left. auto. }
    split; [|exact Hr]. eapply sector_ok_ext; [|exact Hok]. intros k Hka. destruct (in_dec string_dec k radio_keys) as [Hkr|Hkr].
    - rewrite (Hr k Hkr). apply Hset; auto.
    - symmetry. apply value_of_iff. apply Hs. right. split; [exact Hkr|]. apply Hv; auto. }
  split; [|exists l'; split; [exact Hl|split; [|exact Hd']]].
  - destruct l as [|d l]; [now destruct Hne|]. destruct (Hdev d (or_introl eq_refl)) as (sp & kws & _ & Es & Hk). pose proof (proj1 (sector_iff rf kws) (ex_intro _ sp Es)) as [[Hok _] _].
    eapply radio_ok_ext; [|exact Hok]. intros k Hkr. apply Hset; auto.
  - inversion Hf; subst; [now destruct Hne|discriminate].
Qed.
Theorem file_radio name data o : file_value data -> In name ["OPTIMIZATION"; "LINE_OF_SIGHT"] -> struct_objects rf name data = Ok o -> checked o.
Proof.
  intros Hf Hname. unfold struct_objects. intros E. apply rbind_ok in E. destruct E as ([] & Et & E). destruct data as [| | | | |d| | |]; try discriminate.
  assert (KE : forall (r : result val) x, key_error r = Ok x -> r = Ok x). { intros r x. unfold key_error. destruct r as [|[]]; congruence. }
  apply KE in E. clear KE.
  assert (Hopt : forall prop, top prop -> optimizer_from rf prop = Ok o -> checked o).
  { intros prop T Eo. unfold optimizer_from in Eo. destruct (list_radio opt_args _ prop o T ltac:(names) Eo) as (kw & Eb & Hl & Hd).
    destruct (optimizer_values kw o Eb) as [Hv (l & l' & Es & Ha & Hw)]. pose proof (proj1 (optimizer_iff kw) (ex_intro _ o Eb)) as Hok. destruct Hok as [(l0 & El0 & Hne & _) _].
    rewrite Es in El0. injection El0 as <-.
    assert (Ed : dget kw "device_list" = Some (VList l)). { unfold setting in Es. destruct (dget kw "device_list"); [now subst|discriminate]. }
    eapply checked_gen with (args := opt_args) (doc := optimizer_defaults); eauto using radio_opt_arg. intros k Hk. radio_cases Hk. }
  assert (Hlos : forall prop, top prop -> los_from rf prop = Ok o -> checked o).
  { intros prop T Eo. unfold los_from in Eo. destruct (list_radio los_args _ prop o T ltac:(names) Eo) as (kw & Eb & Hl & Hd).
    destruct (los_values kw o Eb) as [Hv (l & l' & Es & Ha & Hw)]. pose proof (proj1 (los_iff kw) (ex_intro _ o Eb)) as Hok. destruct Hok as [(l0 & El0 & Hne & _) _].
    rewrite Es in El0. injection El0 as <-.
    assert (Ed : dget kw "device_list" = Some (VList l)). { unfold setting in Es. destruct (dget kw "device_list"); [now subst|discriminate]. }
    eapply checked_gen with (args := los_args) (doc := los_defaults); eauto using radio_los_arg. intros k Hk. radio_cases Hk. }
  destruct Hname as [<-|[<-|[]]].
  - change (beq "OPTIMIZATION" "SYSTEM") with false in E. change (beq "OPTIMIZATION" "LINE_OF_SIGHT") with false in E. change (beq "OPTIMIZATION" "OPTIMIZATION") with true in E. cbv iota in E.
    apply rbind_ok in E. destruct E as (r & Er & E). apply rbind_ok in E. destruct E as (s & Es & E). apply (Hopt _ (merge_top _ _ (section_top d "RADIO" r in_radio Hf Et Er) (section_top d "NETWORK_DESIGN" s in_design Hf Et Es)) E).
  - change (beq "LINE_OF_SIGHT" "SYSTEM") with false in E. change (beq "LINE_OF_SIGHT" "LINE_OF_SIGHT") with true in E. cbv iota in E.
    destruct (negb (dmem d "RADIO") && negb (dmem d "NETWORK_DESIGN")).
    + apply rbind_ok in E. destruct E as (s & Es & E). apply (Hlos _ (section_top d "LINE_OF_SIGHT" s in_los Hf Et Es) E).
    + apply rbind_ok in E. destruct E as (s & Es & E). apply rbind_ok in E. destruct E as (r & Er & E). apply (Hlos _ (merge_top _ _ (section_top d "LINE_OF_SIGHT" s in_los Hf Et Es) (section_top d "RADIO" r in_radio Hf Et Er)) E).
Qed.
End Rf.
