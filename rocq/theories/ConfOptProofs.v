(** OptimizerParams accepts exactly the documented ranges; both classes give the devices the parameters of the project. *)
From Coq Require Import ZArith QArith Lqa Ascii Lia.
From Verif Require Import Base Dict QLib TopologyModel SetupModel LosRangeModel MonadLib ConfModel ConfSpec ConfProofs ConfLosProofs.
Local Open Scope string_scope.
Local Open Scope list_scope.

(** ** extensions of file names *)
Lemma sapp_assoc (a b c : string) : ((a ++ b) ++ c)%string = (a ++ (b ++ c))%string.
Proof. induction a as [|x a IH]; cbn; [reflexivity|]. now rewrite IH. Qed.
Lemma sapp_nil (a : string) : (a ++ "")%string = a.
Proof. induction a as [|x a IH]; cbn; [reflexivity|]. now rewrite IH. Qed.
Fixpoint dotless (s : string) : Prop := match s with EmptyString => True | String c s => c <> "."%char /\ dotless s end.
Lemma dotless_app a b : dotless (a ++ b) <-> dotless a /\ dotless b.
Proof. induction a as [|x a IH]; cbn; [tauto|]. rewrite IH. tauto. Qed.
Lemma last_part_dotless s : forall acc, dotless s -> last_part acc s = (acc ++ s)%string.
Proof.
  induction s as [|c s IH]; intros acc; cbn; [now rewrite sapp_nil|]. intros [Hc Hs]. destruct (Ascii.eqb_spec c "."); [contradiction|].
  rewrite IH by exact Hs. now rewrite sapp_assoc.
Qed.
Lemma last_part_dot b : forall acc s, dotless s -> last_part acc (b ++ String "." s) = s.
Proof.
  induction b as [|c b IH]; intros acc s Hs; cbn.
  - now rewrite last_part_dotless.
  - destruct (Ascii.eqb_spec c "."); now apply IH.
Qed.
Lemma last_part_split s : forall acc, dotless acc -> dotless (last_part acc s) /\ (last_part acc s = (acc ++ s)%string \/ exists b, (acc ++ s)%string = (b ++ String "." (last_part acc s))%string).
Proof.
  induction s as [|c s IH]; intros acc Ha; cbn [last_part].
  - split; [exact Ha|left; now rewrite sapp_nil].
  - destruct (Ascii.eqb_spec c ".") as [->|Hc].
    + destruct (IH "" I) as [H1 H2]. split; [exact H1|]. right. destruct H2 as [H2|[b H2]].
      * exists acc. rewrite H2 at 1. reflexivity.
      * exists (acc ++ String "." b)%string. rewrite sapp_assoc. cbn. cbn in H2. now rewrite H2 at 1.
    + destruct (IH (acc ++ String c "")%string) as [H1 H2]; [apply dotless_app; cbn; tauto|]. split; [exact H1|]. rewrite sapp_assoc in H2. exact H2.
Qed.
Lemma lower_dot c : lower_char c = "."%char -> c = "."%char.
Proof. intros E. change "."%char with (lower_char ".") in E. apply lower_char_iff in E. destruct E as [E|(i & Hi & [[E1 E2]|[E1 E2]])]; [exact E|..]; do 26 (destruct i as [|i]; [discriminate|]); lia. Qed.
Lemma dotless_fold s : dotless (casefold s) -> dotless s.
Proof. induction s as [|c s IH]; cbn; [auto|]. intros [H1 H2]. split; [|auto]. intros ->. now apply H1. Qed.
Lemma extension_iff exts v : (forall e, In e exts -> casefold e = e /\ dotless e) -> extension_in exts v = Ok true <-> extension exts v.
Proof.
  intros He. unfold extension_in, extension. split.
  - destruct v; try discriminate. intros [= E]. apply mem_In in E. exists s, (casefold (last_part "" s)), (last_part "" s). split; [reflexivity|]. split; [exact E|].
    split; [apply casefold_iff; now destruct (He _ E)|]. destruct (last_part_split s "" I) as [_ [H|[b H]]]; [left; now symmetry|right; exists b; exact H].
  - intros (s & e & e' & -> & Hin & Hs & Ht). destruct (He _ Hin) as [Ef Ed]. apply casefold_iff in Hs. rewrite Ef in Hs.
    assert (Hd : dotless e') by (apply dotless_fold; now rewrite Hs). f_equal. apply mem_In.
    assert (El : last_part "" s = e') by (destruct Ht as [->|[b ->]]; [now apply last_part_dotless|cbn [append]; now apply last_part_dot]). rewrite El, Hs. exact Hin.
Qed.
Lemma extension_ok_iff exts v : (forall e, In e exts -> casefold e = e /\ dotless e) -> extension_ok exts v = Ok true <-> v = VNone \/ extension exts v.
Proof.
  intros He. unfold extension_ok. destruct (is_none v) eqn:E.
  - apply is_none_true in E. tauto.
  - apply is_none_false in E. rewrite extension_iff by exact He. tauto.
Qed.
Ltac plain_exts := let e := fresh in let H := fresh in intros e H; repeat (destruct H as [<-|H]; [split; [reflexivity|cbn; repeat split; discriminate]|]); contradiction.

(** ** OptimizerParams *)
Definition optimizer_rest (v : string -> val) : Prop :=
  ((forall k, In k ["pop_site_capex"; "cn_site_capex"; "dn_site_capex"; "budget"; "number_of_extra_pops"] -> range (v k) (fun x => 0 <= x)) /\
  (forall k, In k ["pop_capacity"; "demand"; "maximum_number_hops"; "near_far_length_ratio"; "min_cost_max_time"; "redundancy_max_time"; "interference_max_time"; "pop_proposal_max_time"; "demand_site_max_time"; "availability_max_time"] ->
     range (v k) (fun x => 0 < x)) /\
  (forall k, In k ["oversubscription"; "number_of_channels"] -> range (v k) (fun x => 1 <= x)) /\
  (forall k, In k ["diff_sector_angle_limit"; "near_far_angle_limit"] -> range (v k) (fun x => 0 <= x <= 180)) /\
  range (v "backhaul_link_redundancy_ratio") (fun x => 0 <= x <= 1) /\ optional (v "num_threads") (fun x => 0 < x) /\
  range (v "dn_dn_sector_limit") (fun x => 0 < x /\ range (v "dn_total_sector_limit") (fun y => x <= y)) /\
  (counts_as_true (v "enable_cn_demand") \/ counts_as_true (v "enable_uniform_demand") \/ counts_as_true (v "enable_manual_demand")) /\
  (counts_as_true (v "enable_uniform_demand") -> range (v "demand_spacing") (fun x => 0 < x)) /\
  (counts_as_true (v "enable_uniform_demand") \/ counts_as_true (v "enable_manual_demand") -> range (v "demand_connection_radius") (fun x => 0 < x)) /\
  (v "candidate_topology_file_path" = VNone \/ extension ["kml"; "kmz"; "zip"] (v "candidate_topology_file_path")))%Q.
Lemma limits_iff t d : (do a <- num t ; do b <- num d ; Ok (Qle_bool b a)) = Ok true /\ cmp (gt 0) d = Ok true <-> range d (fun x => 0 < x /\ range t (fun y => x <= y))%Q.
Proof.
  rewrite two_true, range_gt. split.
  - intros [(a & Ha & b & Hb & Hf) (x & Hx & Hp)]. exists x. split; [exact Hx|]. split; [exact Hp|]. exists a. split; [exact Ha|]. apply Qle_bool_iff in Hf. now rewrite (number_unique _ _ _ Hx Hb).
  - intros (x & Hx & Hp & y & Hy & Hle). split; [|now exists x]. exists y. split; [exact Hy|]. exists x. split; [exact Hx|]. now apply Qle_bool_iff.
Qed.
Lemma if_true (b : bool) (r : result bool) (P : Prop) (B : Prop) : (b = true <-> B) -> (r = Ok true <-> P) -> ((if b then r else Ok true) = Ok true <-> (B -> P)).
Proof. intros Hb Hr. destruct b; [rewrite Hr; tauto|]. split; [|reflexivity]. intros _ HB. apply Hb in HB. discriminate. Qed.
Lemma or_truthy a b : truthy a || truthy b = true <-> counts_as_true a \/ counts_as_true b.
Proof. rewrite Bool.orb_true_iff, !truthy_true. reflexivity. Qed.
Lemma ok_true b : Ok b = Ok true <-> b = true.
Proof. split; congruence. Qed.
Lemma opt_checks2_iff e : asserts (opt_checks2 e) = Ok tt <-> optimizer_rest (at_ e).
Proof.
  unfold opt_checks2. rewrite asserts_ok. rewrite Forall_app. unfold config. rewrite Forall_map. rewrite !Forall_cons_iff. cbn [fst]. rewrite !andr_true.
  rewrite limits_iff.
  rewrite (if_true _ _ _ _ (truthy_true (at_ e "enable_uniform_demand")) (range_gt (at_ e "demand_spacing") 0)).
  rewrite (if_true (truthy (at_ e "enable_uniform_demand") || truthy (at_ e "enable_manual_demand")) _ _ (counts_as_true (at_ e "enable_uniform_demand") \/ counts_as_true (at_ e "enable_manual_demand"))
            (or_truthy _ _) (range_gt (at_ e "demand_connection_radius") 0)).
  rewrite ok_true, !Bool.orb_true_iff, !truthy_true.
  rewrite extension_ok_iff by plain_exts. rewrite !range_ge, !range_gt, !range_within, !optional_gt.
  unfold optimizer_rest. split.
  - intros H. decompose [and] H. clear H. repeat match goal with |- _ /\ _ => split end; auto; try (intros k Hk; repeat (destruct Hk as [<-|Hk]; [assumption|]); contradiction). match goal with H : (_ \/ _) \/ _ |- _ => destruct H as [[?|?]|?]; auto end.
  - intros (H1 & H2 & H3 & H4 & H5 & H6 & H7 & H8 & H9 & H10 & H11). repeat match goal with |- _ /\ _ => split end; auto; try (apply H1; names); try (apply H2; names); try (apply H3; names); try (apply H4; names); try apply Forall_nil.
    destruct H8 as [?|[?|?]]; auto.
Qed.
Lemma opt_setting kw e : fill opt_args kw = Ok e -> forall k, In k (map fst opt_args) -> at_ e k = setting optimizer_defaults kw k.
Proof. intros E k. apply (fill_at _ _ _ _ _ optimizer_documented E). Qed.
Lemma In_ext (l : list string) (v w : string -> val) (P : val -> Prop) : (forall k, In k (map fst opt_args) -> v k = w k) -> incl l (map fst opt_args) -> (forall k, In k l -> P (v k)) -> forall k, In k l -> P (w k).
Proof. intros E Hi H k Hk. rewrite <- E by auto. auto. Qed.
Ltac incl_names := let k := fresh in let H := fresh in let G := fresh in intros k H; match type of H with In _ ?l => match goal with |- In _ ?l' => assert (G : forallb (fun x => mem x l') l = true) by (vm_compute; reflexivity); rewrite forallb_forall in G; apply mem_In; exact (G k H) end end.
Lemma optimizer_rest_ext v w : (forall k, In k (map fst opt_args) -> v k = w k) -> optimizer_rest v -> optimizer_rest w.
Proof.
  intros E (H1 & H2 & H3 & H4 & H). split; [|split; [|split; [|split]]].
  - revert H1. apply (In_ext _ v w (fun x => range x (fun x => 0 <= x)%Q) E). incl_names.
  - revert H2. apply (In_ext _ v w (fun x => range x (fun x => 0 < x)%Q) E). incl_names.
  - revert H3. apply (In_ext _ v w (fun x => range x (fun x => 1 <= x)%Q) E). incl_names.
  - revert H4. apply (In_ext _ v w (fun x => range x (fun x => 0 <= x <= 180)%Q) E). incl_names.
  - revert H. rewrite !(E _) by names. auto.
Qed.
Lemma opt_fill kw : dget kw "device_list" <> None -> exists e, fill opt_args kw = Ok e.
Proof.
  intros H. apply fill_total; [|apply (nodup_dec opt_args eq_refl)]. intros k Hk. apply dget_In in Hk.
  destruct Hk as [Hk|Hk]; [injection Hk as <-; exact H|]. exfalso. repeat (destruct Hk as [Hk|Hk]; [discriminate Hk|]). contradiction.
Qed.
Lemma opt_given kw l : setting optimizer_defaults kw "device_list" = VList l -> dget kw "device_list" <> None.
Proof. unfold setting. intros E N. rewrite N in E. discriminate. Qed.
Lemma checks1 l : asserts (opt_checks1 l) = if is_nil l then Err ConfigExn else Ok tt.
Proof. unfold opt_checks1. destruct (is_nil l); reflexivity. Qed.
Theorem optimizer_iff kw : (exists o, optimizer_params kw = Ok o) <-> optimizer_ok (setting optimizer_defaults kw).
Proof.
  change (optimizer_ok (setting optimizer_defaults kw)) with (devices_ok (setting optimizer_defaults kw "device_list") /\ optimizer_rest (setting optimizer_defaults kw)). split.
  - intros [o H]. unfold optimizer_params in H. apply rbind_ok in H. destruct H as (e & E & H). pose proof (opt_setting kw e E) as Ev. rewrite (Ev "device_list") in H by names.
    apply rbind_ok in H. destruct H as (l & El & H). apply rbind_ok in H. destruct H as ([] & Ea & H). apply rbind_ok in H. destruct H as ([] & Ec & H). apply rbind_ok in H. destruct H as ([] & Ed & H).
    rewrite checks1 in Ea. destruct (is_nil l) eqn:Hl; [discriminate|]. apply opt_checks2_iff in Ed. split; [apply devices_iff; eauto|]. now apply (optimizer_rest_ext (at_ e)).
  - intros [Hd Hr]. apply devices_iff in Hd. destruct Hd as (l & El & Hl & Hc). assert (Hv : exists l, setting optimizer_defaults kw "device_list" = VList l).
    { destruct (setting optimizer_defaults kw "device_list"); try discriminate. eauto. }
    destruct Hv as [l' Hv]. destruct (opt_fill kw) as [e E]; [eapply opt_given; eauto|]. unfold optimizer_params. rewrite E. cbn [rbind]. pose proof (opt_setting kw e E) as Ev. rewrite (Ev "device_list") by names.
    rewrite El. cbn [rbind]. rewrite checks1, Hl. cbn [rbind]. rewrite Hc. cbn [rbind]. apply (optimizer_rest_ext _ (at_ e)) in Hr; [|intros k Hk; symmetry; auto]. apply opt_checks2_iff in Hr. rewrite Hr. cbn [rbind]. eauto.
Qed.
(** what is refused is refused with an exception of the planner; it is a ConfigException unless the time for the availability or the type of the topology file is at fault *)
Theorem optimizer_rejected kw : optimizer_typed (setting optimizer_defaults kw) -> ~ optimizer_ok (setting optimizer_defaults kw) ->
  optimizer_params kw = Err ConfigExn \/
  (optimizer_params kw = Err PlannerExn /\ ~ range (setting optimizer_defaults kw "availability_max_time") (fun x => 0 < x)%Q) \/
  (optimizer_params kw = Err DataExn /\ ~ extension ["kml"; "kmz"; "zip"] (setting optimizer_defaults kw "candidate_topology_file_path")).
Proof.
  intros ((l & El & Ht) & H1 & H2 & H3) Hn. destruct (optimizer_params kw) as [o|x] eqn:Ep; [destruct Hn; apply optimizer_iff; eauto|].
  destruct (opt_fill kw) as [e E]; [eapply opt_given; eauto|]. unfold optimizer_params in Ep. rewrite E in Ep. cbn [rbind] in Ep. pose proof (opt_setting kw e E) as Ev. rewrite (Ev "device_list"), El in Ep by names.
  cbn [devices rbind] in Ep. rewrite checks1 in Ep. destruct (is_nil l); cbn [rbind] in Ep; [left; now symmetry|].
  destruct (check_duplicated_iff l [] Ht) as [_ [Hd|Hd]]; rewrite Hd in Ep; cbn [rbind] in Ep; [|left; now symmetry].
  destruct (asserts_err (opt_checks2 e)) as [Ea|(q & Hq & Ea & Ef)].
  - intros q Hq. unfold opt_checks2 in Hq. rewrite !(Ev _) in Hq by names. apply in_app_iff in Hq. destruct Hq as [Hq|Hq].
    + unfold config in Hq. apply in_map_iff in Hq. destruct Hq as (c & <- & Hc). cbn [fst].
      repeat (destruct Hc as [<-|Hc]); [..|contradiction]; try (now eauto); try (evaluable; apply H1; names).
      * destruct (truthy _); [|eauto]. apply cmp_num, H1. names.
      * destruct (_ || _); [|eauto]. apply cmp_num, H1. names.
    + destruct Hq as [<-|[<-|[]]]; cbn [fst]; [apply cmp_num, H1; names|]. unfold extension_ok, extension_in. destruct H3 as [->|[s ->]]; cbn [is_none]; eauto.
  - rewrite Ea in Ep. discriminate.
  - rewrite Ea in Ep. cbn [rbind] in Ep. injection Ep as <-. unfold opt_checks2 in Hq. rewrite !(Ev _) in Hq by names. apply in_app_iff in Hq. destruct Hq as [Hq|Hq].
    + left. unfold config in Hq. apply in_map_iff in Hq. destruct Hq as (c & <- & Hc). reflexivity.
    + right. destruct Hq as [<-|[<-|[]]]; cbn [fst snd] in *.
      * left. split; [reflexivity|]. rewrite <- range_gt. congruence.
      * right. split; [reflexivity|]. intros Hx. assert (Hy : extension_ok ["kml"; "kmz"; "zip"] (setting optimizer_defaults kw "candidate_topology_file_path") = Ok true).
        { apply extension_ok_iff; [plain_exts|now right]. }
        congruence.
Qed.

(** ** the project's parameters *)
Lemma dset_fold_get (e : dict string val) ks : forall s k, dget (fold_left (fun s k => dset s k (at_ e k)) ks s) k = if mem k ks then Some (at_ e k) else dget s k.
Proof.
  induction ks as [|k1 ks IH]; intros s k; [reflexivity|]. cbn [fold_left mem]. rewrite IH, dget_set. destruct (mem k ks) eqn:Em; [now rewrite Bool.orb_true_r|].
  rewrite Bool.orb_false_r. destruct (beq_spec k k1) as [->|?]; reflexivity.
Qed.
