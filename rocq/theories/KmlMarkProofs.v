(** Proofs: reading back one placemark. *)
From Coq Require Import ZArith QArith Ascii Lia.
From Verif Require Import Base Dict TopologyModel SetupModel LosRangeModel RfModel ConfModel MonadLib KmlModel KmlSpec KmlTextProofs.
Local Open Scope string_scope.
Local Open Scope list_scope.

Lemma text_escape s : readable s -> text (escape s) = Ok s.
Proof. intros H. unfold text, opt_text. now rewrite text_recovered. Qed.
Lemma text_word s : word s -> text s = Ok s.
Proof. intros H. unfold text, opt_text. now rewrite word_text. Qed.
Lemma status_readable s : readable (status_name s).
Proof. destruct s; cbn; unfold ordinary, code; cbn; repeat split; lia. Qed.
Lemma site_type_readable s : readable (site_type_name s).
Proof. destruct s; cbn; unfold ordinary, code; cbn; repeat split; lia. Qed.
Lemma link_type_readable s : readable (link_type_name s).
Proof. destruct s; cbn; unfold ordinary, code; cbn; repeat split; lia. Qed.
Lemma location_readable s : readable (location_name s).
Proof. destruct s; cbn; unfold ordinary, code; cbn; repeat split; lia. Qed.
Lemma polarity_readable s : readable (polarity_name s).
Proof. destruct s; cbn; unfold ordinary, code; cbn; repeat split; lia. Qed.
Lemma na_readable o : (forall v, o = Some v -> readable v) -> readable (na o).
Proof. destruct o; cbn [na]; [auto|]. intros _. cbn; unfold ordinary, code; cbn; repeat split; lia. Qed.
Lemma name_readable s : site_texts s -> readable (k_name s).
Proof. intros (A & _ & B & _). unfold k_name. destruct (beq (k_given s) ""); [now apply word_readable|exact A]. Qed.

Lemma ok_inj {A} (a b : A) : Ok a = Ok b -> a = b.
Proof. congruence. Qed.
Section reading.
Variables (num : Q -> string) (attribute : klink -> string -> option string) (pop : list string -> string).
Hypothesis Hnum : float_text num.
Hypothesis Hattr : attribute_text attribute.
Hypothesis Hpop : picks pop.

Lemma pop1 k : pop [k] = k.
Proof. destruct (Hpop [k]) as [E|E]; [discriminate|now symmetry|destruct E]. Qed.

Definition site_feature (s : ksite) : feature :=
  [("Name", k_name s); ("altitudeMode", altitude_mode (k_alt s)); ("Site_Type", site_type_name (k_type s)); ("Site_Geohash", k_hash s);
   ("Altitude", na (option_map num (k_alt s))); ("Status", status_name (k_status s)); ("Polarity", polarity_name (k_polarity s));
   ("Location_Type", location_name (k_location s)); ("Device_SKU", k_sku s); ("Number_of_Subscribers", str_N (subscribers s))].
Lemma read_site s : site_texts s -> read_mark (site_mark num s) = Ok (site_feature s, Point (k_lon s) (k_lat s) (z_of (k_alt s))).
Proof.
  intros H. pose proof (name_readable s H) as HN. destruct H as (A & B & C & D). unfold read_mark, site_mark, site_fields. cbn [p_name p_data p_mode p_geometry mapM fst snd].
  rewrite (text_escape _ HN), (text_escape _ (site_type_readable _)), (text_escape _ (word_readable _ D)), (text_escape _ (status_readable _)),
    (text_escape _ (polarity_readable _)), (text_escape _ (location_readable _)), (text_escape _ B), (text_escape _ (word_readable _ (str_N_word _))).
  rewrite text_escape. 2: { apply na_readable. destruct (k_alt s); cbn; [|discriminate]. intros v E. injection E as <-. apply Hnum. }
  reflexivity.
Qed.

Ltac getf := unfold get_field; match goal with |- context[filter ?f ?l] => let x := eval vm_compute in (filter f l) in change (filter f l) with x end; cbv iota; rewrite ?pop1; reflexivity.
Lemma f_sku s : get_field pop (site_feature s) sku_names = k_sku s.
Proof. getf. Qed.
Lemma f_name s : get_field pop (site_feature s) name_names = k_name s.
Proof. getf. Qed.
Lemma f_mode s : get_field pop (site_feature s) mode_names = altitude_mode (k_alt s).
Proof. getf. Qed.
Lemma f_location s : get_field pop (site_feature s) location_names = location_name (k_location s).
Proof. getf. Qed.
Lemma f_building s : get_field pop (site_feature s) building_names = "".
Proof. getf. Qed.
Lemma f_subscribers s : get_field pop (site_feature s) subscriber_names = str_N (subscribers s).
Proof. getf. Qed.

Lemma shown_eq s : shown s = k_name s.
Proof. reflexivity. Qed.
Lemma people_of s : people s (subscribers s).
Proof.
  unfold people, subscribers. destruct (k_type s); split; intros H; try reflexivity; try discriminate; try (now contradiction H).
  destruct (k_subscribers s) as [[|p]|]; reflexivity.
Qed.
Lemma kind_iff l t : kind l t <-> e_type l = t.
Proof.
  unfold kind, e_type. destruct (e_wireless l); cbn [negb].
  - destruct (k_type (e_rx l)); split.
    + intros (_ & H & _). symmetry. now apply H.
    + intros <-. split; [discriminate|]. split; [reflexivity|]. intros _ N. now contradiction N.
    + intros (_ & _ & H). symmetry. now apply H.
    + intros <-. split; [discriminate|]. split; [discriminate|]. reflexivity.
    + intros (_ & _ & H). symmetry. now apply H.
    + intros <-. split; [discriminate|]. split; [discriminate|]. reflexivity.
  - split.
    + intros (H & _). symmetry. now apply H.
    + intros <-. split; [reflexivity|]. split; discriminate.
Qed.
Lemma site_back ty st s : k_type s = ty -> k_status s = st ->
  same_site s (extract_site pop ty st (site_feature s, Point (k_lon s) (k_lat s) (z_of (k_alt s)))).
Proof.
  intros <- <-. unfold extract_site. rewrite f_sku, f_name, f_mode, f_location, f_building, f_subscribers, int_of_str.
  destruct (altitude_height (altitude_mode (k_alt s)) (g_z (Point (k_lon s) (k_lat s) (z_of (k_alt s))))) as [alt h] eqn:E.
  assert (Ea : alt = k_alt s /\ h = None). { destruct (k_alt s); cbn in E; injection E as <- <-; auto. } destruct Ea as [-> ->].
  unfold same_site. cbn [r_type r_status r_sku r_name r_lat r_lon r_alt r_height r_location r_building r_subscribers g_x g_y].
  repeat (split; [reflexivity|]). split; [destruct (k_location s); reflexivity|]. split; [destruct (k_location s); reflexivity|].
  exists (subscribers s). split; [reflexivity|apply people_of].
Qed.

Definition rf_feature (l : klink) : feature :=
  let v n := (launder n, na (attribute l n)) in let w n := (launder n, match attribute l n with Some x => x | None => "0" end) in
  if e_wireless l then
    [w "Tx Beam Azimuth"; w "Rx Beam Azimuth"; v "Deviation from Tx Boresight"; v "Deviation from Rx Boresight"; v "Deviation from El Boresight";
     v "Tx Power (dBm)"; v "Estimated MCS"; v "Estimated SNR (dB)"; v "Estimated SINR (dB)"; v "Estimated RSL"]
  else [].
Definition link_feature (l : klink) (c : string) : feature :=
  let v n := (launder n, na (attribute l n)) in
  [("Name", e_hash l); ("altitudeMode", altitude_mode (k_alt (e_tx l)));
   (launder "Link Type", link_type_name (e_type l)); (launder "Tx Site Name", k_name (e_tx l)); (launder "Rx Site Name", k_name (e_rx l));
   (launder "Status", status_name (e_status l)); v "Distance"; v "Data Flow (Gbps)"; v "Throughput (Gbps)"; v "Utilization"]
  ++ rf_feature l ++ [(launder "Confidence Level", na (option_map num (e_confidence l))); (launder "Channel", c)].
Definition link_line (l : klink) : geometry :=
  Line (k_lon (e_tx l)) (k_lat (e_tx l)) (z_of (k_alt (e_tx l))) (k_lon (e_rx l)) (k_lat (e_rx l)) (z_of (k_alt (e_rx l))).

Lemma hash_word l : site_texts (e_tx l) -> site_texts (e_rx l) -> word (e_hash l).
Proof.
  intros (_ & _ & _ & A) (_ & _ & _ & B). unfold e_hash, end_hash. unfold word in *.
  assert (T : forall t, every word_char (site_type_name t)) by (intros []; cbn; unfold word_char, code; cbn; repeat split; lia).
  assert (U : every word_char "_") by (cbn; unfold word_char, code; cbn; repeat split; lia).
  assert (V : every word_char "-") by (cbn; unfold word_char, code; cbn; repeat split; lia).
  destruct (str_ltb _ _); rewrite !every_app; auto 10.
Qed.
Definition pair_of (kv : string * string) : result (string * string) := do v <- text (snd kv) ; Ok (launder (fst kv), v).
Lemma mapM_app {A B} (f : A -> result B) a b : mapM f (a ++ b) = do x <- mapM f a ; do y <- mapM f b ; Ok (x ++ y).
Proof.
  induction a as [|x a IH]; cbn [mapM app]; [destruct (mapM f b); reflexivity|].
  destruct (f x); [|reflexivity]. rewrite IH. destruct (mapM f a); [|reflexivity]. cbn. destruct (mapM f b); reflexivity.
Qed.
Lemma pair_escape n v : readable v -> pair_of (n, escape v) = Ok (launder n, v).
Proof. intros H. unfold pair_of. cbn [fst snd]. now rewrite text_escape. Qed.
Lemma attr_readable l n : readable (na (attribute l n)).
Proof. apply na_readable. intros v. apply Hattr. Qed.
Lemma pair_attr l n : pair_of (n, escape (na (attribute l n))) = Ok (launder n, na (attribute l n)).
Proof. apply pair_escape, attr_readable. Qed.
Lemma pair_azimuth l n : pair_of (n, match attribute l n with Some v => escape v | None => "0" end) = Ok (launder n, match attribute l n with Some v => v | None => "0" end).
Proof. destruct (attribute l n) eqn:E; [|reflexivity]. apply pair_escape. eapply Hattr, E. Qed.

Lemma read_link t l p : site_texts (e_tx l) -> site_texts (e_rx l) -> link_mark num attribute t l = Ok p ->
  exists c, read_mark p = Ok (link_feature l c, link_line l).
Proof.
  intros Ht Hr E. unfold link_mark, link_fields in E. destruct (guard _ _) in E; [|discriminate]. cbn [rbind] in E.
  destruct (e_channel l) as [c|] eqn:Ec; [|discriminate]. cbn [rbind] in E. apply ok_inj in E. subst p.
  exists (if (-1 <? c)%Z then str_Z c else "UNASSIGNED").
  assert (Wc : word (if (-1 <? c)%Z then str_Z c else "UNASSIGNED")).
  { destruct (-1 <? c)%Z; [apply str_Z_word|]. cbn; unfold word_char, code; cbn; repeat split; lia. }
  unfold read_mark. cbn [p_name p_data p_mode p_geometry]. rewrite (text_word _ (hash_word l Ht Hr)). cbn [rbind].
  change (fun kv : string * string => do v <- text (snd kv) ; Ok (launder (fst kv), v)) with pair_of.
  rewrite !mapM_app. 
  match goal with |- context[mapM pair_of (?a :: ?b)] => set (front := a :: b) end.
  assert (Ef : mapM pair_of front = Ok [(launder "Link Type", link_type_name (e_type l)); (launder "Tx Site Name", k_name (e_tx l)); (launder "Rx Site Name", k_name (e_rx l));
   (launder "Status", status_name (e_status l)); (launder "Distance", na (attribute l "Distance")); (launder "Data Flow (Gbps)", na (attribute l "Data Flow (Gbps)"));
   (launder "Throughput (Gbps)", na (attribute l "Throughput (Gbps)")); (launder "Utilization", na (attribute l "Utilization"))]).
  { unfold front. cbn [mapM]. rewrite (pair_escape _ _ (link_type_readable _)), (pair_escape _ _ (name_readable _ Ht)), (pair_escape _ _ (name_readable _ Hr)),
     (pair_escape _ _ (status_readable _)), !pair_attr. reflexivity. }
  rewrite Ef. clear front Ef. cbn [rbind].
  assert (Er : mapM pair_of (if e_wireless l then
    [("Tx Beam Azimuth", match attribute l "Tx Beam Azimuth" with Some v => escape v | None => "0" end); ("Rx Beam Azimuth", match attribute l "Rx Beam Azimuth" with Some v => escape v | None => "0" end);
     ("Deviation from Tx Boresight", escape (na (attribute l "Deviation from Tx Boresight"))); ("Deviation from Rx Boresight", escape (na (attribute l "Deviation from Rx Boresight")));
     ("Deviation from El Boresight", escape (na (attribute l "Deviation from El Boresight"))); ("Tx Power (dBm)", escape (na (attribute l "Tx Power (dBm)")));
     ("Estimated MCS", escape (na (attribute l "Estimated MCS"))); ("Estimated SNR (dB)", escape (na (attribute l "Estimated SNR (dB)")));
     ("Estimated SINR (dB)", escape (na (attribute l "Estimated SINR (dB)"))); ("Estimated RSL", escape (na (attribute l "Estimated RSL")))] else []) = Ok (rf_feature l)).
  { unfold rf_feature. destruct (e_wireless l); [|reflexivity]. cbn [mapM]. rewrite !pair_attr, !pair_azimuth. reflexivity. }
  rewrite Er. cbn [rbind mapM]. rewrite pair_escape.
  2: { apply na_readable. destruct (e_confidence l); cbn; [|discriminate]. intros v Ev. injection Ev as <-. apply Hnum. }
  unfold pair_of. cbn [fst snd]. rewrite (text_word _ Wc). reflexivity.
Qed.

Lemma g_type l c : get_field pop (link_feature l c) link_type_names = link_type_name (e_type l).
Proof. unfold link_feature, rf_feature. destruct (e_wireless l); getf. Qed.
Lemma g_tx l c : get_field pop (link_feature l c) tx_names = k_name (e_tx l).
Proof. unfold link_feature, rf_feature. destruct (e_wireless l); getf. Qed.
Lemma g_rx l c : get_field pop (link_feature l c) rx_names = k_name (e_rx l).
Proof. unfold link_feature, rf_feature. destruct (e_wireless l); getf. Qed.
Lemma g_conf l c : get_field pop (link_feature l c) confidence_names = na (option_map num (e_confidence l)).
Proof. unfold link_feature, rf_feature. destruct (e_wireless l); getf. Qed.
Lemma num_not_decimal q : isdecimal (num q) = false.
Proof.
  destruct (Hnum q) as [_ N]. unfold isdecimal. destruct (all_digits (num q)) eqn:E; [|now rewrite andb_false_r].
  exfalso. apply N. revert E. generalize (num q). intros s. induction s as [|c s IH]; [cbn; auto|]. cbn [all_digits]. rewrite andb_true_iff.
  intros [A B]. split; [|auto]. unfold digit in A. apply andb_prop in A. destruct A as [A1 A2]. apply Nat.leb_le in A1, A2. unfold code. lia.
Qed.
Lemma link_back st l c : e_status l = st -> same_link l (extract_link pop st (link_feature l c, link_line l)).
Proof.
  intros <-. unfold extract_link. rewrite g_type, g_tx, g_rx, g_conf. unfold same_link.
  cbn [w_type w_status w_tx w_rx w_tx_lat w_tx_lon w_rx_lat w_rx_lon w_confidence g_point link_line fst snd Nat.eqb].
  split; [apply kind_iff; destruct (e_type l); reflexivity|]. repeat (split; [reflexivity|]).
  destruct (e_confidence l); cbn [option_map na]; [|reflexivity]. unfold int_of. now rewrite num_not_decimal.
Qed.
End reading.
