(** Configuration objects survive the conversion to a dictionary and back. *)
From Coq Require Import ZArith QArith Lqa Ascii Lia.
From Verif Require Import Base Dict QLib TopologyModel SetupModel LosRangeModel MonadLib ConfModel ConfSpec ConfProofs ConfLosProofs ConfOptProofs ConfFileProofs ConfRadioProofs.
Local Open Scope string_scope.
Local Open Scope list_scope.


(** ** [to_dict] *)
Definition item (o : val) : result (list val) :=
  match o with
  | VObj c' _ => if config_class c' then do d <- to_dict o ; Ok [d] else Ok []
  | VBool _ | VNum _ | VStr _ => Ok [o]
  | _ => Ok []
  end.
Definition tov (x : val) : result val :=
  match x with
  | VNone | VBool _ | VNum _ | VStr _ => Ok x
  | VList l => do l <- (fix items (l : list val) : result (list val) := match l with [] => Ok [] | o :: l => do h <- item o ; do t <- items l ; Ok (h ++ t) end) l ; Ok (VList l)
  | VObj c' _ => if config_class c' then to_dict x else Err PlannerExn
  | VEnum _ m => Ok (VStr m)
  | _ => Err PlannerExn
  end.
Lemma to_dict_unfold c a : to_dict (VObj c a) = if config_class c then do d <- mapM (fun q => do y <- tov (snd q) ; Ok (fst q, y)) a ; Ok (VDict d) else Err PlannerExn.
Proof.
  cbn [to_dict]. destruct (config_class c); [|reflexivity]. f_equal. induction a as [|[k x] a IH]; [reflexivity|]. cbn [mapM fst snd]. rewrite <- IH. match goal with |- rbind ?r ?f = _ => transitivity (rbind (tov x) f); [destruct x; reflexivity|] end. destruct (tov x); reflexivity.
Qed.
Lemma to_dict_ok c a : config_class c = true -> (forall k x, In (k, x) a -> exists y, tov x = Ok y) ->
  exists d, to_dict (VObj c a) = Ok (VDict d) /\ Forall2 (fun p q => fst q = fst p /\ tov (snd p) = Ok (snd q)) a d.
Proof.
  intros Hc H. rewrite to_dict_unfold, Hc. clear Hc. assert (G : exists d, mapM (fun q => do y <- tov (snd q) ; Ok (fst q, y)) a = Ok d /\ Forall2 (fun p q => fst q = fst p /\ tov (snd p) = Ok (snd q)) a d).
  { induction a as [|[k x] a IH]; [exists []; split; [reflexivity|constructor]|]. destruct (H k x (or_introl eq_refl)) as [y Ey]. destruct IH as (d & Ed & Fd); [intros k' x' Hin; apply (H k' x'); now right|].
    exists ((k, y) :: d). cbn [mapM fst snd]. rewrite Ey. cbn [rbind]. rewrite Ed. split; [reflexivity|]. constructor; [auto|exact Fd]. }
  destruct G as (d & -> & F). exists d. split; [reflexivity|exact F].
Qed.
Lemma flat_tov v : flat v -> tov v = Ok v. Proof. destruct v; cbn; try contradiction; reflexivity. Qed.
Lemma forall2_keys {R : val -> val -> Prop} (a d : dict string val) : Forall2 (fun p q => fst q = fst p /\ R (snd p) (snd q)) a d -> map fst d = map fst a.
Proof. intros F. induction F as [|p q a d [H _] F IH]; [reflexivity|]. cbn. now rewrite H, IH. Qed.
Lemma forall2_get {R : val -> val -> Prop} (a d : dict string val) k y : Forall2 (fun p q => fst q = fst p /\ R (snd p) (snd q)) a d -> dget d k = Some y -> exists x, dget a k = Some x /\ R x y.
Proof.
  intros F. induction F as [|[k1 x1] [k2 y2] a d [H1 H2] F IH]; [discriminate|]. cbn in H1, H2. subst k2. cbn. destruct (beq k k1); [intros [= <-]; eauto|exact IH].
Qed.

(** ** dictionaries *)
Lemma merge_get b : forall (a : dict string val) k, NoDup (map fst b) -> dget (merge a b) k = match dget b k with Some v => Some v | None => dget a k end.
Proof.
  unfold merge. induction b as [|[k1 v1] b IH]; intros a k Hn; [reflexivity|]. cbn [fold_left fst snd]. inversion Hn as [|? ? H1 H2]; subst. rewrite (IH _ _ H2). cbn [dget]. destruct (beq_spec k k1) as [Ek|Hk].
  - subst k. rewrite (proj2 (dget_None_keys b k1) H1). now rewrite dget_set_eq.
  - destruct (dget b k); [reflexivity|]. now rewrite dget_set_neq by exact Hk.
Qed.
Lemma low_id l : (forall k, In k (map fst l) -> casefold k = k) -> map low l = l.
Proof. induction l as [|[k v] l IH]; intros H; [reflexivity|]. cbn. unfold low at 1. cbn. rewrite (H k (or_introl eq_refl)), IH; [reflexivity|]. intros k' Hk'. apply H. now right. Qed.
Lemma lower_id l : NoDup (map fst l) -> (forall k, In k (map fst l) -> casefold k = k) -> lower_keys l = l.
Proof. intros Hn H. rewrite lower_merge, (low_id l H). now rewrite merge_nil by exact Hn. Qed.

(** ** [from_dict] *)
Section Trip.
Variable sub : string -> dict string val -> result val.
Variable args : params.
Variable prop : dict string val.
Variable w : string -> val.
Let names_ := map fst args.
Definition entry_ok (k : string) (v : val) : Prop :=
  (In k names_ /\ enum_of k = None /\ flat v /\ v = w k)
  \/ (In k names_ /\ exists c, enum_of k = Some c /\ ((v = VNone /\ w k = VNone) \/ (is_none v = false /\ from_string c v = Ok (w k))))
  \/ (In k names_ /\ enum_of k = None /\ exists d', v = VDict d' /\ class_key k = true /\ sub k (merge d' prop) = Ok (w k))
  \/ (In k names_ /\ enum_of k = None /\ exists l l', v = VList l /\ mapM (element sub k prop) l = Ok l' /\ w k = VList l')
  \/ (~ In k names_ /\ forall d', v = VDict d' -> forall key x, In (key, x) d' -> In (casefold key) names_ -> x = w (casefold key)).
Definition agrees (kw : dict string val) : Prop := forall k x, dget kw k = Some x -> x = w k.
Lemma agrees_set kw k : agrees kw -> agrees (dset kw k (w k)).
Proof. intros H k' x. rewrite dget_set. destruct (beq_spec k' k) as [E|_]; [intros [= <-]; now subst|apply H]. Qed.
Lemma kept_set (kw : dict string val) k v k' : dget kw k' <> None -> dget (dset kw k v) k' <> None.
Proof. rewrite dget_set. destruct (beq k' k); [discriminate|auto]. Qed.
Lemma flatten_agrees d' : (forall key x, In (key, x) d' -> In (casefold key) names_ -> x = w (casefold key)) -> forall kw, agrees kw ->
  agrees (fold_left (fun kw q => if mem (casefold (fst q)) names_ then dset kw (casefold (fst q)) (snd q) else kw) d' kw) /\
  forall k, dget kw k <> None -> dget (fold_left (fun kw q => if mem (casefold (fst q)) names_ then dset kw (casefold (fst q)) (snd q) else kw) d' kw) k <> None.
Proof.
  induction d' as [|[key x] d' IH]; intros H kw Ha; [auto|]. cbn [fold_left fst snd]. specialize (IH (fun k y Hin => H k y (or_intror Hin))).
  destruct (mem (casefold key) names_) eqn:Em; [|apply IH; exact Ha]. apply mem_In in Em. rewrite (H key x (or_introl eq_refl) Em).
  destruct (IH _ (agrees_set _ (casefold key) Ha)) as [I1 I2]. split; [exact I1|]. intros k Hk. apply I2. now apply kept_set.
Qed.
Lemma take_agrees k v kw : entry_ok k v -> agrees kw -> exists kw', take sub names_ prop kw (k, v) = Ok kw' /\ agrees kw' /\ (forall k', dget kw k' <> None -> dget kw' k' <> None) /\ (In k names_ -> w k <> VNone -> dget kw' k <> None).
Proof.
  assert (Hset : agrees kw -> exists kw', Ok (dset kw k (w k)) = Ok kw' /\ agrees kw' /\ (forall k', dget kw k' <> None -> dget kw' k' <> None) /\ (In k names_ -> w k <> VNone -> dget kw' k <> None)).
  { intros Ha. eexists. split; [reflexivity|]. split; [now apply agrees_set|]. split; [intros k'; apply kept_set|]. intros _ _. rewrite dget_set_eq. discriminate. }
  unfold take. intros [(Hk & He & Hf & Hv)|[(Hk & c & He & Hv)|[(Hk & He & d' & -> & Hc & Hv)|[(Hk & He & l & l' & -> & Hv & Hw)|(Hk & Hv)]]]] Ha.
  - rewrite (proj2 (mem_In k names_) Hk), He. destruct v; try contradiction; try (rewrite Hv; now apply Hset). eexists. split; [reflexivity|]. split; [exact Ha|]. split; [auto|]. intros _ Hn. destruct Hn. now symmetry.
  - rewrite (proj2 (mem_In k names_) Hk), He. destruct Hv as [[-> Hw]|[Hn Hv]].
    + eexists. split; [reflexivity|]. split; [exact Ha|]. split; [auto|]. intros _ Hn. now destruct Hn.
    + rewrite Hn, Hv. cbn [rbind]. now apply Hset.
  - rewrite (proj2 (mem_In k names_) Hk), He, Hc, Hv. cbn [rbind]. now apply Hset.
  - rewrite (proj2 (mem_In k names_) Hk), He, Hv. cbn [rbind]. rewrite <- Hw. now apply Hset.
  - rewrite (proj2 (mem_not_In k names_) Hk). assert (Hid : exists kw', Ok kw = Ok kw' /\ agrees kw' /\ (forall k', dget kw k' <> None -> dget kw' k' <> None) /\ (In k names_ -> w k <> VNone -> dget kw' k <> None)).
    { eexists. split; [reflexivity|]. split; [exact Ha|]. split; [auto|]. intros H. now destruct Hk. }
    destruct v; try exact Hid. destruct (flatten_agrees d (Hv d eq_refl) kw Ha) as [I1 I2]. eexists. split; [reflexivity|]. split; [exact I1|]. split; [exact I2|]. intros H. now destruct Hk.
Qed.
Lemma fold_agrees l : (forall k v, In (k, v) l -> entry_ok k v) -> forall kw, agrees kw -> exists kw', foldM (take sub names_ prop) kw l = Ok kw' /\ agrees kw' /\
  (forall k', dget kw k' <> None -> dget kw' k' <> None) /\ forall k, In k (map fst l) -> In k names_ -> w k <> VNone -> dget kw' k <> None.
Proof.
  induction l as [|[k v] l IH]; intros H kw Ha; [exists kw; split; [reflexivity|]; split; [exact Ha|]; split; [auto|contradiction]|].
  destruct (take_agrees k v kw (H k v (or_introl eq_refl)) Ha) as (kw1 & E1 & A1 & K1 & C1). destruct (IH (fun k' v' Hin => H k' v' (or_intror Hin)) kw1 A1) as (kw2 & E2 & A2 & K2 & C2).
  exists kw2. cbn [foldM]. rewrite E1. cbn [rbind]. split; [exact E2|]. split; [exact A2|]. split; [auto|]. intros k' [<-|Hk'] Hn Hw; [|now apply C2]. apply K2. now apply C1.
Qed.
Lemma from_round build : NoDup (map fst prop) -> (forall k, In k (map fst prop) -> casefold k = k) -> (forall k v, In (k, v) prop -> entry_ok k v) ->
  (forall a, In a args -> In (fst a) (map fst prop) /\ (w (fst a) = VNone -> snd a = Some VNone)) ->
  exists kw, from_dict sub args build prop = build kw /\ fill args kw = Ok (map (fun a => (fst a, w (fst a))) args).
Proof.
  intros Hn Hl He Ha. unfold from_dict. rewrite (lower_id prop Hn Hl). destruct (fold_agrees prop He []) as (kw & E & A & _ & C); [intros k x; discriminate|].
  fold names_. rewrite E. cbn [rbind]. fold (given kw). exists (given kw). split; [reflexivity|].
  pose proof (fold_take_nodup sub names_ prop prop [] kw (NoDup_nil _) E) as Hkn.
  assert (G : forall a, In a args -> match dget (given kw) (fst a) with Some v => Ok (fst a, v) | None => match snd a with Some d => Ok (fst a, d) | None => Err PyTypeError end end = Ok (fst a, w (fst a))).
  { intros a Hin. destruct (Ha a Hin) as [Hp Hd]. destruct (dget (given kw) (fst a)) as [x|] eqn:Eg.
    - apply given_Some in Eg; [|exact Hkn]. now rewrite (A _ _ (proj1 Eg)).
    - destruct (is_none (w (fst a))) eqn:Ew; [apply is_none_true in Ew; rewrite (Hd Ew), Ew; reflexivity|]. apply is_none_false in Ew. exfalso.
      specialize (C (fst a) Hp (in_map fst _ _ Hin) Ew). destruct (dget kw (fst a)) as [x|] eqn:Ek; [|now apply C]. pose proof (A _ _ Ek) as ->.
      rewrite given_get in Eg; [congruence| |exact Hkn]. intros v. rewrite Ek. intros [= <-]. exact Ew. }
  unfold fill. clear - G. induction args as [|a l IH]; [reflexivity|]. cbn [mapM map]. rewrite (G a (or_introl eq_refl)). cbn [rbind]. rewrite IH; [reflexivity|]. intros b Hb. apply G. now right.
Qed.
End Trip.
Lemma fill_map (args : params) kw e : NoDup (map fst args) -> fill args kw = Ok e -> e = map (fun a => (fst a, at_ e (fst a))) args.
Proof.
  intros Hn E. pose proof (fill_keys args kw e E) as Hk. assert (G : forall l : params, forall r, NoDup (map fst l) -> map fst r = map fst l -> r = map (fun a => (fst a, at_ r (fst a))) l).
  { induction l as [|[k x] l IH]; intros [|[k' y] r] Hd He; try discriminate; [reflexivity|]. cbn in He. injection He as -> He. inversion Hd as [|? ? H1 H2]; subst. cbn [map fst]. f_equal.
    - unfold at_. cbn. now rewrite beq_refl.
    - rewrite (IH r H2 He) at 1. apply map_ext_in. intros a Ha. f_equal. unfold at_. cbn. destruct (beq_spec (fst a) k) as [Ek|_]; [|reflexivity]. destruct H1. rewrite <- Ek. now apply in_map. }
  now apply G.
Qed.

Section Rf.
Variable rf : string -> val -> list val -> result val.
Local Notation reads_tables := (reads_tables rf).
Local Notation device_plain := (device_plain rf).
Local Notation devices_plain := (devices_plain rf).
(** ** sectors *)
(** the settings of a sector that can be written down: scalars, and no antenna patterns *)
Lemma rows_tov l : (forall x, In x l -> exists i, x = VOpaque i) -> tov (VList l) = Ok (VList []).
Proof.
  intros H. cbn [tov]. match goal with |- rbind ?r _ = _ => assert (G : r = Ok []) end; [|now rewrite G].
  induction l as [|x l IH]; [reflexivity|]. destruct (H x (or_introl eq_refl)) as [i ->]. cbn [item rbind]. rewrite IH; [reflexivity|]. intros y Hy. apply H. now right.
Qed.
Definition sector_keys : list string := map fst sector_args ++ ["antenna_pattern_data"; "scan_pattern_data"; "mcs_map"].
Lemma sector_nodup : NoDup (map fst sector_args). Proof. apply nodup_dec. reflexivity. Qed.
Fixpoint distinct (l : list string) : bool := match l with [] => true | x :: l => negb (mem x l) && distinct l end.
Lemma distinct_nodup l : distinct l = true -> NoDup l.
Proof. induction l as [|x l IH]; [constructor|]. cbn. intros H. apply andb_true_iff in H. destruct H as [H1 H2]. constructor; [|auto]. apply mem_not_In. now apply negb_true_iff. Qed.
Lemma sector_shape kws s : reads_tables -> sector_params rf kws = Ok s -> sector_plain (setting sector_defaults kws) ->
  exists a m, s = VObj "SectorParams" a /\ NoDup (map fst a) /\ (forall k, In k (map fst a) <-> In k sector_keys) /\ (forall k, In k (map fst sector_args) -> dget a k = Some (setting sector_defaults kws k)) /\
    dget a "antenna_pattern_data" = Some VNone /\ dget a "scan_pattern_data" = Some VNone /\ dget a "mcs_map" = Some m /\ tov m = Ok (VList []).
Proof.
  intros Hr E (Hp & Ht & Ha & Hs). pose proof (fun k => sector_values rf kws s k E) as Hv. unfold sector_params in E. apply rbind_ok in E. destruct E as (e & Ee & E). pose proof (fun k => fill_at _ _ _ _ k sector_documented Ee) as Ev.
  assert (Ea : at_ e "antenna_pattern_file_path" = VNone) by (rewrite Ev by names; exact Ha). assert (Es : at_ e "scan_pattern_file_path" = VNone) by (rewrite Ev by names; exact Hs).
  apply rbind_ok in E. destruct E as ([] & _ & E). rewrite Ea in E. cbn [load is_none rbind] in E. rewrite Es in E. cbn [load is_none rbind] in E. apply rbind_ok in E. destruct E as (m & Em & E).
  match type of E with Ok (VObj _ ?a) = _ => set (al := a) in E; exists al, m end. injection E as <-.
  assert (Hk : map fst al = ["antenna_boresight_gain"; "maximum_tx_power"; "number_sectors_per_node"; "horizontal_scan_range"; "carrier_frequency"; "thermal_noise_power"; "noise_figure"; "rain_rate"; "link_availability_percentage";
    "tx_diversity_gain"; "rx_diversity_gain"; "tx_miscellaneous_loss"; "rx_miscellaneous_loss"; "minimum_mcs_level"; "minimum_tx_power"; "antenna_pattern_file_path"; "antenna_pattern_data"; "scan_pattern_file_path"; "scan_pattern_data"; "mcs_map_file_path"; "mcs_map"]) by reflexivity.
  split; [reflexivity|]. split; [rewrite Hk; apply distinct_nodup; reflexivity|]. split.
  { intros k. rewrite Hk. unfold sector_keys. assert (G : forall l l' : list string, forallb (fun x => mem x l') l = true -> In k l -> In k l'). { intros l l' H Hin. rewrite forallb_forall in H. apply mem_In. now apply H. }
    split; apply G; vm_compute; reflexivity. }
  split; [intros k Hin; apply (proj1 (attribute_iff "SectorParams" al k _)); apply Hv; exact Hin|]. split; [reflexivity|]. split; [reflexivity|]. split; [reflexivity|].
  unfold load in Em. destruct (is_none (at_ e "mcs_map_file_path")); [injection Em as <-; reflexivity|]. destruct (Hr _ _ _ Em) as (l & -> & Hl). now apply rows_tov.
Qed.
Lemma sector_written kws s : reads_tables -> sector_params rf kws = Ok s -> sector_plain (setting sector_defaults kws) ->
  exists sd, to_dict s = Ok (VDict sd) /\ NoDup (map fst sd) /\ (forall k, In k (map fst sd) <-> In k sector_keys) /\
    forall k v, In (k, v) sd -> (In k (map fst sector_args) /\ v = setting sector_defaults kws k) \/ (~ In k (map fst sector_args) /\ (flat v \/ v = VList [])).
Proof.
  intros Hr E Hpl. destruct (sector_shape kws s Hr E Hpl) as (a & m & -> & Hn & Hk & Hv & Ha & Hs & Hm & Hm'). destruct Hpl as (Hp & _).
  assert (Hcase : forall k x, dget a k = Some x -> (In k (map fst sector_args) /\ x = setting sector_defaults kws k) \/ (~ In k (map fst sector_args) /\ (x = VNone \/ x = m))).
  { intros k x Hx. destruct (in_dec string_dec k (map fst sector_args)) as [Hin|Hin]; [left; split; [exact Hin|]; rewrite (Hv k Hin) in Hx; congruence|]. right. split; [exact Hin|].
    assert (Hka : In k sector_keys). { apply Hk. apply in_map_iff. exists (k, x). split; [reflexivity|now apply dget_In]. }
    unfold sector_keys in Hka. apply in_app_iff in Hka. destruct Hka as [?|[<-|[<-|[<-|[]]]]]; [contradiction|left; congruence|left; congruence|right; congruence]. }
  destruct (to_dict_ok "SectorParams" a eq_refl) as (sd & Ed & F).
  { intros k x Hin. destruct (Hcase k x (In_dget _ _ _ Hn Hin)) as [[Hka ->]|[_ [-> | ->]]]; [|exists VNone; reflexivity|exists (VList []); exact Hm']. eexists. apply flat_tov. now apply Hp. }
  assert (Hks : map fst sd = map fst a) by (eapply (forall2_keys (R := fun x y => tov x = Ok y)); exact F).
  exists sd. split; [exact Ed|]. rewrite Hks. split; [exact Hn|]. split; [exact Hk|]. intros k v Hin. assert (Hns : NoDup (map fst sd)) by (rewrite Hks; exact Hn).
  destruct (forall2_get (R := fun x y => tov x = Ok y) _ _ k v F (In_dget _ _ _ Hns Hin)) as (x & Hx & Hxy). destruct (Hcase k x Hx) as [[Hka ->]|[Hka Hxx]].
  - left. split; [exact Hka|]. rewrite flat_tov in Hxy by (now apply Hp). now injection Hxy as <-.
  - right. split; [exact Hka|]. destruct Hxx as [-> | ->]; [left; injection Hxy as <-; exact I|right; congruence].
Qed.
Lemma range_none P : ~ range VNone P. Proof. intros (x & [?|[[? _]|[? _]]] & _); discriminate. Qed.
Lemma range_some v P : range v P -> v <> VNone. Proof. intros H ->. exact (range_none _ H). Qed.
Lemma merge_keys (a b : dict string val) k : NoDup (map fst b) -> In k (map fst (merge a b)) <-> In k (map fst a) \/ In k (map fst b).
Proof.
  intros Hn. split.
  - intros H. apply in_map_iff in H. destruct H as ([k' v] & <- & Hin). apply merge_In in Hin. destruct Hin as [Hin|Hin]; [left|right]; apply in_map_iff; exists (k', v); auto.
  - intros H. destruct (in_dec string_dec k (map fst (merge a b))) as [?|Hk]; [assumption|]. exfalso. apply dget_None_keys in Hk. rewrite merge_get in Hk by exact Hn.
    destruct (dget b k) eqn:Eb; [discriminate|]. apply dget_None_keys in Eb. apply dget_None_keys in Hk. tauto.
Qed.
Lemma all_names (P : string -> bool) (l : list string) : forallb P l = true -> forall k, In k l -> P k = true.
Proof. rewrite forallb_forall. auto. Qed.
Lemma sector_enum k : In k (map fst sector_args) -> enum_of k = None.
Proof. intros H. pose proof (all_names (fun k => match enum_of k with None => true | _ => false end) (map fst sector_args) eq_refl k H) as G. cbv beta in G. destruct (enum_of k); [discriminate|reflexivity]. Qed.
Lemma sector_low k : In k sector_keys -> casefold k = k.
Proof. intros H. apply beq_eq. exact (all_names (fun k => beq (casefold k) k) sector_keys eq_refl k H). Qed.
Lemma sector_none kws s a : sector_params rf kws = Ok s -> setting sector_defaults kws "thermal_noise_power" <> VNone -> In a sector_args -> setting sector_defaults kws (fst a) = VNone -> snd a = Some VNone.
Proof.
  intros E Ht. destruct (proj1 (sector_iff rf kws) (ex_intro _ s E)) as [((R1 & R2 & R3 & R4) & R5 & R6 & R7 & R8 & R9 & R10 & R11 & _ & R12) _].
  set (v := setting sector_defaults kws) in *. clearbody v. cbn [sector_args In].
  repeat match goal with H : range _ _ |- _ => apply range_some in H end.
  intros Hin. repeat (destruct Hin as [<-|Hin]; [cbn [fst snd]; first [reflexivity | intros; contradiction]|]). contradiction.
Qed.
(** the other keys around a sector do not disturb it *)
Lemma sector_read kws s sd dd P : reads_tables -> sector_params rf kws = Ok s -> sector_plain (setting sector_defaults kws) -> to_dict s = Ok (VDict sd) ->
  NoDup (map fst dd) -> NoDup (map fst P) ->
  (forall k v, In (k, v) dd -> casefold k = k /\ ~ In k (map fst sector_args) /\ (flat v \/ v = VDict sd)) ->
  (forall k v, In (k, v) P -> casefold k = k /\ ((In k (map fst sector_args) /\ v = setting sector_defaults kws k) \/
     (~ In k (map fst sector_args) /\ forall d', v = VDict d' -> forall key x, In (key, x) d' -> ~ In (casefold key) (map fst sector_args)))) ->
  sector_from rf (merge sd (merge dd P)) = Ok s.
Proof.
  intros Hr E Hp Ed Hdn HPn Hd HP. destruct (sector_written kws s Hr E Hp) as (sd' & Ed' & Hsn & Hsk & Hsv). rewrite Ed in Ed'. injection Ed' as <-.
  assert (Hmn : NoDup (map fst (merge dd P))) by (now apply merge_nodup).
  destruct (from_round no_class sector_args (merge sd (merge dd P)) (setting sector_defaults kws) (sector_params rf)) as (kw & E1 & E2).
  - now apply merge_nodup.
  - intros k Hk. apply merge_keys in Hk; [|exact Hmn]. destruct Hk as [Hk|Hk]; [apply sector_low; now apply Hsk|].
    apply merge_keys in Hk; [|exact HPn]. destruct Hk as [Hk|Hk]; apply in_map_iff in Hk; destruct Hk as ([k' v] & <- & Hin); [apply (Hd _ _ Hin)|apply (HP _ _ Hin)].
  - assert (Hflat : forall k, In k (map fst sector_args) -> entry_ok no_class sector_args (merge sd (merge dd P)) (setting sector_defaults kws) k (setting sector_defaults kws k)).
    { intros k Hk. left. split; [exact Hk|]. split; [now apply sector_enum|]. split; [now apply Hp|reflexivity]. }
    assert (Hout : forall k v, ~ In k (map fst sector_args) -> (forall d', v <> VDict d') -> entry_ok no_class sector_args (merge sd (merge dd P)) (setting sector_defaults kws) k v).
    { intros k v Hk Hv. right. right. right. right. split; [exact Hk|]. intros d' Hd'. destruct (Hv d' Hd'). }
    intros k v Hin. apply merge_In in Hin. destruct Hin as [Hin|Hin]; [|apply merge_In in Hin; destruct Hin as [Hin|Hin]].
    + destruct (Hsv k v Hin) as [[Hk ->]|[Hk Hv]]; [now apply Hflat|]. apply Hout; [exact Hk|]. intros d' ->. destruct Hv as [[]|?]; discriminate.
    + destruct (Hd k v Hin) as (_ & Hk & [Hv| ->]); [apply Hout; [exact Hk|]; intros d' ->; exact Hv|]. right. right. right. right. split; [exact Hk|]. intros d' [= <-] key x Hkx Hka.
      assert (Hlow : casefold key = key) by (apply sector_low; apply Hsk; apply in_map_iff; exists (key, x); auto). rewrite Hlow in Hka |- *.
      destruct (Hsv key x Hkx) as [[Hk' Hx]|[Hk' _]]; [exact Hx|contradiction].
    + destruct (HP k v Hin) as (_ & [[Hk ->]|[Hk Hv]]); [now apply Hflat|]. right. right. right. right. split; [exact Hk|]. intros d' Hd' key x Hkx Hka. destruct (Hv d' Hd' key x Hkx Hka).
  - intros a Ha. split.
    + apply merge_keys; [exact Hmn|]. left. apply Hsk. unfold sector_keys. apply in_app_iff. left. now apply in_map.
    + intros Hw. destruct Hp as (_ & Ht & _). eapply sector_none; eauto.
  - unfold sector_from. rewrite E1. unfold sector_params in *. rewrite E2. apply rbind_ok in E. destruct E as (e & Ee & E).
    rewrite (fill_map _ _ _ sector_nodup Ee) in E. cbn [rbind] in *. rewrite <- E. clear E.
    replace (map (fun a : string * option val => (fst a, at_ e (fst a))) sector_args) with (map (fun a : string * option val => (fst a, setting sector_defaults kws (fst a))) sector_args); [reflexivity|].
    apply map_ext_in. intros a Ha. f_equal. symmetry. apply (fill_at _ _ _ _ _ sector_documented Ee). now apply in_map.
Qed.
(** ** devices *)
Definition device_obj (sku sp capex n ty : val) : val :=
  VObj "DeviceData" [("device_sku", sku); ("sector_params", sp); ("node_capex", capex); ("number_of_nodes_per_site", n); ("device_type", ty)].
Lemma number_flat v x : number v x -> flat v /\ is_none v = false. Proof. intros [->|[[-> _]|[-> _]]]; split; try exact I; reflexivity. Qed.
Lemma device_shape kw o : device_data kw = Ok o -> exists sku capex n,
  let sp := setting device_defaults kw "sector_params" in let ty := setting device_defaults kw "device_type" in
  o = device_obj (VStr sku) sp capex n ty /\ flat capex /\ is_none capex = false /\ flat n /\ is_none n = false /\
  forall kw2, fill device_args kw2 = Ok [("device_sku", VStr sku); ("sector_params", sp); ("node_capex", capex); ("number_of_nodes_per_site", n); ("device_type", ty)] -> device_data kw2 = Ok o.
Proof.
  intros H. pose proof (proj1 (device_iff kw) (ex_intro _ o H)) as (_ & (cx & Hcx & _) & _).
  destruct (fill device_args kw) as [e|] eqn:E; [|unfold device_data in H; rewrite E in H; discriminate]. rewrite (device_unfold kw e E) in H.
  apply rbind_ok in H. destruct H as ([] & Ha & H). apply rbind_ok in H. destruct H as (n & En & H). apply rbind_ok in H. destruct H as (h & Eh & H). apply rbind_ok in H. destruct H as (s & Es & H).
  apply rbind_ok in H. destruct H as (k & Ek & H). apply rbind_ok in H. destruct H as ([] & Ec & H).
  assert (Hsku : exists sku, setting device_defaults kw "device_sku" = VStr sku).
  { apply config_ok in Ha. unfold device_first in Ha. rewrite !Forall_cons_iff in Ha. destruct Ha as (H1 & _). destruct (setting device_defaults kw "device_sku"); try discriminate. eauto. }
  destruct Hsku as [sku Hsku]. exists sku, (setting device_defaults kw "node_capex"), n. cbv zeta. rewrite Hsku in H.
  pose proof (proj1 (num_ok _ _) Ek) as Hk. destruct (number_flat _ _ Hcx) as [F1 F2]. destruct (number_flat _ _ Hk) as [F3 F4].
  split; [unfold device_obj; congruence|]. split; [exact F1|]. split; [exact F2|]. split; [exact F3|]. split; [exact F4|].
  intros kw2 E2. rewrite (device_unfold kw2 _ E2). pose proof (device_fill kw2 _ E2) as V. rewrite <- !V by names.
  assert (A1 : asserts (config (device_first (setting device_defaults kw2))) = Ok tt).
  { apply config_ok. apply config_ok in Ha. unfold device_first in *. rewrite !Forall_cons_iff in *. destruct Ha as (H1 & H2 & H3 & _). rewrite <- !V by names. cbn [at_ dget beq]. rewrite Hsku in H1.
    split; [exact H1|]. split; [exact H2|]. split; [|constructor]. change (opt (ge 1) n = Ok true). unfold opt. rewrite F4. unfold cmp. rewrite Ek. cbn [rbind]. f_equal.
    destruct (node_count_ok _ _ En) as (k' & Hk' & Hn & Hcl). assert (k' = k) as -> by (eapply number_unique; eauto). apply Qle_bool_iff.
    destruct Hn as [Hn|(Hn & Hy & Hz)].
    - apply optional_ge in H3. destruct H3 as [H3|(x & Hx & Hp)]; [rewrite H3 in Hn; destruct Hn as [?|[[? _]|[? _]]]; discriminate|]. now rewrite (number_unique _ _ _ Hn Hx).
    - destruct (is_cn (setting device_defaults kw "device_type")) eqn:Ecn; [apply is_cn_true in Ecn; rewrite Hy by auto; lra|apply is_cn_false in Ecn; rewrite Hz by auto; lra]. }
  rewrite A1. cbn [rbind].
  assert (A2 : node_count (setting device_defaults kw2) = Ok n).
  { unfold node_count. rewrite <- !V by names. change (at_ _ "number_of_nodes_per_site") with n. change (at_ _ "device_type") with (setting device_defaults kw "device_type"). rewrite F4, Ek. cbn [rbind].
    destruct (node_count_ok _ _ En) as (k' & Hk' & Hn & Hcl). assert (k' = k) as -> by (eapply number_unique; eauto).
    destruct (is_cn (setting device_defaults kw "device_type")) eqn:Ecn; [apply is_cn_true in Ecn; rewrite (proj2 (Qeq_bool_iff k 1) (Hcl Ecn)); reflexivity|]. now rewrite Bool.andb_false_r. }
  rewrite A2. cbn [rbind]. change (at_ _ "sector_params") with (setting device_defaults kw "sector_params"). rewrite Eh. cbn [rbind]. rewrite Es. cbn [rbind]. rewrite Ek. cbn [rbind]. rewrite Ec. cbn [rbind]. rewrite <- H. reflexivity.
Qed.
(** a device that can be written down, and its settings *)
(** what may surround a device *)
Definition around (sector : dict string val) (P : dict string val) : Prop :=
  NoDup (map fst P) /\ forall k v, In (k, v) P -> casefold k = k /\ ~ In k (map fst device_args) /\
    ((In k (map fst sector_args) /\ v = setting sector_defaults sector k) \/
     (~ In k (map fst sector_args) /\ forall d', v = VDict d' -> forall key x, In (key, x) d' -> ~ In (casefold key) (map fst sector_args) /\ ~ In (casefold key) (map fst device_args))).
Lemma device_trip d sector P : reads_tables -> device_plain d sector -> around sector P -> exists dd, to_dict d = Ok (VDict dd) /\ device_from rf (merge dd P) = Ok d.
Proof.
  intros Hr (kw & s & Ed & Hs & Hty & Es & Hp) [HPn HP]. destruct (device_shape kw d Ed) as (sku & capex & n & Eo & F1 & F2 & F3 & F4 & Again). rewrite Hs in Eo.
  destruct (sector_written sector s Hr Es Hp) as (sd & Esd & Hsn & Hsk & Hsv).
  assert (Em : exists m, setting device_defaults kw "device_type" = VEnum "DeviceType" m /\ (m = "DN" \/ m = "CN")). { destruct Hty as [-> | ->]; eauto. }
  destruct Em as (m & Hm & Hm'). rewrite Hm in Eo.
  set (dd := [("device_sku", VStr sku); ("sector_params", VDict sd); ("node_capex", capex); ("number_of_nodes_per_site", n); ("device_type", VStr m)]).
  assert (Et : to_dict d = Ok (VDict dd)).
  { rewrite Eo. unfold device_obj. rewrite to_dict_unfold. change (config_class "DeviceData") with true. cbv iota. cbn [mapM fst snd]. rewrite (flat_tov capex F1), (flat_tov n F3).
    assert (tov s = Ok (VDict sd)) as ->. { destruct (sector_shape sector s Hr Es Hp) as (a & m' & -> & _). exact Esd. } reflexivity. }
  exists dd. split; [exact Et|].
  set (w := fun k => at_ [("device_sku", VStr sku); ("sector_params", s); ("node_capex", capex); ("number_of_nodes_per_site", n); ("device_type", VEnum "DeviceType" m)] k).
  assert (Hdn : NoDup (map fst dd)) by (apply distinct_nodup; reflexivity).
  assert (Hout : forall k v, In (k, v) P -> ~ In k (map fst device_args)) by (intros k v Hin; apply (HP k v Hin)).
  destruct (from_round (device_sub rf) device_args (merge dd P) w device_data) as (kw2 & E1 & E2).
  - now apply merge_nodup.
  - intros k Hk. apply merge_keys in Hk; [|exact HPn]. destruct Hk as [Hk|Hk].
    + repeat (destruct Hk as [<-|Hk]; [reflexivity|]). contradiction.
    + apply in_map_iff in Hk. destruct Hk as ([k' v] & <- & Hin). apply (HP _ _ Hin).
  - intros k v Hin. apply merge_In in Hin. destruct Hin as [Hin|Hin].
    + assert (Hsec : sector_from rf (merge sd (merge dd P)) = Ok s).
      { apply (sector_read sector s sd dd P Hr Es Hp Esd Hdn HPn).
        - intros k0 v0 Hin0. repeat (destruct Hin0 as [[= <- <-]|Hin0]; [split; [reflexivity|]; split; [apply mem_not_In; reflexivity|]; first [left; first [exact I|assumption] | right; reflexivity]|]). contradiction.
        - intros k0 v0 Hin0. destruct (HP k0 v0 Hin0) as (L & _ & C). split; [exact L|]. destruct C as [C|[C1 C2]]; [now left|right]. split; [exact C1|]. intros d' Hd' key x Hkx. apply (C2 d' Hd' key x Hkx). }
      destruct Hin as [[= <- <-]|[[= <- <-]|[[= <- <-]|[[= <- <-]|[[= <- <-]|[]]]]]].
      * left. repeat match goal with |- _ /\ _ => split end; first [names | reflexivity | exact I].
      * right. right. left. split; [names|]. split; [reflexivity|]. exists sd. split; [reflexivity|]. split; [reflexivity|]. exact Hsec.
      * left. repeat match goal with |- _ /\ _ => split end; first [names | reflexivity | assumption].
      * left. repeat match goal with |- _ /\ _ => split end; first [names | reflexivity | assumption].
      * right. left. split; [names|]. exists "DeviceType". split; [reflexivity|]. right. split; [reflexivity|]. destruct Hm' as [-> | ->]; reflexivity.
    + destruct (HP k v Hin) as (_ & Hk & C). right. right. right. right. split; [exact Hk|]. intros d' Hd' key x Hkx Hka. destruct C as [[C1 C2]|[_ C2]].
      * exfalso. destruct Hp as (Hp & _). specialize (Hp k C1). rewrite <- C2, Hd' in Hp. exact Hp.
      * destruct (C2 d' Hd' key x Hkx) as [_ C3]. contradiction.
  - intros a Ha. split.
    + apply merge_keys; [exact HPn|]. left. repeat (destruct Ha as [<-|Ha]; [names|]). contradiction.
    + assert (Hsn' : s <> VNone). { destruct (sector_shape sector s Hr Es Hp) as (al & m' & -> & _). discriminate. }
      apply is_none_false in F2 as F2'. apply is_none_false in F4 as F4'.
      repeat (destruct Ha as [<-|Ha]; [first [discriminate | intros Hw; exfalso; first [now apply Hsn' | now apply F2' | now apply F4'] | reflexivity]|]). contradiction.
  - unfold device_from. rewrite E1. apply Again. rewrite E2. rewrite Hs, Hm. reflexivity.
Qed.
(** ** lists of devices *)
Lemma around_nil sector : around sector []. Proof. split; [constructor|contradiction]. Qed.
Lemma device_config d sector : device_plain d sector -> exists c a, d = VObj c a /\ config_class c = true.
Proof. intros (kw & s & Ed & _). destruct (device_shape kw d Ed) as (sku & capex & n & Eo & _). rewrite Eo. eexists. eexists. split; reflexivity. Qed.
Definition written (l ll : list val) : Prop := Forall2 (fun d x => to_dict d = Ok x) l ll.
Lemma list_written l : reads_tables -> (forall d, In d l -> exists sector, device_plain d sector) -> exists ll, tov (VList l) = Ok (VList ll) /\ written l ll.
Proof.
  intros Hr H. cbn [tov].
  match goal with |- context[rbind (?f l) _] => assert (G : exists ll, f l = Ok ll /\ written l ll) end; [|destruct G as (ll & -> & W); exists ll; split; [reflexivity|exact W]].
  induction l as [|d l IH]; [exists []; split; [reflexivity|constructor]|]. destruct (H d (or_introl eq_refl)) as [sector Hd]. destruct (device_config d sector Hd) as (c & a & Ed & Hc).
  destruct (device_trip d sector [] Hr Hd (around_nil sector)) as (dd & Edd & _). destruct IH as (ll & El & W); [intros d' Hd'; apply H; now right|].
  exists (VDict dd :: ll). split; [|constructor; [exact Edd|exact W]]. subst d. cbn [item]. rewrite Hc, Edd. cbn [rbind]. rewrite El. reflexivity.
Qed.
Lemma list_read l ll P : reads_tables -> written l ll -> (forall d, In d l -> exists sector, device_plain d sector /\ around sector P) -> mapM (element (top_sub rf) "device_list" P) ll = Ok l.
Proof.
  intros Hr W. induction W as [|d x l ll Hx W IH]; intros H; [reflexivity|]. destruct (H d (or_introl eq_refl)) as (sector & Hd & Ha). destruct (device_trip d sector P Hr Hd Ha) as (dd & Edd & Ef).
  rewrite Hx in Edd. injection Edd as ->. cbn [mapM]. change (element (top_sub rf) "device_list" P (VDict dd)) with (device_from rf (merge dd P)). rewrite Ef. cbn [rbind]. rewrite IH; [reflexivity|]. intros d' Hd'. apply H. now right.
Qed.
Lemma dset_same (a : dict string val) k x : dget a k = Some x -> dset a k x = a.
Proof. induction a as [|[k1 x1] a IH]; [discriminate|]. cbn. destruct (beq_spec k k1) as [->|Hk]; [intros [= ->]; reflexivity|]. intros H. now rewrite IH. Qed.
Lemma populate_same e d sector : reads_tables -> device_plain d sector -> (forall k, In k radio_keys -> setting sector_defaults sector k = at_ e k) -> populate e d = d.
Proof.
  intros Hr (kw & s & Ed & Hs & _ & Es & Hp) Hk. destruct (device_shape kw d Ed) as (sku & capex & n & Eo & _). rewrite Hs in Eo. destruct (sector_shape sector s Hr Es Hp) as (a & m & -> & _ & _ & Hv & _).
  rewrite Eo. unfold device_obj, populate. change (dget (("device_sku", VStr sku) :: ("sector_params", VObj "SectorParams" a) :: _) "sector_params") with (Some (VObj "SectorParams" a)). cbv iota.
  assert (G : forall ks, (forall k, In k ks -> In k radio_keys) -> fold_left (fun s k => dset s k (at_ e k)) ks a = a).
  { induction ks as [|k ks IH]; intros Hin; [reflexivity|]. cbn [fold_left]. rewrite dset_same; [apply IH; intros k' Hk'; apply Hin; now right|]. rewrite <- (Hk k) by (apply Hin; now left). apply Hv. apply radio_sector_arg. apply Hin. now left. }
  rewrite G by auto. f_equal.
Qed.
(** ** the conversion of a whole object *)
Lemma top_trip (args : params) cls (al : dict string val) (v : string -> val) build : config_class cls = true -> NoDup (map fst al) -> (forall k, In k (map fst al) -> casefold k = k) ->
  (forall k, In k (map fst args) -> dget al k = Some (v k)) -> (forall k x, In (k, x) al -> exists y, tov x = Ok y) ->
  (forall a, In a args -> v (fst a) = VNone -> snd a = Some VNone) ->
  (forall P, NoDup (map fst P) -> map fst P = map fst al -> (forall k y, In (k, y) P -> exists x, In (k, x) al /\ tov x = Ok y) -> forall k x y, In (k, x) al -> tov x = Ok y -> entry_ok (top_sub rf) args P v k y) ->
  exists P kw, to_dict (VObj cls al) = Ok (VDict P) /\ from_dict (top_sub rf) args build P = build kw /\ fill args kw = Ok (map (fun a => (fst a, v (fst a))) args).
Proof.
  intros Hc Hn Hl Hv Ht Hd He. destruct (to_dict_ok cls al Hc Ht) as (P & EP & F).
  assert (Hk : map fst P = map fst al) by (eapply (forall2_keys (R := fun x y => tov x = Ok y)); exact F). exists P.
  assert (HPn : NoDup (map fst P)) by (rewrite Hk; exact Hn).
  assert (HP : forall k y, In (k, y) P -> exists x, In (k, x) al /\ tov x = Ok y).
  { intros k y Hin. destruct (forall2_get (R := fun x y => tov x = Ok y) _ _ k y F (In_dget _ _ _ HPn Hin)) as (x & Hx & Hxy). exists x. split; [now apply dget_In|exact Hxy]. }
  destruct (from_round (top_sub rf) args P v build HPn) as (kw & E1 & E2).
  - rewrite Hk. exact Hl.
  - intros k y Hin. destruct (HP k y Hin) as (x & Hx & Hxy). eapply He; eauto.
  - intros a Ha. split; [|now apply Hd]. rewrite Hk. specialize (Hv (fst a) (in_map fst _ _ Ha)). apply dget_In in Hv. apply in_map_iff. eexists. split; [|exact Hv]. reflexivity.
  - exists kw. auto.
Qed.
(** ** OptimizerParams *)
Definition opt_keys : list string := map fst opt_args ++ ["coverage_percentage"; "ignore_polarities"].
Lemma opt_shape kw o l : reads_tables -> optimizer_params kw = Ok o -> setting optimizer_defaults kw "device_list" = VList l -> devices_plain (setting optimizer_defaults kw) l ->
  exists al, o = VObj "OptimizerParams" al /\ NoDup (map fst al) /\ (forall k, In k (map fst al) <-> In k opt_keys) /\ (forall k, In k (map fst opt_args) -> dget al k = Some (setting optimizer_defaults kw k)) /\
    dget al "coverage_percentage" = Some (VNum 1) /\ dget al "ignore_polarities" = Some (VBool false).
Proof.
  intros Hr E El Hd. destruct (optimizer_values kw o E) as [Hval _]. unfold optimizer_params in E. apply rbind_ok in E. destruct E as (e & Ee & E). pose proof (opt_setting kw e Ee) as Ev. rewrite (Ev "device_list") in E by names. rewrite El in E.
  cbn [devices rbind] in E. apply rbind_ok in E. destruct E as ([] & _ & E). apply rbind_ok in E. destruct E as ([] & _ & E). apply rbind_ok in E. destruct E as ([] & _ & E).
  assert (Hpop : map (populate e) l = l).
  { rewrite <- (map_id l) at 2. apply map_ext_in. intros d Hin. destruct (Hd d Hin) as (sector & Hpl & Hk). apply (populate_same e d sector Hr Hpl). intros k Hkr. rewrite (Hk k Hkr). symmetry. apply Ev. now apply radio_opt_arg. }
  rewrite Hpop in E. match type of E with Ok (VObj _ ?a) = _ => set (al := a) in E; exists al end. injection E as <-. split; [reflexivity|].
  assert (Hk : map fst al = opt_attrs1 ++ "device_list" :: opt_attrs2 ++ ["coverage_percentage"; "ignore_polarities"]) by reflexivity.
  split; [rewrite Hk; apply distinct_nodup; vm_compute; reflexivity|]. split.
  { intros k. rewrite Hk. assert (G : forall l l' : list string, forallb (fun x => mem x l') l = true -> In k l -> In k l'). { intros l1 l2 H Hin. rewrite forallb_forall in H. apply mem_In. now apply H. }
    split; apply G; vm_compute; reflexivity. }
  split; [|split; reflexivity]. intros k Hin. destruct (string_dec k "device_list") as [->|Hn]; [rewrite El; reflexivity|]. apply (proj1 (attribute_iff "OptimizerParams" al k _)). now apply Hval.
Qed.
Lemma opt_lower k : In k opt_keys -> casefold k = k.
Proof. intros H. apply beq_eq. exact (all_names (fun k => beq (casefold k) k) opt_keys eq_refl k H). Qed.
Lemma opt_enum k : In k (map fst opt_args) -> ~ In k ["device_list"; "redundancy_level"; "topology_routing"] -> enum_of k = None.
Proof.
  intros H Hn. pose proof (all_names (fun k => match enum_of k with None => true | _ => mem k ["device_list"; "redundancy_level"; "topology_routing"] end) (map fst opt_args) eq_refl k H) as G. cbv beta in G.
  destruct (enum_of k); [|reflexivity]. apply mem_In in G. contradiction.
Qed.
Lemma opt_apart k : In k opt_keys -> ~ In k (map fst device_args) /\ (In k (map fst sector_args) -> In k radio_keys).
Proof.
  intros H. pose proof (all_names (fun k => negb (mem k (map fst device_args)) && (negb (mem k (map fst sector_args)) || mem k radio_keys)) opt_keys eq_refl k H) as G. cbv beta in G.
  apply andb_true_iff in G. destruct G as [G1 G2]. split; [apply mem_not_In; now apply negb_true_iff|]. intros Hs. apply mem_In in Hs. rewrite Hs in G2. now apply mem_In.
Qed.
Lemma member_tov cls names v : member cls names v -> exists m, In m names /\ v = VEnum cls m /\ tov v = Ok (VStr m).
Proof. intros (m & Hm & ->). exists m. auto. Qed.
Theorem optimizer_trip kw o l : reads_tables -> optimizer_params kw = Ok o -> setting optimizer_defaults kw "device_list" = VList l -> devices_plain (setting optimizer_defaults kw) l -> optimizer_plain (setting optimizer_defaults kw) ->
  exists d, to_dict o = Ok (VDict d) /\ optimizer_from rf d = Ok o.
Proof.
  intros Hr E El Hd (Hfl & Hnn & Hrl & Htr). destruct (opt_shape kw o l Hr E El Hd) as (al & -> & Hn & Hk & Hv & Hc & Hi). set (v := setting optimizer_defaults kw) in *.
  destruct (list_written l Hr) as (ll & Ell & W). { intros d Hin. destruct (Hd d Hin) as (sector & Hp & _). eauto. }
  (* what is written for each attribute *)
  assert (Hcase : forall k x, In (k, x) al -> (k = "device_list" /\ x = VList l) \/ (k = "redundancy_level" /\ x = v k) \/ (k = "topology_routing" /\ x = v k) \/
     (In k (map fst opt_args) /\ ~ In k ["device_list"; "redundancy_level"; "topology_routing"] /\ x = v k) \/ (~ In k (map fst opt_args) /\ flat x)).
  { intros k x Hin. pose proof (In_dget _ _ _ Hn Hin) as Hg. destruct (in_dec string_dec k (map fst opt_args)) as [Ha|Ha].
    - rewrite (Hv k Ha) in Hg. injection Hg as <-. destruct (in_dec string_dec k ["device_list"; "redundancy_level"; "topology_routing"]) as [Hs|Hs]; [|now right; right; right; left].
      destruct Hs as [<-|[<-|[<-|[]]]]; [left; split; [reflexivity|exact El]|right; now left|right; right; now left].
    - right. right. right. right. split; [exact Ha|]. assert (Hkk : In k opt_keys) by (apply Hk; apply in_map_iff; exists (k, x); auto).
      unfold opt_keys in Hkk. apply in_app_iff in Hkk. destruct Hkk as [?|[<-|[<-|[]]]]; [contradiction| |]; [rewrite Hc in Hg|rewrite Hi in Hg]; injection Hg as <-; exact I. }
  destruct (top_trip opt_args "OptimizerParams" al v optimizer_params eq_refl Hn) as (P & kw2 & EP & E1 & E2).
  - intros k Hin. apply opt_lower. now apply Hk.
  - exact Hv.
  - intros k x Hin. destruct (Hcase k x Hin) as [[_ ->]|[[-> ->]|[[-> ->]|[(Ha & Hs & ->)|(Ha & Hf)]]]].
    + eauto.
    + destruct (member_tov _ _ _ Hrl) as (m & _ & _ & ->). eauto.
    + destruct Htr as [->|Htr]; [eexists; reflexivity|]. destruct (member_tov _ _ _ Htr) as (m & _ & _ & ->). eauto.
    + eexists. apply flat_tov. now apply Hfl.
    + eexists. apply flat_tov. exact Hf.
  - intros a Ha Hw. destruct (dget optimizer_defaults (fst a)) as [dv|] eqn:Ed; [exfalso; apply (Hnn (fst a)); [rewrite Ed; discriminate|exact Hw]|].
    repeat (destruct Ha as [<-|Ha]; [first [reflexivity | discriminate Ed | exfalso; change (v "device_list" = VNone) in Hw; congruence]|]). contradiction.
  - intros P HPn HPk HP k x y Hin Hxy. destruct (Hcase k x Hin) as [[-> ->]|[[-> ->]|[[-> ->]|[(Ha & Hs & ->)|(Ha & Hf)]]]].
    + rewrite Ell in Hxy. injection Hxy as <-. right. right. right. left. split; [names|]. split; [reflexivity|]. exists ll, l. split; [reflexivity|]. split; [|exact El].
      apply list_read; [exact Hr|exact W|]. intros d Hdin. destruct (Hd d Hdin) as (sector & Hp & Hrk). exists sector. split; [exact Hp|]. split; [exact HPn|].
      intros k0 y0 Hin0. destruct (HP k0 y0 Hin0) as (x0 & Hx0 & Hxy0). assert (Hkk : In k0 opt_keys) by (apply Hk; rewrite <- HPk; apply in_map_iff; exists (k0, y0); auto).
      destruct (opt_apart k0 Hkk) as [A1 A2]. split; [now apply opt_lower|]. split; [exact A1|].
      assert (Hnd : forall d', y0 <> VDict d').
      { intros d' ->. destruct (Hcase k0 x0 Hx0) as [[-> ->]|[[-> ->]|[[-> ->]|[(Ha & Hs & ->)|(Ha & Hf)]]]].
        - rewrite Ell in Hxy0. discriminate.
        - destruct (member_tov _ _ _ Hrl) as (m & _ & _ & Et). congruence.
        - destruct Htr as [Et|Htr]; [rewrite Et in Hxy0; discriminate|]. destruct (member_tov _ _ _ Htr) as (m & _ & _ & Et). congruence.
        - pose proof (Hfl k0 Ha Hs) as Hf. rewrite (flat_tov _ Hf) in Hxy0. injection Hxy0 as Hy. rewrite Hy in Hf. exact Hf.
        - rewrite (flat_tov _ Hf) in Hxy0. injection Hxy0 as Hy. rewrite Hy in Hf. exact Hf. }
      destruct (in_dec string_dec k0 (map fst sector_args)) as [Hs|Hs]; [left|right; split; [exact Hs|intros d' Hd'; destruct (Hnd d' Hd')]]. split; [exact Hs|]. rewrite (Hrk k0 (A2 Hs)).
      destruct (radio_opt_arg k0 (A2 Hs)) as [B1 B2]. assert (B3 : ~ In k0 ["device_list"; "redundancy_level"; "topology_routing"]).
      { pose proof (all_names (fun k => negb (mem k ["device_list"; "redundancy_level"; "topology_routing"])) radio_keys eq_refl k0 (A2 Hs)) as G. cbv beta in G. apply mem_not_In. now apply negb_true_iff. }
      assert (x0 = v k0) as ->. { pose proof (In_dget _ _ _ Hn Hx0) as Hg. rewrite (Hv k0 B1) in Hg. congruence. }
      rewrite flat_tov in Hxy0 by (now apply Hfl). congruence.
    + destruct (member_tov _ _ _ Hrl) as (m & Hm & Em & Et). rewrite Et in Hxy. injection Hxy as <-. right. left. split; [names|]. exists "RedundancyLevel". split; [reflexivity|]. right. split; [reflexivity|].
      rewrite Em. repeat (destruct Hm as [<-|Hm]; [reflexivity|]). contradiction.
    + right. left. split; [names|]. exists "TopologyRouting". split; [reflexivity|]. destruct Htr as [Et|Htr]; [left; rewrite Et in Hxy; injection Hxy as <-; auto|]. right.
      destruct (member_tov _ _ _ Htr) as (m & Hm & Em & Et). rewrite Et in Hxy. injection Hxy as <-. split; [reflexivity|]. rewrite Em. repeat (destruct Hm as [<-|Hm]; [reflexivity|]). contradiction.
    + rewrite flat_tov in Hxy by (now apply Hfl). injection Hxy as <-. left. split; [exact Ha|]. split; [now apply opt_enum|]. split; [now apply Hfl|reflexivity].
    + rewrite (flat_tov _ Hf) in Hxy. injection Hxy as <-. right. right. right. right. split; [exact Ha|]. intros d' ->. destruct Hf.
  - exists P. split; [exact EP|]. unfold optimizer_from. rewrite E1. rewrite <- E. unfold optimizer_params at 1 2. rewrite E2.
    unfold optimizer_params in E. apply rbind_ok in E. destruct E as (e & Ee & _). rewrite Ee.
    replace (map (fun a : string * option val => (fst a, v (fst a))) opt_args) with e; [reflexivity|]. rewrite (fill_map _ _ _ (nodup_dec opt_args eq_refl) Ee) at 1.
    apply map_ext_in. intros a Ha. f_equal. apply (opt_setting kw e Ee). now apply in_map.
Qed.
(** ** LOSParams *)
Lemma los_shape kw o l : reads_tables -> los_params kw = Ok o -> setting los_defaults kw "device_list" = VList l -> devices_plain (setting los_defaults kw) l ->
  exists al, o = VObj "LOSParams" al /\ NoDup (map fst al) /\ (forall k, In k (map fst al) <-> In k (map fst los_args)) /\ (forall k, In k (map fst los_args) -> dget al k = Some (setting los_defaults kw k)).
Proof.
  intros Hr E El Hd. destruct (los_values kw o E) as [Hval _]. unfold los_params in E. apply rbind_ok in E. destruct E as (e & Ee & E). pose proof (los_setting kw e Ee) as Ev. rewrite (Ev "device_list") in E by names. rewrite El in E.
  cbn [devices rbind] in E. apply rbind_ok in E. destruct E as ([] & _ & E). apply rbind_ok in E. destruct E as ([] & _ & E).
  assert (Hpop : map (populate e) l = l).
  { rewrite <- (map_id l) at 2. apply map_ext_in. intros d Hin. destruct (Hd d Hin) as (sector & Hpl & Hk). apply (populate_same e d sector Hr Hpl). intros k Hkr. rewrite (Hk k Hkr). symmetry. apply Ev. now apply radio_los_arg. }
  rewrite Hpop in E. match type of E with Ok (VObj _ ?a) = _ => set (al := a) in E; exists al end. injection E as <-. split; [reflexivity|].
  assert (Hk : map fst al = "device_list" :: los_attrs) by reflexivity.
  split; [rewrite Hk; apply distinct_nodup; vm_compute; reflexivity|]. split.
  { intros k. rewrite Hk. assert (G : forall l l' : list string, forallb (fun x => mem x l') l = true -> In k l -> In k l'). { intros l1 l2 H Hin. rewrite forallb_forall in H. apply mem_In. now apply H. }
    split; apply G; vm_compute; reflexivity. }
  intros k Hin. destruct (string_dec k "device_list") as [->|Hn]; [rewrite El; reflexivity|]. apply (proj1 (attribute_iff "LOSParams" al k _)). now apply Hval.
Qed.
Lemma los_lower k : In k (map fst los_args) -> casefold k = k.
Proof. intros H. apply beq_eq. exact (all_names (fun k => beq (casefold k) k) (map fst los_args) eq_refl k H). Qed.
Lemma los_enum k : In k (map fst los_args) -> enum_of k = None.
Proof. intros H. pose proof (all_names (fun k => match enum_of k with None => true | _ => false end) (map fst los_args) eq_refl k H) as G. cbv beta in G. destruct (enum_of k); [discriminate|reflexivity]. Qed.
Lemma los_apart k : In k (map fst los_args) -> ~ In k (map fst device_args) /\ ~ In k (map fst detection_args) /\ (In k (map fst sector_args) -> In k radio_keys).
Proof.
  intros H. pose proof (all_names (fun k => negb (mem k (map fst device_args)) && (negb (mem k (map fst detection_args)) && (negb (mem k (map fst sector_args)) || mem k radio_keys))) (map fst los_args) eq_refl k H) as G. cbv beta in G.
  apply andb_true_iff in G. destruct G as [G1 G2]. apply andb_true_iff in G2. destruct G2 as [G2 G3]. split; [apply mem_not_In; now apply negb_true_iff|]. split; [apply mem_not_In; now apply negb_true_iff|].
  intros Hs. apply mem_In in Hs. rewrite Hs in G3. now apply mem_In.
Qed.
Lemma detection_apart k : In k (map fst detection_args) -> casefold k = k /\ enum_of k = None /\ ~ In k (map fst device_args) /\ ~ In k (map fst sector_args).
Proof. intros H. repeat (destruct H as [<-|H]; [split; [reflexivity|]; split; [reflexivity|]; split; apply mem_not_In; reflexivity|]). contradiction. Qed.
Lemma detection_documented : documented detection_args detection_defaults.
Proof. intros k d H. repeat (destruct H as [[= <- <-]|H]; [reflexivity|]). contradiction. Qed.
Lemma detection_written o : detection_plain o -> exists e, o = VObj "SiteDetectionParams" e /\ tov o = Ok (VDict e) /\ map fst e = map fst detection_args.
Proof.
  intros (kw & E & Hf). unfold site_detection in E. apply rbind_ok in E. destruct E as (e & Ee & E). apply rbind_ok in E. destruct E as ([] & _ & E). injection E as <-. exists e. split; [reflexivity|].
  pose proof (fill_keys _ _ _ Ee) as Hk. split; [|exact Hk]. cbn [tov]. change (config_class "SiteDetectionParams") with true. cbv iota. rewrite to_dict_unfold. change (config_class "SiteDetectionParams") with true. cbv iota.
  assert (Hv : forall k x, In (k, x) e -> tov x = Ok x).
  { intros k x Hin. assert (Hn : NoDup (map fst e)) by (rewrite Hk; apply distinct_nodup; reflexivity). pose proof (In_dget _ _ _ Hn Hin) as Hg.
    assert (Ha : In k (map fst detection_args)) by (rewrite <- Hk; apply in_map_iff; exists (k, x); auto). pose proof (fill_at _ _ _ _ k detection_documented Ee Ha) as Hat. unfold at_ in Hat. rewrite Hg in Hat. subst x. apply flat_tov. now apply Hf. }
  assert (G : mapM (fun q => do y <- tov (snd q) ; Ok (fst q, y)) e = Ok e); [|now rewrite G].
  clear - Hv. induction e as [|[k x] e IH]; [reflexivity|]. cbn [mapM fst snd]. rewrite (Hv k x (or_introl eq_refl)). cbn [rbind]. rewrite IH; [reflexivity|]. intros k' x' Hin. apply (Hv k' x'). now right.
Qed.
Lemma detection_read o e P : detection_plain o -> o = VObj "SiteDetectionParams" e -> NoDup (map fst P) ->
  (forall k v, In (k, v) P -> casefold k = k /\ ~ In k (map fst detection_args) /\ ((forall d', v <> VDict d') \/ v = VDict e)) -> detection_from (merge e P) = Ok o.
Proof.
  intros (kw & E & Hf) Eo HPn HP. unfold site_detection in E. apply rbind_ok in E. destruct E as (e' & Ee & E). apply rbind_ok in E. destruct E as ([] & Ea & E). rewrite Eo in E. injection E as ->.
  pose proof (fill_keys _ _ _ Ee) as Hk. assert (Hn : NoDup (map fst e)) by (rewrite Hk; apply distinct_nodup; reflexivity).
  assert (Hv : forall k x, In (k, x) e -> In k (map fst detection_args) /\ x = setting detection_defaults kw k).
  { intros k x Hin. assert (Ha : In k (map fst detection_args)) by (rewrite <- Hk; apply in_map_iff; exists (k, x); auto). split; [exact Ha|]. rewrite <- (fill_at _ _ _ _ k detection_documented Ee Ha). unfold at_. now rewrite (In_dget _ _ _ Hn Hin). }
  destruct (from_round no_class detection_args (merge e P) (setting detection_defaults kw) site_detection) as (kw2 & E1 & E2).
  - now apply merge_nodup.
  - intros k Hin. apply merge_keys in Hin; [|exact HPn]. destruct Hin as [Hin|Hin]; [rewrite Hk in Hin; now apply detection_apart|]. apply in_map_iff in Hin. destruct Hin as ([k' v] & <- & Hin). apply (HP _ _ Hin).
  - intros k v Hin. apply merge_In in Hin. destruct Hin as [Hin|Hin].
    + destruct (Hv k v Hin) as [Ha ->]. left. split; [exact Ha|]. split; [now apply detection_apart|]. split; [now apply Hf|reflexivity].
    + destruct (HP k v Hin) as (_ & Ha & C). right. right. right. right. split; [exact Ha|]. intros d' Hd' key x Hkx Hka. destruct C as [C|C]; [destruct (C d' Hd')|]. rewrite Hd' in C. injection C as ->.
      destruct (Hv key x Hkx) as [Hka' ->]. destruct (detection_apart key Hka') as [-> _]. reflexivity.
  - intros a Ha. split; [apply merge_keys; [exact HPn|]; left; rewrite Hk; now apply in_map|]. intros Hw. destruct (Hf (fst a) (in_map fst _ _ Ha)) as [_ Hnn].
    repeat (destruct Ha as [<-|Ha]; [first [reflexivity | exfalso; apply Hnn; [discriminate|exact Hw]]|]). contradiction.
  - unfold detection_from. rewrite E1. unfold site_detection. rewrite E2. cbn [rbind]. replace (map (fun a : string * option val => (fst a, setting detection_defaults kw (fst a))) detection_args) with e; [rewrite Ea, Eo; reflexivity|].
    rewrite (fill_map _ _ _ (nodup_dec detection_args eq_refl) Ee) at 1. apply map_ext_in. intros a Ha. f_equal. apply (fill_at _ _ _ _ _ detection_documented Ee). now apply in_map.
Qed.
Theorem los_trip kw o l : reads_tables -> los_params kw = Ok o -> setting los_defaults kw "device_list" = VList l -> devices_plain (setting los_defaults kw) l -> los_plain (setting los_defaults kw) ->
  exists d, to_dict o = Ok (VDict d) /\ los_from rf d = Ok o.
Proof.
  intros Hr E El Hd (Hfl & Hnn & Hsd). destruct (los_shape kw o l Hr E El Hd) as (al & -> & Hn & Hk & Hv). set (v := setting los_defaults kw) in *.
  destruct (list_written l Hr) as (ll & Ell & W). { intros d Hin. destruct (Hd d Hin) as (sector & Hp & _). eauto. }
  destruct (detection_written _ Hsd) as (e & Eo & Et & Hek).
  assert (Hcase : forall k x, In (k, x) al -> In k (map fst los_args) /\ ((k = "device_list" /\ x = VList l) \/ (k = "site_detection" /\ x = v k) \/ (~ In k ["device_list"; "site_detection"] /\ x = v k))).
  { intros k x Hin. assert (Ha : In k (map fst los_args)) by (apply Hk; apply in_map_iff; exists (k, x); auto). pose proof (In_dget _ _ _ Hn Hin) as Hg. rewrite (Hv k Ha) in Hg. injection Hg as <-. split; [exact Ha|].
    destruct (in_dec string_dec k ["device_list"; "site_detection"]) as [Hs|Hs]; [|auto]. destruct Hs as [<-|[<-|[]]]; auto. }
  destruct (top_trip los_args "LOSParams" al v los_params eq_refl Hn) as (P & kw2 & EP & E1 & E2).
  - intros k Hin. apply los_lower. now apply Hk.
  - exact Hv.
  - intros k x Hin. destruct (Hcase k x Hin) as [Ha [[_ ->]|[[-> ->]|[Hs ->]]]]; [eauto|eauto|]. eexists. apply flat_tov. now apply Hfl.
  - intros a Ha Hw. destruct (dget los_defaults (fst a)) as [dv|] eqn:Ed; [exfalso; apply (Hnn (fst a)); [rewrite Ed; discriminate|exact Hw]|].
    repeat (destruct Ha as [<-|Ha]; [first [reflexivity | discriminate Ed | exfalso; change (v "device_list" = VNone) in Hw; congruence]|]). contradiction.
  - intros P HPn HPk HP k x y Hin Hxy.
    assert (Hent : forall k0 y0, In (k0, y0) P -> In k0 (map fst los_args) /\ ((k0 = "device_list" /\ y0 = VList ll) \/ (k0 = "site_detection" /\ y0 = VDict e) \/ (~ In k0 ["device_list"; "site_detection"] /\ flat (v k0) /\ y0 = v k0))).
    { intros k0 y0 Hin0. destruct (HP k0 y0 Hin0) as (x0 & Hx0 & Hxy0). destruct (Hcase k0 x0 Hx0) as [Ha [[-> ->]|[[-> ->]|[Hs ->]]]]; split; auto.
      - left. split; [reflexivity|congruence].
      - right. left. split; [reflexivity|congruence].
      - right. right. pose proof (Hfl k0 Ha Hs) as Hf. rewrite (flat_tov _ Hf) in Hxy0. injection Hxy0 as <-. auto. }
    destruct (Hcase k x Hin) as [Ha [[-> ->]|[[-> ->]|[Hs ->]]]].
    + rewrite Ell in Hxy. injection Hxy as <-. right. right. right. left. split; [exact Ha|]. split; [reflexivity|]. exists ll, l. split; [reflexivity|]. split; [|exact El].
      apply list_read; [exact Hr|exact W|]. intros d Hdin. destruct (Hd d Hdin) as (sector & Hp & Hrk). exists sector. split; [exact Hp|]. split; [exact HPn|].
      intros k0 y0 Hin0. destruct (Hent k0 y0 Hin0) as [Ha0 C]. destruct (los_apart k0 Ha0) as (A1 & _ & A2). split; [now apply los_lower|]. split; [exact A1|].
      destruct (in_dec string_dec k0 (map fst sector_args)) as [Hs|Hs].
      * left. split; [exact Hs|]. rewrite (Hrk k0 (A2 Hs)). assert (B3 : ~ In k0 ["device_list"; "site_detection"]).
        { pose proof (all_names (fun k => negb (mem k ["device_list"; "site_detection"])) radio_keys eq_refl k0 (A2 Hs)) as G. cbv beta in G. apply mem_not_In. now apply negb_true_iff. }
        destruct C as [[-> _]|[[-> _]|(_ & _ & C)]]; [destruct B3; now left|destruct B3; right; now left|exact C].
      * right. split; [exact Hs|]. intros d' Hd' key x Hkx. destruct C as [[_ C]|[[_ C]|(_ & C1 & C2)]]; [congruence| |rewrite <- C2, Hd' in C1; destruct C1]. rewrite Hd' in C. injection C as ->.
        assert (Hkd : In key (map fst detection_args)) by (rewrite <- Hek; apply in_map_iff; exists (key, x); auto). destruct (detection_apart key Hkd) as (-> & _ & D1 & D2). auto.
    + rewrite Et in Hxy. injection Hxy as <-. right. right. left. split; [exact Ha|]. split; [reflexivity|]. exists e. split; [reflexivity|]. split; [reflexivity|].
      change (top_sub rf "site_detection" (merge e P)) with (detection_from (merge e P)). apply detection_read; [exact Hsd|exact Eo|exact HPn|].
      intros k0 y0 Hin0. destruct (Hent k0 y0 Hin0) as [Ha0 C]. destruct (los_apart k0 Ha0) as (_ & A1 & _). split; [now apply los_lower|]. split; [exact A1|].
      destruct C as [[_ ->]|[[_ ->]|(_ & C1 & ->)]]; [left; intros d' ?; discriminate|now right|left; intros d' Hd'; rewrite Hd' in C1; exact C1].
    + rewrite flat_tov in Hxy by (now apply Hfl). injection Hxy as <-. left. split; [exact Ha|]. split; [now apply los_enum|]. split; [now apply Hfl|reflexivity].
  - exists P. split; [exact EP|]. unfold los_from. rewrite E1. rewrite <- E. unfold los_params at 1 2. rewrite E2.
    unfold los_params in E. apply rbind_ok in E. destruct E as (e0 & Ee & _). rewrite Ee.
    replace (map (fun a : string * option val => (fst a, v (fst a))) los_args) with e0; [reflexivity|]. rewrite (fill_map _ _ _ (nodup_dec los_args eq_refl) Ee) at 1.
    apply map_ext_in. intros a Ha. f_equal. apply (los_setting kw e0 Ee). now apply in_map.
Qed.
End Rf.
