(** Proofs for C29 and C57. *)
From Coq Require Import QArith Qround Qabs Qminmax Lqa.
From Verif Require Import Base Dict QLib MonadLib TopologyModel StatusModel SetupModel GeoModel LosRangeModel SecLinkModel SecLinkSpec.
Local Open Scope Q_scope.
Local Open Scope list_scope.

(** ** Angles *)
Lemma abs_case x : (0 <= x /\ Qabs x == x) \/ (x < 0 /\ Qabs x == - x).
Proof. destruct (Qlt_le_dec x 0) as [H|H]; [right|left]; (split; [exact H|]); [apply Qabs_neg; lra|now apply Qabs_pos]. Qed.
Lemma between_le a b x : between a b <= x <-> Qabs (a - b) <= x \/ 360 - Qabs (a - b) <= x.
Proof. unfold between. apply Q.min_le_iff. Qed.
Lemma between_cases a b : (between a b == Qabs (a - b) /\ Qabs (a - b) <= 180) \/ (between a b == 360 - Qabs (a - b) /\ 180 <= Qabs (a - b)).
Proof.
  unfold between. destruct (Qlt_le_dec 180 (Qabs (a - b))).
  - right. split; [apply Q.min_r; lra|lra].
  - left. split; [apply Q.min_l; lra|lra].
Qed.
Lemma between_compat a b c : b == c -> between a b == between a c.
Proof. intros E. unfold between. now rewrite E. Qed.
Lemma between_sym a b : between a b == between b a.
Proof. unfold between. now rewrite (Qabs_Qminus a b). Qed.
Lemma angle_delta_between a b : direction a -> direction b -> Qabs (angle_delta a b) == between a b.
Proof.
  intros [A1 A2] [B1 B2]. unfold angle_delta. cbv zeta.
  destruct (Qle_bool (a - b) 180) eqn:E1; cbn [negb].
  - apply qle_true in E1. destruct (Qle_bool (a - b) (-(180))) eqn:E2.
    + apply qle_true in E2. destruct (between_cases a b) as [[-> H]|[-> H]]; destruct (abs_case (a - b)); destruct (abs_case (a - b + 360)); lra.
    + apply qle_false in E2. destruct (between_cases a b) as [[-> H]|[-> H]]; destruct (abs_case (a - b)); lra.
  - apply qle_false in E1. destruct (between_cases a b) as [[-> H]|[-> H]]; destruct (abs_case (a - b)); destruct (abs_case (a - b - 360)); lra.
Qed.

Lemma opposite_unique a b c : direction a -> opposite a b -> opposite a c -> b == c.
Proof. intros [A1 A2] [[B1 B2] B] [[C1 C2] C]. destruct B, C; lra. Qed.
Lemma opposite_mod bearing e : direction (tx_azimuth bearing e) -> opposite (tx_azimuth bearing e) (rx_azimuth bearing e).
Proof.
  intros [A1 A2]. unfold rx_azimuth, FULL_ROTATION_ANGLE. cbv zeta. set (a := tx_azimuth bearing e) in *.
  destruct (Qlt_le_dec a 180) as [H|H].
  - assert (E : Qfloor ((a + 180) / 360) = 0%Z).
    { assert (0 <= (a + 180) / 360) by (apply Qle_shift_div_l; lra). assert ((a + 180) / 360 < 1) by (apply Qlt_shift_div_r; lra).
      pose proof (Qfloor_le ((a + 180) / 360)). pose proof (Qlt_floor ((a + 180) / 360)).
      assert (inject_Z (Qfloor ((a + 180) / 360)) < inject_Z 1) by (change (inject_Z 1) with 1; lra).
      assert (inject_Z 0 < inject_Z (Qfloor ((a + 180) / 360) + 1)) by (change (inject_Z 0) with 0; lra).
      rewrite <- Zlt_Qlt in *. lia. }
    rewrite E. change (inject_Z 0) with 0. split; [split; lra|left; lra].
  - assert (E : Qfloor ((a + 180) / 360) = 1%Z).
    { assert (1 <= (a + 180) / 360) by (apply Qle_shift_div_l; lra). assert ((a + 180) / 360 < 2) by (apply Qlt_shift_div_r; lra).
      pose proof (Qfloor_le ((a + 180) / 360)). pose proof (Qlt_floor ((a + 180) / 360)).
      assert (inject_Z (Qfloor ((a + 180) / 360)) < inject_Z 2) by (change (inject_Z 2) with 2; lra).
      assert (inject_Z 1 < inject_Z (Qfloor ((a + 180) / 360) + 1)) by (change (inject_Z 1) with 1; lra).
      rewrite <- Zlt_Qlt in *. lia. }
    rewrite E. change (inject_Z 1) with 1. split; [split; lra|right; lra].
Qed.

(** ** The loop over the sectors of a site *)
Lemma nearest_spec dir l : forall m best, let r := nearest l dir m best in
  (r = best /\ forall i x, In (i, x) l -> m <= Qabs (angle_delta (ss_az x) dir)) \/
  (exists i x, r = Some i /\ In (i, x) l /\ Qabs (angle_delta (ss_az x) dir) < m /\
     forall j y, In (j, y) l -> Qabs (angle_delta (ss_az x) dir) <= Qabs (angle_delta (ss_az y) dir)).
Proof.
  induction l as [|[i x] l IH]; intros m best; cbn [nearest]; cbv zeta.
  - left. split; [reflexivity|]. intros i x [].
  - destruct (Qle_bool m (Qabs (angle_delta (ss_az x) dir))) eqn:E; cbn [negb].
    + apply qle_true in E. destruct (IH m best) as [(R & H)|(j & y & R & Hy & L & H)].
      * left. split; [exact R|]. intros j y [Ey|Hy]; [injection Ey as <- <-; exact E|eauto].
      * right. exists j, y. split; [exact R|]. split; [now right|]. split; [exact L|]. intros k z [Ez|Hz]; [injection Ez as <- <-; lra|eauto].
    + apply qle_false in E. destruct (IH (Qabs (angle_delta (ss_az x) dir)) (Some i)) as [(R & H)|(j & y & R & Hy & L & H)].
      * right. exists i, x. split; [exact R|]. split; [now left|]. split; [exact E|]. intros k z [Ez|Hz]; [injection Ez as <- <-; lra|eauto].
      * right. exists j, y. split; [exact R|]. split; [now right|]. split; [lra|]. intros k z [Ez|Hz]; [injection Ez as <- <-; lra|eauto].
Qed.

Section Choice.
Variables (secs : dict string ssec).
Hypothesis W : dwf secs.
Hypothesis A : forall i x, dget secs i = Some x -> direction (ss_az x).
Lemma sectors_of_In s i x : In (i, x) (sectors_of secs s) <-> dget secs i = Some x /\ ss_site x = s.
Proof.
  unfold sectors_of. rewrite filter_In, (dget_In_iff secs i x W). cbn [snd]. split; intros [H1 H2]; (split; [exact H1|]).
  - now apply beq_true in H2.
  - subst. apply beq_refl.
Qed.
Lemma nearest_some s dir m i : direction dir -> nearest (sectors_of secs s) dir m None = Some i ->
  exists x, dget secs i = Some x /\ ss_site x = s /\ between (ss_az x) dir < m /\ closest secs s dir i.
Proof.
  intros D E. destruct (nearest_spec dir (sectors_of secs s) m None) as [(R & H)|(j & x & R & Hx & L & H)]; rewrite E in R; [discriminate|].
  injection R as <-. apply sectors_of_In in Hx. destruct Hx as [Hx S]. exists x. split; [exact Hx|]. split; [exact S|].
  rewrite <- (angle_delta_between _ _ (A _ _ Hx) D). split; [exact L|].
  intros x' j y Gx Gy Sy. rewrite Hx in Gx. injection Gx as <-. rewrite <- (angle_delta_between _ _ (A _ _ Hx) D), <- (angle_delta_between _ _ (A _ _ Gy) D).
  apply (H j y), sectors_of_In. auto.
Qed.
Lemma nearest_none s dir m : direction dir -> nearest (sectors_of secs s) dir m None = None ->
  forall i x, dget secs i = Some x -> ss_site x = s -> m <= between (ss_az x) dir.
Proof.
  intros D E i x Hx S. rewrite <- (angle_delta_between _ _ (A _ _ Hx) D).
  destruct (nearest_spec dir (sectors_of secs s) m None) as [(R & H)|(j & y & R & Hy & L & H)]; rewrite E in R; [|discriminate].
  apply (H i x), sectors_of_In. auto.
Qed.
End Choice.

(** ** Sites and azimuths of sectors stay *)
Definition geo (secs : dict string ssec) : list (string * (string * Q)) := map (fun p => (fst p, (ss_site (snd p), ss_az (snd p)))) secs.
Lemma geo_get s s' : geo s = geo s' -> forall i x, dget s i = Some x -> exists x', dget s' i = Some x' /\ ss_site x' = ss_site x /\ ss_az x' = ss_az x.
Proof.
  revert s'. induction s as [|[k v] s IH]; intros [|[k' v'] s'] E i x H; cbn in *; try discriminate.
  injection E as -> Es Ea E. destruct (beq i k'); [injection H as <-; eauto|eauto].
Qed.
Lemma geo_keys s s' : geo s = geo s' -> dkeys s = dkeys s'.
Proof. intros E. apply (f_equal (map fst)) in E. unfold geo in E. rewrite !map_map in E. exact E. Qed.
Lemma geo_wf s s' : geo s = geo s' -> dwf s -> dwf s'.
Proof. unfold dwf. intros E. now rewrite (geo_keys _ _ E). Qed.
Lemma geo_set s i x x' : dget s i = Some x -> ss_site x' = ss_site x -> ss_az x' = ss_az x -> geo (dset s i x') = geo s.
Proof.
  intros H Es Ea. induction s as [|[k v] s IH]; cbn in *; [discriminate|].
  destruct (beq i k) eqn:E; cbn; [injection H as ->; now rewrite Es, Ea|f_equal; auto].
Qed.
Lemma geo_sectors_of s s' site : geo s = geo s' -> geo (sectors_of s site) = geo (sectors_of s' site).
Proof.
  revert s'. induction s as [|[k v] s IH]; intros [|[k' v'] s'] E; cbn in *; try discriminate; [reflexivity|].
  injection E as -> Es Ea E. unfold sectors_of in *. cbn. rewrite Es. destruct (beq (ss_site v') site); cbn; [rewrite Es, Ea; f_equal; auto|auto].
Qed.
Lemma geo_nearest s s' dir : geo s = geo s' -> forall m b, nearest s dir m b = nearest s' dir m b.
Proof.
  revert s'. induction s as [|[k v] s IH]; intros [|[k' v'] s'] E m b; cbn in *; try discriminate; [reflexivity|].
  injection E as -> Es Ea E. rewrite Ea. destruct (negb _); apply IH, E.
Qed.
Lemma set_channel_geo i c s s' : set_channel i c s = Ok s' -> geo s' = geo s.
Proof. unfold set_channel. intros H. apply rbind_ok in H. destruct H as (x & Hx & H). apply get_ok in Hx. injection H as <-. eapply geo_set; eauto. Qed.
Lemma propose_geo sstatus i s s' : propose_sector sstatus i s = Ok s' -> geo s' = geo s.
Proof.
  unfold propose_sector. intros H. apply rbind_ok in H. destruct H as (x & Hx & H). apply get_ok in Hx. apply rbind_ok in H. destruct H as (_ & _ & H).
  apply rbind_ok in H. destruct H as (_ & _ & H). injection H as <-. eapply geo_set; eauto.
Qed.

(** ** The loop over the links *)
Section Loop.
Variables (stype : string -> site_type) (sstatus : string -> status) (scan : string -> Q) (bearing : string -> string -> Q).
Variables (force : bool) (chan : option (dict (string * string) Z)) (w0 : sworld).
Hypothesis W0 : wf_world stype bearing w0.
Notation step := (link_step stype sstatus scan bearing force chan).
Let S0 := w_secs w0.
Let L0 := w_links w0.
Definition flip (e : string * string) : string * string := (snd e, fst e).

(** the pair found for a link *)
Definition found (e : string * string) : option (string * string) :=
  match nearest (sectors_of S0 (fst e)) (tx_azimuth bearing e) (tx_limit scan e) None,
        nearest (sectors_of S0 (snd e)) (rx_azimuth bearing e) (rx_limit stype scan force e) None with
  | Some tx, Some rx => Some (tx, rx)
  | _, _ => None
  end.

Definition given (e : string * string) (p : string * string) : Prop :=
  exists l0, dget L0 e = Some l0 /\ sl_wireless l0 = true /\ sectors_are l0 None /\ found e = Some p.
Definition valid (e : string * string) (p : string * string) : Prop := in_range stype scan bearing force S0 (fst e) (snd e) (fst p) (snd p).

(** what is known of link [e] once the links [P] are done *)
Definition link_inv (P : list (string * string)) (e : string * string) (l0 l : slink) : Prop :=
  sl_wireless l = sl_wireless l0 /\ sl_status l = sl_status l0 /\ exists p, sectors_are l p /\
  ( (sectors_are l0 p /\ (In e P -> sl_wireless l0 = true ->
        match p with Some p => valid e p | None => found e = None /\ active (sl_status l0) = false end)) \/
    (exists p', p = Some p' /\ (given e p' \/ given (flip e) (flip p'))) ).
Definition inv (P : list (string * string)) (w : sworld) : Prop :=
  geo (w_secs w) = geo S0 /\ dkeys (w_links w) = dkeys L0 /\
  (forall e l, dget (w_links w) e = Some l -> exists l0, dget L0 e = Some l0 /\ link_inv P e l0 l) /\
  (forall e l r l0 r0, fst e <> snd e -> dget (w_links w) e = Some l -> dget (w_links w) (flip e) = Some r -> dget L0 e = Some l0 -> dget L0 (flip e) = Some r0 ->
     sl_wireless l0 = true -> sl_wireless r0 = true -> sectors_are l0 None -> sectors_are r0 None -> sl_rx r = sl_tx l /\ sl_tx r = sl_rx l).

Lemma flip_flip e : flip (flip e) = e.
Proof. now destruct e. Qed.
Lemma link_inv_mono P Q e l0 l : (forall x, In x Q -> x = e -> In x P) -> link_inv P e l0 l -> link_inv Q e l0 l.
Proof.
  intros HI (A & B & p & C & D). split; [exact A|]. split; [exact B|]. exists p. split; [exact C|].
  destruct D as [(D1 & D2)|D]; [left|right; exact D]. split; [exact D1|]. intros H. apply D2. now apply HI.
Qed.
Lemma sectors_are_inj l p q : sectors_are l p -> sectors_are l q -> p = q.
Proof. intros [A B] [C D]. destruct p as [[? ?]|], q as [[? ?]|]; cbn in *; congruence. Qed.

Lemma inv_start : inv [] w0.
Proof using W0.
  split; [reflexivity|]. split; [reflexivity|]. split.
  - intros [a b] l E. exists l. split; [exact E|]. split; [reflexivity|]. split; [reflexivity|].
    destruct (wf_pairs _ _ _ W0 a b l E) as [H|(tx & rx & x & y & H & _)]; eexists; (split; [exact H|]); left; (split; [exact H|]); intros [].
  - intros e l r l0 r0 _ E1 E2 E3 E4 _ _ [A1 A2] [B1 B2]. fold L0 in E1, E2. rewrite E1 in E3. rewrite E2 in E4. injection E3 as ->. injection E4 as ->. cbn in *. split; congruence.
Qed.

(** validated sectors are in range *)
Lemma get_geo secs i x : geo secs = geo S0 -> dget secs i = Some x -> exists x0, dget S0 i = Some x0 /\ ss_site x0 = ss_site x /\ ss_az x0 = ss_az x.
Proof. intros G. now apply geo_get. Qed.
Lemma reach_rx e d : d < rx_limit stype scan force e <-> reach stype scan force (snd e) true d.
Proof using Type.
  unfold rx_limit, reach, SECTOR_LINK_ANGLE_TOLERANCE, FULL_ROTATION_ANGLE. destruct (beq (stype (snd e)) CN), force; cbn [andb orb negb]; try reflexivity.
  assert (E : 360 / 2 == 180) by reflexivity. rewrite E. reflexivity.
Qed.
Lemma reach_tx e d : d < tx_limit scan e <-> reach stype scan force (fst e) false d.
Proof using Type. unfold tx_limit, reach. cbn [andb]. reflexivity. Qed.
Lemma tx_dir e : direction (tx_azimuth bearing e).
Proof using W0. apply (wf_bearing _ _ _ W0). Qed.
Lemma rx_dir e : direction (rx_azimuth bearing e).
Proof using W0. apply (opposite_mod bearing e (tx_dir e)). Qed.

Lemma found_some e p : found e = Some p -> best_pair stype scan bearing force S0 (fst e) (snd e) (fst p) (snd p).
Proof using W0.
  unfold found. destruct (nearest _ _ (tx_limit scan e) _) as [tx|] eqn:E1; [|discriminate]. destruct (nearest _ _ (rx_limit stype scan force e) _) as [rx|] eqn:E2; [|discriminate].
  intros E. injection E as <-. cbn [fst snd].
  apply nearest_some in E1; [|apply W0|apply W0|apply tx_dir]. apply nearest_some in E2; [|apply W0|apply W0|apply rx_dir].
  destruct E1 as (x & Hx & Sx & Lx & Cx), E2 as (y & Hy & Sy & Ly & Cy). apply reach_tx in Lx. apply reach_rx in Ly.
  split; [exists x; auto|]. split; [exact Cx|]. exists (rx_azimuth bearing e). split; [apply opposite_mod, tx_dir|]. split; [exists y; auto|exact Cy].
Qed.
Lemma reach_compat s b d d' : d == d' -> reach stype scan force s b d -> reach stype scan force s b d'.
Proof using Type. unfold reach. intros E H. destruct (_ && _); lra. Qed.
Lemma found_none e : found e = None -> no_pair stype scan bearing force S0 (fst e) (snd e).
Proof using W0.
  unfold found. intros E tx rx ((x & Hx & Sx & Rx) & dir & O & (y & Hy & Sy & Ry)).
  assert (Ed : dir == rx_azimuth bearing e) by (eapply opposite_unique; [apply (tx_dir e)|exact O|apply opposite_mod, tx_dir]).
  destruct (nearest _ _ (tx_limit scan e) _) as [tx'|] eqn:E1.
  - destruct (nearest _ _ (rx_limit stype scan force e) _) as [rx'|] eqn:E2; [discriminate|].
    pose proof (nearest_none _ (wf_secs _ _ _ W0) (wf_az _ _ _ W0) _ _ _ (rx_dir e) E2 rx y Hy Sy) as H.
    apply (reach_compat _ _ _ _ (between_compat _ _ _ Ed)) in Ry. apply reach_rx in Ry. lra.
  - pose proof (nearest_none _ (wf_secs _ _ _ W0) (wf_az _ _ _ W0) _ _ _ (tx_dir e) E1 tx x Hx Sx) as H.
    apply reach_tx in Rx. unfold tx_azimuth in H. lra.
Qed.
Lemma found_cur secs e : geo secs = geo S0 ->
  nearest (sectors_of secs (fst e)) (tx_azimuth bearing e) (tx_limit scan e) None = nearest (sectors_of S0 (fst e)) (tx_azimuth bearing e) (tx_limit scan e) None /\
  nearest (sectors_of secs (snd e)) (rx_azimuth bearing e) (rx_limit stype scan force e) None = nearest (sectors_of S0 (snd e)) (rx_azimuth bearing e) (rx_limit stype scan force e) None.
Proof using Type. intros G. split; apply geo_nearest, geo_sectors_of, G. Qed.

Lemma validated secs e l tx rx : geo secs = geo S0 -> sl_tx l = Some tx -> sl_rx l = Some rx ->
  (exists x, dget S0 tx = Some x /\ ss_site x = fst e) -> (exists y, dget S0 rx = Some y /\ ss_site y = snd e) ->
  validate_link_sectors stype scan bearing force secs e l = Ok tt -> valid e (tx, rx).
Proof.
  intros G T R (x & Hx & Sx) (y & Hy & Sy) H. unfold validate_link_sectors in H. rewrite T, R in H.
  apply rbind_ok in H. destruct H as (d & Hd & H). apply rbind_ok in H. destruct H as (u & Hu & H). apply guard_ok in Hu.
  unfold tx_dev in Hd. rewrite T in Hd. destruct (sl_wireless l) eqn:Wl; [|discriminate]. apply rbind_ok in Hd. destruct Hd as (x' & Hx' & Hd). apply get_ok in Hx'. injection Hd as <-.
  destruct (get_geo _ _ _ G Hx') as (x0 & Hx0 & _ & Ax). rewrite Hx in Hx0. injection Hx0 as <-. rewrite <- Ax in Hu. apply Bool.negb_true_iff, qle_false in Hu.
  rewrite angle_delta_between in Hu by (apply tx_dir || eapply (wf_az _ _ _ W0); exact Hx).
  split.
  - exists x. split; [exact Hx|]. split; [exact Sx|]. eapply reach_compat; [apply between_sym|]. apply reach_tx. exact Hu.
  - exists (rx_azimuth bearing e). split; [apply opposite_mod, tx_dir|]. exists y. split; [exact Hy|]. split; [exact Sy|].
    destruct (force && beq (stype (snd e)) CN) eqn:F.
    + unfold reach. replace (true && force && beq (stype (snd e)) CN) with true by (cbn; now rewrite F).
      destruct (between_cases (ss_az y) (rx_azimuth bearing e)) as [[-> ?]|[-> ?]]; lra.
    + apply rbind_ok in H. destruct H as (d & Hd & H). apply guard_ok in H. unfold rx_dev in Hd. rewrite R, Wl in Hd. apply rbind_ok in Hd. destruct Hd as (y' & Hy' & Hd). apply get_ok in Hy'. injection Hd as <-.
      destruct (get_geo _ _ _ G Hy') as (y0 & Hy0 & _ & Ay). rewrite Hy in Hy0. injection Hy0 as <-. rewrite <- Ay in H. apply Bool.negb_true_iff, qle_false in H.
      rewrite angle_delta_between in H by (apply rx_dir || eapply (wf_az _ _ _ W0); exact Hy).
      eapply reach_compat; [apply between_sym|]. unfold reach. replace (true && force && beq (stype (snd e)) CN) with false by (cbn; now rewrite F). exact H.
Qed.

Lemma assign_ok_eq secs e tx rx l l' : assign_sectors secs e tx rx l = Ok l' -> l' = mkSLink (sl_wireless l) (sl_status l) (Some tx) (Some rx).
Proof.
  unfold assign_sectors. intros H. apply rbind_ok in H. destruct H as (? & _ & H). apply rbind_ok in H. destruct H as (? & _ & H).
  apply rbind_ok in H. destruct H as (? & _ & H). apply rbind_ok in H. destruct H as (? & _ & H). now injection H.
Qed.
Lemma sectors_on e l0 p : dget L0 e = Some l0 -> sectors_are l0 (Some p) -> (exists x, dget S0 (fst p) = Some x /\ ss_site x = fst e) /\ (exists y, dget S0 (snd p) = Some y /\ ss_site y = snd e).
Proof.
  intros E H. destruct e as [a b]. destruct (wf_pairs _ _ _ W0 a b l0 E) as [N|(tx & rx & x & y & H' & Hx & Sx & Hy & Sy)].
  - pose proof (sectors_are_inj _ _ _ H N). discriminate.
  - pose proof (sectors_are_inj _ _ _ H H') as Q. injection Q as ->. cbn. split; eauto.
Qed.

Lemma inv_step P w w' e : inv P w -> ~ In e P -> step w e = Ok w' -> inv (P ++ [e]) w'.
Proof.
  intros (G & K & I & M) N H. unfold link_step in H. apply rbind_ok in H. destruct H as (l & Hl & H). apply get_ok in Hl.
  destruct (I e l Hl) as (l0 & Hl0 & Li). pose proof Li as (Wl & Sl & p & Hp & Cp).
  assert (Ext : link_inv (P ++ [e]) e l0 l -> inv (P ++ [e]) w).
  { intros HQ. split; [exact G|]. split; [exact K|]. split; [|exact M]. intros x lx Hx. destruct (beq_spec x e) as [->|Ne].
    - rewrite Hl in Hx. injection Hx as <-. eauto.
    - destruct (I x lx Hx) as (lx0 & A & B). exists lx0. split; [exact A|]. eapply link_inv_mono; [|exact B]. intros y Hy ->. apply in_app_iff in Hy. destruct Hy as [Hy|[<-|[]]]; [exact Hy|congruence]. }
  destruct (sl_wireless l) eqn:Wi; cbn [negb] in H.
  2:{ injection H as <-. apply Ext.
      split; [congruence|]. split; [exact Sl|]. exists p. split; [exact Hp|]. destruct Cp as [(C1 & _)|C]; [left|right; exact C]. split; [exact C1|]. intros _ F. rewrite <- Wl in F. congruence. }
  destruct p as [[tx rx]|].
  - (* the link has sectors *)
    destruct Hp as [Ht Hr]. cbn in Ht, Hr. rewrite Ht in H. apply rbind_ok in H. destruct H as ([] & Hv & H). injection H as <-.
    apply Ext.
    split; [congruence|]. split; [exact Sl|]. exists (Some (tx, rx)). split; [split; assumption|]. destruct Cp as [(C1 & _)|C]; [left|right; exact C]. split; [exact C1|]. intros _ _.
    destruct (sectors_on e l0 (tx, rx) Hl0 C1) as [O1 O2]. eapply validated; eauto.
  - destruct Hp as [Ht Hr]. cbn in Ht, Hr. rewrite Ht, Hr in H. destruct Cp as [(C1 & C2)|(p' & F & _)]; [|discriminate].
    destruct (found_cur (w_secs w) e G) as [F1 F2]. rewrite F1, F2 in H. clear F1 F2.
    destruct (nearest (sectors_of S0 (fst e)) (tx_azimuth bearing e) (tx_limit scan e) None) as [tx|] eqn:E1;
    [destruct (nearest (sectors_of S0 (snd e)) (rx_azimuth bearing e) (rx_limit stype scan force e) None) as [rx|] eqn:E2|].
    1:{ (* a pair is found *)
      assert (Fe : found e = Some (tx, rx)) by (unfold found; now rewrite E1, E2).
      assert (Ge : given e (tx, rx)) by (exists l0; split; [exact Hl0|]; split; [congruence|]; split; assumption).
      apply rbind_ok in H. destruct H as (l' & Hl' & H). apply assign_ok_eq in Hl'.
      apply rbind_ok in H. destruct H as (links & Hk & H). apply rbind_ok in H. destruct H as (secs & Hs & H). injection H as <-.
      assert (Gs : geo secs = geo S0).
      { rewrite <- G. destruct chan as [m|]; [|now injection Hs as <-]. destruct (active (sl_status l)); [|now injection Hs as <-].
        apply rbind_ok in Hs. destruct Hs as (c & _ & Hs). apply rbind_ok in Hs. destruct Hs as (s1 & H1 & Hs). apply rbind_ok in Hs. destruct Hs as (s2 & H2 & Hs). apply rbind_ok in Hs. destruct Hs as (s3 & H3 & Hs).
        rewrite (propose_geo _ _ _ _ Hs), (propose_geo _ _ _ _ H3), (set_channel_geo _ _ _ _ H2). eapply set_channel_geo; eauto. }
      assert (Me : dmem (w_links w) e = true) by (apply dmem_Some; eauto).
      fold (flip e) in Hk.
      assert (D : dkeys links = dkeys (w_links w) /\ (forall x, x <> e -> x <> flip e -> dget links x = dget (w_links w) x) /\
        (flip e <> e -> dget links e = Some l' /\ (forall r, dget links (flip e) = Some r -> exists r1, dget (w_links w) (flip e) = Some r1 /\ r = mkSLink (sl_wireless r1) (sl_status r1) (Some rx) (Some tx))) /\
        (flip e = e -> dget links e = Some (mkSLink (sl_wireless l) (sl_status l) (Some rx) (Some tx)))).
      { destruct (dget (dset (w_links w) e l') (flip e)) as [r1|] eqn:Er.
        - apply rbind_ok in Hk. destruct Hk as (r & Hr' & Hk). injection Hk as <-. apply assign_ok_eq in Hr'. split; [|split; [|split]].
          + assert (Mf : dmem (dset (w_links w) e l') (flip e) = true) by (apply dmem_Some; eauto). rewrite dkeys_set, Mf, dkeys_set, Me. reflexivity.
          + intros x A B. rewrite !dget_set_neq by assumption. reflexivity.
          + intros A. rewrite (dget_set_neq _ (flip e) e) by congruence. rewrite dget_set_eq. split; [reflexivity|]. rewrite dget_set_eq. intros r' Q. injection Q as <-.
            rewrite dget_set_neq in Er by exact A. exists r1. auto.
          + intros A. rewrite A, dget_set_eq in *. injection Er as <-. subst r l'. reflexivity.
        - injection Hk as <-. split; [|split; [|split]].
          + rewrite dkeys_set, Me. reflexivity.
          + intros x A B. rewrite dget_set_neq by assumption. reflexivity.
          + intros A. rewrite dget_set_eq. split; [reflexivity|]. intros r Q. congruence.
          + intros A. rewrite A, dget_set_eq in Er. discriminate. }
      destruct D as (D1 & D2 & D3 & D4). split; [exact Gs|]. cbn [w_secs w_links]. split; [congruence|]. split.
      - intros x lx Hx. destruct (beq_spec x e) as [->|Ne].
        + exists l0. split; [exact Hl0|]. destruct (beq_spec (flip e) e) as [Fe'|Fe'].
          * rewrite (D4 Fe') in Hx. injection Hx as <-. split; [cbn; congruence|]. split; [exact Sl|]. exists (Some (rx, tx)). split; [split; reflexivity|]. right. exists (rx, tx). split; [reflexivity|]. right. rewrite Fe'. exact Ge.
          * rewrite (proj1 (D3 Fe')) in Hx. injection Hx as <-. subst l'. split; [cbn; congruence|]. split; [exact Sl|]. exists (Some (tx, rx)). split; [split; reflexivity|]. right. eauto.
        + destruct (beq_spec x (flip e)) as [->|Nf].
          * destruct (proj2 (D3 Ne) lx Hx) as (r1 & Hr1 & ->). destruct (I _ _ Hr1) as (r0 & Hr0 & (Wr & Sr & _)). exists r0. split; [exact Hr0|]. split; [exact Wr|]. split; [exact Sr|].
            exists (Some (rx, tx)). split; [split; reflexivity|]. right. exists (rx, tx). split; [reflexivity|]. right. rewrite flip_flip. exact Ge.
          * rewrite (D2 x Ne Nf) in Hx. destruct (I x lx Hx) as (lx0 & A & B). exists lx0. split; [exact A|]. eapply link_inv_mono; [|exact B].
            intros y Hy ->. apply in_app_iff in Hy. destruct Hy as [Hy|[<-|[]]]; [exact Hy|congruence].
      - intros x lx r lx0 r0 Nx Hx Hr' Hx0 Hr0 W1 W2 B1 B2. destruct (beq_spec x e) as [->|Ne].
        + assert (Fn : flip e <> e) by (intros Q; apply Nx; apply (f_equal snd) in Q; exact Q). destruct (D3 Fn) as [D5 D6]. rewrite D5 in Hx. injection Hx as <-. destruct (D6 r Hr') as (r1 & _ & ->). subst l'. cbn. auto.
        + destruct (beq_spec x (flip e)) as [->|Nf].
          * rewrite flip_flip in *. destruct (D3 Ne) as [D5 D6]. rewrite D5 in Hr'. injection Hr' as <-. destruct (D6 lx Hx) as (r1 & _ & ->). subst l'. cbn. auto.
          * rewrite (D2 x Ne Nf) in Hx. assert (Nx' : flip x <> e) by (intros <-; rewrite flip_flip in Nf; congruence). assert (Nx2 : flip x <> flip e) by (intros Q; apply Ne; rewrite <- (flip_flip x), Q; apply flip_flip).
            rewrite (D2 _ Nx' Nx2) in Hr'. eapply M; eauto. }
    all: assert (Fe : found e = None) by (unfold found; rewrite E1; try rewrite E2; reflexivity).
    all: apply rbind_ok in H; destruct H as ([] & Ha & H); apply guard_ok, Bool.negb_true_iff in Ha; injection H as <-.
    all: assert (Hs : mkSLink true (sl_status l) None None = l) by (clear - Ht Hr Wi; destruct l; cbn in *; congruence).
    all: rewrite Hs.
    all: assert (Hd : dset (w_links w) e l = w_links w) by (clear - Hl; induction (w_links w) as [|[k v] t IH]; cbn in *; [discriminate|]; destruct (beq e k) eqn:E; [congruence|f_equal; auto]).
    all: rewrite Hd; replace (mkSWorld (w_secs w) (w_links w)) with w by (now destruct w).
    all: apply Ext; (split; [congruence|]); (split; [exact Sl|]); exists None; (split; [split; assumption|]); left; (split; [exact C1|]);
         intros _ _; (split; [exact Fe|congruence]).
Qed.

Lemma inv_all w' : add_sectors_to_links stype sstatus scan bearing force chan w0 = Ok w' -> inv (dkeys L0) w'.
Proof.
  unfold add_sectors_to_links. fold L0. intros H.
  assert (X : forall l P w, NoDup (P ++ l) -> inv P w -> foldM step w l = Ok w' -> inv (P ++ l) w').
  { induction l as [|e l IH]; intros P w ND Iv F; cbn [foldM] in F; [injection F as <-; now rewrite app_nil_r|].
    apply rbind_ok in F. destruct F as (w1 & F1 & F). replace (P ++ e :: l) with ((P ++ [e]) ++ l) in * by (rewrite <- app_assoc; reflexivity).
    apply (IH (P ++ [e]) w1); [exact ND| |exact F]. eapply inv_step; [exact Iv| |exact F1]. intros Hin. rewrite <- app_assoc in ND. cbn in ND. apply NoDup_remove_2 in ND. apply ND. apply in_app_iff. now left. }
  apply (X (dkeys L0) [] w0); [apply W0|apply inv_start|exact H].
Qed.

Lemma assigned_ok w' a b l : add_sectors_to_links stype sstatus scan bearing force chan w0 = Ok w' -> dget (w_links w0) (a, b) = Some l ->
  exists l' p, dget (w_links w') (a, b) = Some l' /\ sl_wireless l' = sl_wireless l /\ sl_status l' = sl_status l /\ sectors_are l' p /\
    outcome_ok stype scan bearing force w0 a b l p.
Proof.
  intros H E. destruct (inv_all w' H) as (G & K & I & M).
  assert (In (a, b) (dkeys (w_links w'))) as Hin by (rewrite K; apply In_dkeys; eauto). apply In_dkeys in Hin. destruct Hin as (l' & Hl').
  destruct (I _ _ Hl') as (l0 & Hl0 & A & B & p & C & D). fold L0 in E. rewrite E in Hl0. injection Hl0 as <-.
  exists l', p. split; [exact Hl'|]. split; [exact A|]. split; [exact B|]. split; [exact C|].
  destruct D as [(D1 & D2)|(p' & -> & [D|D])].
  - right. destruct (sl_wireless l) eqn:Wl; [|exact D1].
    assert (Hi : In (a, b) (dkeys L0)) by (apply In_dkeys; eauto). specialize (D2 Hi eq_refl).
    destruct p as [[tx rx]|]; [left; split; [exact D1|exact D2]|]. destruct D2 as [F N]. split; [exact D1|]. split; [exact N|]. exact (found_none (a, b) F).
  - destruct D as (l0 & Hl0 & W1 & N & F). rewrite E in Hl0. injection Hl0 as <-. right. rewrite W1. destruct p' as [tx rx]. right. split; [exact N|]. exact (found_some (a, b) _ F).
  - destruct D as (r & Hr & W1 & N & F). left. destruct p' as [tx rx]. exists tx, rx, r. split; [reflexivity|]. split; [exact Hr|]. split; [exact W1|]. split; [exact N|]. exact (found_some _ _ F).
Qed.
Lemma mirrored w' a b l r l' r' : add_sectors_to_links stype sstatus scan bearing force chan w0 = Ok w' -> a <> b ->
  dget (w_links w0) (a, b) = Some l -> dget (w_links w0) (b, a) = Some r -> dget (w_links w') (a, b) = Some l' -> dget (w_links w') (b, a) = Some r' ->
  sl_wireless l = true -> sl_wireless r = true -> sectors_are l None -> sectors_are r None -> sl_rx r' = sl_tx l' /\ sl_tx r' = sl_rx l'.
Proof. intros H N. destruct (inv_all w' H) as (_ & _ & _ & M). intros. eapply (M (a, b)); cbn; eauto. Qed.
Lemma sectors_stay w' : add_sectors_to_links stype sstatus scan bearing force chan w0 = Ok w' ->
  dkeys (w_links w') = dkeys (w_links w0) /\ dkeys (w_secs w') = dkeys (w_secs w0) /\
  forall i x, dget (w_secs w0) i = Some x -> exists x', dget (w_secs w') i = Some x' /\ ss_site x' = ss_site x /\ ss_az x' = ss_az x.
Proof.
  intros H. destruct (inv_all w' H) as (G & K & _). split; [exact K|]. split; [apply geo_keys, G|]. apply geo_get. symmetry. exact G.
Qed.

(** ** Channels *)
Definition chan_ok (i : string) (x : ssec) : Prop :=
  exists m e p l0, chan = Some m /\ given e p /\ (i = fst p \/ i = snd p) /\ dget L0 e = Some l0 /\ active (sl_status l0) = true /\
    dget m e = Some (ss_chan x) /\ ss_status x = PROPOSED.
Definition chan_inv (w : sworld) : Prop := forall i x, dget (w_secs w) i = Some x -> dget S0 i = Some x \/ chan_ok i x.
Lemma set_channel_get j c s s' : set_channel j c s = Ok s' -> forall i x, dget s' i = Some x ->
  (i <> j /\ dget s i = Some x) \/ (i = j /\ ss_chan x = c).
Proof.
  unfold set_channel. intros H i x Hx. apply rbind_ok in H. destruct H as (y & _ & H). injection H as <-. rewrite dget_set in Hx.
  destruct (beq_spec i j) as [->|N]; [right|left; auto]. injection Hx as <-. auto.
Qed.
Lemma propose_get j s s' : propose_sector sstatus j s = Ok s' -> forall i x, dget s' i = Some x ->
  (i <> j /\ dget s i = Some x) \/ (i = j /\ ss_status x = PROPOSED /\ exists y, dget s i = Some y /\ ss_chan y = ss_chan x).
Proof.
  unfold propose_sector. intros H i x Hx. apply rbind_ok in H. destruct H as (y & Hy & H). apply get_ok in Hy. apply rbind_ok in H. destruct H as (_ & _ & H).
  apply rbind_ok in H. destruct H as (_ & _ & H). injection H as <-. rewrite dget_set in Hx. destruct (beq_spec i j) as [->|N]; [right|left; auto]. injection Hx as <-. cbn. eauto.
Qed.
Lemma chan_step P w w' e : inv P w -> chan_inv w -> step w e = Ok w' -> chan_inv w'.
Proof.
  intros (G & K & I & M) C H. unfold link_step in H. apply rbind_ok in H. destruct H as (l & Hl & H). apply get_ok in Hl.
  destruct (I e l Hl) as (l0 & Hl0 & Wl & Sl & p & Hp & Cp).
  destruct (negb (sl_wireless l)) eqn:Wi; [injection H as <-; exact C|]. apply Bool.negb_false_iff in Wi.
  destruct p as [[tx rx]|]; destruct Hp as [Ht Hr]; cbn in Ht, Hr; rewrite Ht in H; [|rewrite Hr in H].
  { apply rbind_ok in H. destruct H as (_ & _ & H). injection H as <-. exact C. }
  destruct Cp as [(C1 & C2)|(p' & F & _)]; [|discriminate].
  destruct (found_cur (w_secs w) e G) as [F1 F2]. rewrite F1, F2 in H. clear F1 F2.
  destruct (nearest (sectors_of S0 (fst e)) (tx_azimuth bearing e) (tx_limit scan e) None) as [tx|] eqn:E1;
  [destruct (nearest (sectors_of S0 (snd e)) (rx_azimuth bearing e) (rx_limit stype scan force e) None) as [rx|] eqn:E2|].
  2,3: apply rbind_ok in H; destruct H as (_ & _ & H); injection H as <-; exact C.
  assert (Ge : given e (tx, rx)) by (exists l0; split; [exact Hl0|]; split; [congruence|]; split; [exact C1|]; unfold found; now rewrite E1, E2).
  apply rbind_ok in H. destruct H as (l' & Hl' & H). apply rbind_ok in H. destruct H as (links & Hk & H). apply rbind_ok in H. destruct H as (secs & Hs & H). injection H as <-.
  unfold chan_inv. cbn [w_secs]. destruct chan as [m|] eqn:Ec; [|injection Hs as <-; exact C]. destruct (active (sl_status l)) eqn:Al; [|injection Hs as <-; exact C].
  apply rbind_ok in Hs. destruct Hs as (c & Hc & Hs). apply get_ok in Hc. apply rbind_ok in Hs. destruct Hs as (s1 & H1 & Hs). apply rbind_ok in Hs. destruct Hs as (s2 & H2 & Hs). apply rbind_ok in Hs. destruct Hs as (s3 & H3 & Hs).
  assert (Q : forall i x, (i = tx \/ i = rx) -> ss_chan x = c -> ss_status x = PROPOSED -> chan_ok i x).
  { intros i x Hi Hx Sx. exists m, e, (tx, rx), l0. split; [exact Ec|]. split; [exact Ge|]. split; [exact Hi|]. split; [exact Hl0|]. split; [congruence|]. split; [congruence|exact Sx]. }
  assert (Q2 : forall i x, dget s2 i = Some x -> (i = tx \/ i = rx) -> ss_chan x = c).
  { intros i x Hx Hi. destruct (set_channel_get _ _ _ _ H2 i x Hx) as [(N & Hx1)|(_ & E)]; [|exact E].
    destruct (set_channel_get _ _ _ _ H1 i x Hx1) as [(N1 & _)|(_ & E)]; [tauto|exact E]. }
  intros i x Hx. destruct (propose_get _ _ _ Hs i x Hx) as [(N & Hx3)|(E & Px & y & Hy & Cy)].
  - destruct (propose_get _ _ _ H3 i x Hx3) as [(N' & Hx2)|(E & Px & y & Hy & Cy)].
    + destruct (set_channel_get _ _ _ _ H2 i x Hx2) as [(_ & Hx1)|(E & _)]; [|congruence].
      destruct (set_channel_get _ _ _ _ H1 i x Hx1) as [(_ & Hx0)|(E & _)]; [|congruence]. apply (C i x Hx0).
    + right. apply Q; [now left| |exact Px]. rewrite <- Cy. apply (Q2 i y Hy). now left.
  - right. apply Q; [now right| |exact Px]. rewrite <- Cy. destruct (propose_get _ _ _ H3 i y Hy) as [(N' & Hy2)|(E' & Py & z & Hz & Cz)].
    + apply (Q2 i y Hy2). now right.
    + rewrite <- Cz. apply (Q2 i z Hz). now left.
Qed.
Lemma chan_all w' : add_sectors_to_links stype sstatus scan bearing force chan w0 = Ok w' -> chan_inv w'.
Proof.
  unfold add_sectors_to_links. fold L0. intros H.
  assert (X : forall l P w, NoDup (P ++ l) -> inv P w -> chan_inv w -> foldM step w l = Ok w' -> chan_inv w').
  { induction l as [|e l IH]; intros P w ND Iv Ci F; cbn [foldM] in F; [injection F as <-; exact Ci|].
    apply rbind_ok in F. destruct F as (w1 & F1 & F). replace (P ++ e :: l) with ((P ++ [e]) ++ l) in * by (rewrite <- app_assoc; reflexivity).
    apply (IH (P ++ [e]) w1); [exact ND| |eapply chan_step; eauto|exact F]. eapply inv_step; [exact Iv| |exact F1]. intros Hin. rewrite <- app_assoc in ND. cbn in ND. apply NoDup_remove_2 in ND. apply ND. apply in_app_iff. now left. }
  apply (X (dkeys L0) [] w0); [apply W0|apply inv_start|intros i x Hx; now left|exact H].
Qed.
Lemma channels_ok w' i x : add_sectors_to_links stype sstatus scan bearing force chan w0 = Ok w' -> dget (w_secs w') i = Some x ->
  dget (w_secs w0) i = Some x \/
  exists m a b tx rx l, chan = Some m /\ dget (w_links w0) (a, b) = Some l /\ sl_wireless l = true /\ active (sl_status l) = true /\ sectors_are l None /\
    best_pair stype scan bearing force (w_secs w0) a b tx rx /\ (i = tx \/ i = rx) /\ dget m (a, b) = Some (ss_chan x) /\ ss_status x = PROPOSED.
Proof.
  intros H Hx. destruct (chan_all w' H i x Hx) as [E|(m & [a b] & [tx rx] & l & E1 & (l1 & Hl1 & Wl & N & F) & Hi & Hl & A & E2 & E3)]; [now left|right].
  assert (l1 = l) by congruence. subst l1. exists m, a, b, tx, rx, l. repeat match goal with |- _ /\ _ => split end; auto. exact (found_some (a, b) _ F).
Qed.
End Loop.

(** ** Without sectors to start with, nothing can fail if bearings are exactly opposite *)
Section Total.
Variables (stype : string -> site_type) (sstatus : string -> status) (scan : string -> Q) (bearing : string -> string -> Q).
Variables (force : bool) (w0 : sworld).
Hypothesis W0 : wf_world stype bearing w0.
Hypothesis Fresh : forall e l, dget (w_links w0) e = Some l -> sectors_are l None.
Hypothesis Usable : forall a b l, dget (w_links w0) (a, b) = Some l -> sl_wireless l = true -> active (sl_status l) = true ->
  exists tx rx, in_range stype scan bearing force (w_secs w0) a b tx rx.
Hypothesis Opp : forall a b l r, dget (w_links w0) (a, b) = Some l -> dget (w_links w0) (b, a) = Some r -> opposite (bearing a b) (bearing b a).
Notation step := (link_step stype sstatus scan bearing force None).
Notation inv := (inv stype scan bearing force w0).

Lemma reach_not_cn s b b' d : stype s <> CN -> reach stype scan force s b d -> reach stype scan force s b' d.
Proof. intros N. unfold reach. replace (beq (stype s) CN) with false by (symmetry; now apply beq_neq). rewrite !Bool.andb_false_r. auto. Qed.
Lemma best_in_range a b tx rx : best_pair stype scan bearing force (w_secs w0) a b tx rx -> in_range stype scan bearing force (w_secs w0) a b tx rx.
Proof. intros (A & _ & d & O & B & _). split; [exact A|]. exists d. auto. Qed.
Lemma in_range_back a b l r tx rx : dget (w_links w0) (a, b) = Some l -> dget (w_links w0) (b, a) = Some r ->
  in_range stype scan bearing force (w_secs w0) b a rx tx -> in_range stype scan bearing force (w_secs w0) a b tx rx.
Proof.
  intros Hl Hr ((y & Hy & Sy & Ry) & dir & O & (x & Hx & Sx & Rx)).
  assert (E : dir == bearing a b) by (eapply opposite_unique; [apply (wf_bearing _ _ _ W0 b a)|exact O|eapply Opp; eauto]).
  split.
  - exists x. split; [exact Hx|]. split; [exact Sx|]. eapply reach_not_cn; [apply (wf_cn _ _ _ W0 _ _ _ Hl)|]. eapply reach_compat; [|exact Rx]. now apply between_compat.
  - exists (bearing b a). split; [eapply Opp; eauto|]. exists y. split; [exact Hy|]. split; [exact Sy|]. eapply reach_not_cn; [apply (wf_cn _ _ _ W0 _ _ _ Hr)|exact Ry].
Qed.
Lemma range_ok secs e l tx rx : geo secs = geo (w_secs w0) -> sl_wireless l = true -> sl_tx l = Some tx -> sl_rx l = Some rx ->
  in_range stype scan bearing force (w_secs w0) (fst e) (snd e) tx rx -> validate_link_sectors stype scan bearing force secs e l = Ok tt.
Proof.
  intros G Wl T R ((x & Hx & Sx & Rx) & dir & O & (y & Hy & Sy & Ry)).
  destruct (geo_get _ _ (eq_sym G) _ _ Hx) as (x' & Hx' & _ & Ax). destruct (geo_get _ _ (eq_sym G) _ _ Hy) as (y' & Hy' & _ & Ay).
  assert (Ed : dir == rx_azimuth bearing e) by (eapply opposite_unique; [apply (tx_dir _ _ _ W0 e)|exact O|apply opposite_mod, (tx_dir _ _ _ W0)]).
  unfold validate_link_sectors. rewrite T, R. unfold tx_dev, rx_dev. rewrite T, R, Wl. unfold get. rewrite Hx', Hy'. cbn [rbind]. rewrite Ax, Ay.
  assert (B1 : Qle_bool (scan (fst e) / 2 + SECTOR_LINK_ANGLE_TOLERANCE) (Qabs (angle_delta (tx_azimuth bearing e) (ss_az x))) = false).
  { apply qle_false. rewrite angle_delta_between by (apply (tx_dir _ _ _ W0) || eapply (wf_az _ _ _ W0); exact Hx).
    apply (reach_compat _ _ _ _ _ _ _ (between_sym _ _)) in Rx. exact Rx. }
  rewrite B1. cbn [negb guard rbind]. destruct (force && beq (stype (snd e)) CN) eqn:F; [reflexivity|].
  assert (B2 : Qle_bool (scan (snd e) / 2 + SECTOR_LINK_ANGLE_TOLERANCE) (Qabs (angle_delta (rx_azimuth bearing e) (ss_az y))) = false).
  { apply qle_false. rewrite angle_delta_between by (apply (rx_dir _ _ _ W0) || eapply (wf_az _ _ _ W0); exact Hy).
    apply (reach_compat _ _ _ _ _ _ _ (between_compat _ _ _ Ed)) in Ry. apply (reach_compat _ _ _ _ _ _ _ (between_sym _ _)) in Ry.
    unfold reach in Ry. replace (true && force && beq (stype (snd e)) CN) with false in Ry by (cbn; now rewrite F). exact Ry. }
  now rewrite B2.
Qed.
Lemma assign_total secs e tx rx l x y : dget secs tx = Some x -> ss_site x = fst e -> dget secs rx = Some y -> ss_site y = snd e ->
  exists l', assign_sectors secs e tx rx l = Ok l'.
Proof. intros Hx Sx Hy Sy. unfold assign_sectors, get. rewrite Hx. cbn [rbind]. rewrite Sx, beq_refl. cbn [guard rbind]. rewrite Hy. cbn [rbind]. rewrite Sy, beq_refl. cbn. eauto. Qed.

Lemma step_total P w e : inv P w -> In e (dkeys (w_links w0)) -> exists w', step w e = Ok w'.
Proof.
  intros (G & K & I & M) Hin. rewrite <- K in Hin. apply In_dkeys in Hin. destruct Hin as (l & Hl). destruct (I e l Hl) as (l0 & Hl0 & Wl & Sl & p & [Ht Hr] & C).
  pose proof (Fresh e l0 Hl0) as N. unfold link_step. unfold get at 1. rewrite Hl. cbn [rbind].
  destruct (sl_wireless l) eqn:Wi; cbn [negb]; [|eauto]. destruct p as [[tx rx]|]; cbn in Ht, Hr.
  - rewrite Ht. destruct C as [(C & _)|(p' & E & C)]; [pose proof (sectors_are_inj _ _ _ C N); discriminate|]. injection E as <-.
    assert (V : in_range stype scan bearing force (w_secs w0) (fst e) (snd e) tx rx).
    { destruct C as [(l1 & H1 & _ & _ & F)|(r & H1 & _ & _ & F)].
      - apply best_in_range. exact (found_some stype scan bearing force w0 W0 e _ F).
      - apply (in_range_back _ _ l0 r); [destruct e; exact Hl0|exact H1|]. apply best_in_range. exact (found_some stype scan bearing force w0 W0 _ _ F). }
    rewrite (range_ok _ _ _ _ _ G Wi Ht Hr V). cbn [rbind]. eauto.
  - rewrite Ht, Hr. destruct (found_cur stype scan bearing force w0 (w_secs w) e G) as [F1 F2]. rewrite F1, F2. clear F1 F2. pose proof (found_some stype scan bearing force w0 W0 e) as FS. pose proof (found_none stype scan bearing force w0 W0 e) as FN. unfold found in FS, FN.
    assert (Act : (forall tx rx, ~ in_range stype scan bearing force (w_secs w0) (fst e) (snd e) tx rx) -> active (sl_status l) = false).
    { intros No. destruct (active (sl_status l)) eqn:A; [|reflexivity]. destruct e as [a b]. destruct (Usable a b l0 Hl0) as (tx & rx & V); [congruence|congruence|]. exfalso. eapply No; eauto. }
    destruct (nearest _ _ (tx_limit scan e) _) as [tx|] eqn:E1; [destruct (nearest _ _ (rx_limit stype scan force e) _) as [rx|] eqn:E2|].
    + specialize (FS _ eq_refl). destruct FS as ((x & Hx & Sx & _) & _ & d & _ & (y & Hy & Sy & _) & _). cbn [fst snd] in *.
      destruct (geo_get _ _ (eq_sym G) _ _ Hx) as (x' & Hx' & Sx' & _). destruct (geo_get _ _ (eq_sym G) _ _ Hy) as (y' & Hy' & Sy' & _).
      destruct (assign_total (w_secs w) e tx rx l x' y') as (l' & ->); try congruence. cbn [rbind].
      destruct (dget _ (snd e, fst e)) as [r|]; [|cbn; eauto].
      destruct (assign_total (w_secs w) (snd e, fst e) rx tx r y' x') as (r' & ->); cbn [fst snd]; try congruence. cbn. eauto.
    + rewrite (Act (FN eq_refl)). cbn. eauto.
    + rewrite (Act (FN eq_refl)). cbn. eauto.
Qed.
Lemma add_total : exists w', add_sectors_to_links stype sstatus scan bearing force None w0 = Ok w'.
Proof.
  unfold add_sectors_to_links.
  assert (X : forall l P w, NoDup (P ++ l) -> incl l (dkeys (w_links w0)) -> inv P w -> exists w', foldM step w l = Ok w').
  { induction l as [|e l IH]; intros P w ND Inc Iv; cbn [foldM]; [eauto|]. destruct (step_total P w e Iv) as (w1 & E); [apply Inc; now left|].
    pose proof E as E'. rewrite E. cbn [rbind]. replace (P ++ e :: l) with ((P ++ [e]) ++ l) in * by (rewrite <- app_assoc; reflexivity).
    apply (IH (P ++ [e]) w1); [exact ND|intros z Hz; apply Inc; now right|]. eapply (inv_step stype sstatus scan bearing force None w0 W0); [exact Iv| |exact E'].
    intros Hin. rewrite <- app_assoc in ND. cbn in ND. apply NoDup_remove_2 in ND. apply ND. apply in_app_iff. now left. }
  apply (X _ [] w0); [apply W0|apply incl_refl|]. apply (inv_start stype scan bearing force w0 W0).
Qed.
End Total.
