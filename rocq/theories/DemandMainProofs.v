From Coq Require Import QArith ZArith Lia.
From Verif Require Import Base Dict QLib MonadLib TopologyModel TopologyProofs SetupModel SetupProofs GraphProofs DemandModel DemandSpec DemandProofs.
Local Open Scope list_scope.

(** *** sites within reach *)
Section Connect.
Variable dist : Z -> Z -> Z -> Z -> Q.
Variable sites : dict string site.
Definition nil {A} (l : list A) : bool := match l with [] => true | _ => false end.
Definition reached (radius : Q) (manual : list string) (k : string) (d : dsite) : option dsite :=
  if nil (near dist sites radius d) && negb (mem k manual) then None else Some (with_sites d (near dist sites radius d)).
Lemma connect_spec radius manual ids : forall D, NoDup ids -> dwf D -> (forall k, In k ids -> dmem D k = true) ->
  exists D', connect dist sites radius manual ids D = Ok D' /\ dwf D'
    /\ forall k, dget D' k = if mem k ids then match dget D k with Some d => reached radius manual k d | None => None end else dget D k.
Proof using.
  induction ids as [|k ids IH]; intros D N W H; cbn [connect].
  - exists D. split; [reflexivity|]. split; [exact W|]. reflexivity.
  - inversion N as [|? ? Hk N']; subst. pose proof (H k (or_introl eq_refl)) as Hd. apply dmem_Some in Hd. destruct Hd as [d Hd].
    unfold get. rewrite Hd. cbn [rbind].
    set (D1 := if match near dist sites radius d with [] => true | _ => false end && negb (mem k manual) then ddel D k else dset D k (with_sites d (near dist sites radius d))).
    assert (G : forall k', dget D1 k' = if beq k' k then reached radius manual k d else dget D k').
    { intros k'. unfold D1, reached. change (match near dist sites radius d with [] => true | _ => false end) with (nil (near dist sites radius d)).
      destruct (nil _ && negb (mem k manual)); [rewrite dget_del|rewrite dget_set]; reflexivity. }
    destruct (IH D1 N') as (D' & E & W' & Q).
    + unfold D1. destruct (_ && _); [now apply dwf_del|now apply dwf_set].
    + intros k' Hk'. pose proof (H k' (or_intror Hk')) as Hm. apply dmem_Some in Hm. destruct Hm as [d' Hm]. apply dmem_Some. exists d'.
      rewrite G. destruct (beq_spec k' k) as [->|_]; [contradiction|exact Hm].
    + exists D'. split; [exact E|]. split; [exact W'|]. intros k'. rewrite Q, G. cbn [mem]. destruct (beq_spec k' k) as [->|Hn]; cbn [orb].
      * apply mem_not_In in Hk. rewrite Hk. rewrite Hd. reflexivity.
      * destruct (mem k' ids); reflexivity.
Qed.
Lemma near_iff radius d i : In i (near dist sites radius d) <-> within dist sites radius (q_lat d) (q_lon d) i.
Proof using.
  unfold near, within. rewrite in_map_iff. split.
  - intros ((i' & s) & <- & H). apply filter_In in H. destruct H as [Hi Hq]. cbn [fst snd] in *. apply Qle_bool_iff in Hq.
    exists s, (s_lat s), (s_lon s). split; [exact Hi|]. split; [|exact Hq]. unfold lies_at, s_lat, s_lon. destruct (s_loc s) as [[a b] c]. now exists c.
  - intros (s & a & b & Hi & (c & Hl) & Hq). exists (i, s). split; [reflexivity|]. apply filter_In. split; [exact Hi|]. cbn [snd].
    unfold s_lat, s_lon. rewrite Hl. cbn [fst snd]. now apply Qle_bool_iff.
Qed.
Lemma near_NoDup radius d : dwf sites -> NoDup (near dist sites radius d).
Proof using.
  unfold dwf, dkeys, near. intros H. induction sites as [|q l IH]; [constructor|]. cbn [map filter] in *. inversion H as [|? ? Hq Hl]; subst.
  destruct (Qle_bool _ _); [|auto]. cbn [map]. constructor; [|auto]. intros Hi. apply Hq. apply in_map_iff in Hi. destruct Hi as (x & Ex & Hx). apply filter_In in Hx. apply in_map_iff. exists x. tauto.
Qed.
End Connect.

(** *** demand at CNs *)
Section Cn.
Variable did : Z -> Z -> string.
Variable subscribers : string -> nat.
Hypothesis Hinj : forall a b a' b', did a b = did a' b' -> a = a' /\ b = b'.
Definition at_ (p : Z * Z) (l : list (string * site)) : list string := map fst (filter (fun q => beq (s_lat (snd q), s_lon (snd q)) p) l).
Lemma at_app p l l' : at_ p (l ++ l') = at_ p l ++ at_ p l'.
Proof. unfold at_. now rewrite filter_app, map_app. Qed.
Record cn_inv (demand : Q) (pre : list (string * site)) (locs : dict (Z * Z) string) (D0 D : dict string dsite) : Prop := {
  v_locs : forall p, dget locs p = if nil (at_ p pre) then None else Some (did (fst p) (snd p));
  v_other : forall k, (forall p, at_ p pre <> [] -> k <> did (fst p) (snd p)) -> dget D k = dget D0 k;
  v_cn : forall p i r, at_ p pre = i :: r -> dget D (did (fst p) (snd p)) = Some (mkD (fst p) (snd p) (subscribers i) demand (i :: r));
  v_wf : dwf D }.
Lemma add_cn_spec demand l : forall pre locs D0 D, cn_inv demand pre locs D0 D ->
  exists D' locs', add_cn did subscribers demand l locs D = Ok D' /\ cn_inv demand (pre ++ l) locs' D0 D'.
Proof using Hinj.
  induction l as [|[i s] l IH]; intros pre locs D0 D V; cbn [add_cn].
  - exists D, locs. rewrite app_nil_r. auto.
  - destruct V as [V1 V2 V3 V4].
    set (p := (s_lat s, s_lon s)).
    assert (A : forall p', at_ p' (pre ++ [(i, s)]) = at_ p' pre ++ if beq p p' then [i] else []).
    { intros p'. rewrite at_app. f_equal. unfold at_. cbn [filter snd]. fold p. now destruct (beq p p'). }
    rewrite V1. destruct (at_ p pre) as [|i0 r0] eqn:Ep; cbn [nil].
    + replace (pre ++ (i, s) :: l) with ((pre ++ [(i, s)]) ++ l) by now rewrite <- app_assoc. apply IH. split.
      * intros p'. rewrite dget_set, A, (beq_sym p' p). destruct (beq_spec p p') as [<-|Hn].
        { rewrite Ep. reflexivity. }
        { rewrite app_nil_r. apply V1. }
      * intros k Hk. rewrite dget_set. destruct (beq_spec k (did (s_lat s) (s_lon s))) as [->|Hn].
        { exfalso. apply (Hk p); [|reflexivity]. rewrite A, beq_refl. intros E. destruct (app_eq_nil _ _ E). discriminate. }
        { apply V2. intros p' Hp'. apply Hk. rewrite A. intros E. destruct (app_eq_nil _ _ E). contradiction. }
      * intros p' i' r' E. rewrite A in E. rewrite dget_set. destruct (beq_spec p p') as [<-|Hn].
        { rewrite Ep in E. cbn in E. injection E as <- <-. cbn [fst snd p]. now rewrite beq_refl. }
        { rewrite app_nil_r in E. destruct (beq_spec (did (fst p') (snd p')) (did (s_lat s) (s_lon s))) as [Hd|_]; [|now apply V3].
          exfalso. apply Hinj in Hd. apply Hn. unfold p. destruct p'. cbn in Hd. destruct Hd. congruence. }
      * now apply dwf_set.
    + pose proof (V3 _ _ _ Ep) as G. unfold get. rewrite G. cbn [rbind q_sites with_sites q_lat q_lon q_num q_demand].
      replace (pre ++ (i, s) :: l) with ((pre ++ [(i, s)]) ++ l) by now rewrite <- app_assoc. apply IH. split.
      * intros p'. rewrite V1, A. destruct (beq_spec p p') as [<-|Hn]; [|now rewrite app_nil_r]. rewrite Ep. reflexivity.
      * intros k Hk. rewrite dget_set. destruct (beq_spec k (did (fst p) (snd p))) as [->|Hn].
        { exfalso. apply (Hk p); [|reflexivity]. rewrite A, Ep. discriminate. }
        { apply V2. intros p' Hp'. apply Hk. rewrite A. intros E. destruct (app_eq_nil _ _ E). contradiction. }
      * intros p' i' r' E. rewrite A in E. rewrite dget_set. destruct (beq_spec p p') as [<-|Hn].
        { rewrite Ep in E. cbn in E. injection E as <- <-. now rewrite beq_refl. }
        { rewrite app_nil_r in E. destruct (beq_spec (did (fst p') (snd p')) (did (fst p) (snd p))) as [Hd|_]; [|now apply V3].
          exfalso. apply Hinj in Hd. apply Hn. destruct p', p. cbn in Hd. destruct Hd. congruence. }
      * now apply dwf_set.
Qed.
Variable sites : dict string site.
Notation cns := (filter (fun q => beq (s_type (snd q)) CN) sites).
Lemma lies_pos s lat lon : lies_at s lat lon <-> (s_lat s, s_lon s) = (lat, lon).
Proof.
  unfold lies_at, s_lat, s_lon. destruct (s_loc s) as [[a b] c]. cbn [fst snd]. split.
  - intros (alt & E). congruence.
  - intros E. injection E as -> ->. eauto.
Qed.
Lemma at_cns lat lon i : In i (at_ (lat, lon) cns) <-> cn_at sites lat lon i.
Proof using.
  unfold at_, cn_at. rewrite in_map_iff. split.
  - intros ((i' & s) & <- & H). apply filter_In in H. destruct H as [H Hb]. apply filter_In in H. destruct H as [H Ht]. cbn [fst snd] in *.
    apply beq_true in Hb. apply beq_true in Ht. exists s. split; [exact H|]. split; [exact Ht|]. now apply lies_pos.
  - intros (s & H & Ht & Hl). exists (i, s). split; [reflexivity|]. apply lies_pos in Hl. apply filter_In. split; [apply filter_In; split; [exact H|]|]; cbn [snd].
    + rewrite Ht. reflexivity.
    + rewrite Hl. apply beq_refl.
Qed.
Lemma at_first lat lon i r : at_ (lat, lon) cns = i :: r -> first_cn sites lat lon i.
Proof using.
  unfold first_cn. induction sites as [|[i0 s0] l IH]; cbn [filter]; [discriminate|]. cbn [snd].
  destruct (beq (s_type s0) CN) eqn:Et.
  - unfold at_. cbn [filter snd]. destruct (beq (s_lat s0, s_lon s0) (lat, lon)) eqn:El.
    + cbn [map fst]. intros E. injection E as -> _. exists [], s0, l. split; [reflexivity|]. apply beq_true in Et. apply beq_true in El. split; [exact Et|]. split; [now apply lies_pos|]. intros i' s' [].
    + intros E. destruct (IH E) as (pre & s & post & E1 & E2 & E3 & E4). exists ((i0, s0) :: pre), s, post. split; [now rewrite E1|]. split; [exact E2|]. split; [exact E3|].
      intros i' s' [Hi|Hi] Ht; [|eauto]. injection Hi as <- <-. rewrite lies_pos. apply beq_false in El. exact El.
  - intros E. destruct (IH E) as (pre & s & post & E1 & E2 & E3 & E4). exists ((i0, s0) :: pre), s, post. split; [now rewrite E1|]. split; [exact E2|]. split; [exact E3|].
    intros i' s' [Hi|Hi] Ht; [|eauto]. injection Hi as <- <-. apply beq_false in Et. contradiction.
Qed.
Lemma at_NoDup p : dwf sites -> NoDup (at_ p cns).
Proof using.
  unfold dwf, dkeys, at_. intros H. induction sites as [|q l IH]; [constructor|]. cbn [map filter] in *. inversion H as [|? ? Hq Hl]; subst.
  destruct (beq (s_type (snd q)) CN); [|auto]. cbn [filter]. destruct (beq (s_lat (snd q), s_lon (snd q)) p); [|auto]. cbn [map]. constructor; [|auto].
  intros Hi. apply Hq. apply in_map_iff in Hi. destruct Hi as (x & Ex & Hx). apply filter_In in Hx. destruct Hx as [Hx _]. apply filter_In in Hx. apply in_map_iff. exists x. tauto.
Qed.
Lemma add_cn_demand_spec demand D0 : dwf D0 -> exists D, add_cn_demand did subscribers sites demand D0 = Ok D /\ dwf D
  /\ (forall k, (forall lat lon i, cn_at sites lat lon i -> k <> did lat lon) -> dget D k = dget D0 k)
  /\ (forall lat lon i, cn_at sites lat lon i -> exists f l, dget D (did lat lon) = Some (mkD lat lon (subscribers f) demand l)
        /\ first_cn sites lat lon f /\ (forall j, In j l <-> cn_at sites lat lon j) /\ (dwf sites -> NoDup l)).
Proof using Hinj.
  intros W. unfold add_cn_demand.
  destruct (add_cn_spec demand cns [] [] D0 D0) as (D & locs & E & [V1 V2 V3 V4]).
  { split; [reflexivity|reflexivity| |exact W]. intros p i r E. discriminate. }
  exists D. split; [exact E|]. split; [exact V4|]. split.
  - intros k Hk. apply V2. intros [lat lon] Hp. cbn [app] in Hp. cbn [fst snd]. destruct (at_ (lat, lon) cns) as [|i r] eqn:Ep; [contradiction|].
    apply Hk with i. apply at_cns. rewrite Ep. now left.
  - intros lat lon i Hi. apply at_cns in Hi. cbn [app] in V3. destruct (at_ (lat, lon) cns) as [|f r] eqn:Ep; [destruct Hi|].
    exists f, (f :: r). split; [exact (V3 _ _ _ Ep)|]. split; [exact (at_first _ _ _ _ Ep)|]. split.
    + intros j. rewrite <- Ep. apply at_cns.
    + intros Ws. rewrite <- Ep. now apply at_NoDup.
Qed.
End Cn.

(** *** the uniform grid *)
Lemma min_least l x : min_z l = Ok x <-> least (fun y => In y l) x.
Proof.
  assert (F : forall l a, least (fun y => y = a \/ In y l) (fold_left Z.min l a)).
  { clear. induction l as [|b l IH]; intros a; cbn [fold_left].
    - split; [now left|]. intros y [->|[]]. lia.
    - destruct (IH (Z.min a b)) as [H1 H2]. split.
      + destruct H1 as [H1|H1]; [|right; now right]. rewrite H1. destruct (Z.min_spec a b) as [[_ ->]|[_ ->]]; [now left|right; now left].
      + intros y [->|[->|Hy]].
        * pose proof (H2 (Z.min a b) (or_introl eq_refl)). lia.
        * pose proof (H2 (Z.min a y) (or_introl eq_refl)). lia.
        * apply H2. now right. }
  destruct l as [|a l]; cbn [min_z].
  - split; [discriminate|]. intros [[] _].
  - destruct (F l a) as [H1 H2]. split.
    + intros E. injection E as <-. split; [destruct H1; [left; congruence|now right]|]. intros y [<-|Hy]; apply H2; auto.
    + intros [H3 H4]. f_equal. apply Z.le_antisymm; [apply H2; destruct H3; auto|]. apply H4. destruct H1; [left; congruence|now right].
Qed.
Lemma max_greatest l x : max_z l = Ok x <-> greatest (fun y => In y l) x.
Proof.
  assert (F : forall l a, greatest (fun y => y = a \/ In y l) (fold_left Z.max l a)).
  { clear. induction l as [|b l IH]; intros a; cbn [fold_left].
    - split; [now left|]. intros y [->|[]]. lia.
    - destruct (IH (Z.max a b)) as [H1 H2]. split.
      + destruct H1 as [H1|H1]; [|right; now right]. rewrite H1. destruct (Z.max_spec a b) as [[_ ->]|[_ ->]]; [right; now left|now left].
      + intros y [->|[->|Hy]].
        * pose proof (H2 (Z.max a b) (or_introl eq_refl)). lia.
        * pose proof (H2 (Z.max a y) (or_introl eq_refl)). lia.
        * apply H2. now right. }
  destruct l as [|a l]; cbn [max_z].
  - split; [discriminate|]. intros [[] _].
  - destruct (F l a) as [H1 H2]. split.
    + intros E. injection E as <-. split; [destruct H1; [left; congruence|now right]|]. intros y [<-|Hy]; apply H2; auto.
    + intros [H3 H4]. f_equal. apply Z.le_antisymm; [|apply H2; destruct H3; auto]. apply H4. destruct H1; [left; congruence|now right].
Qed.
Lemma least_ext P P' x : (forall y, P y <-> P' y) -> least P x <-> least P' x.
Proof. intros H. unfold least. split; intros [H1 H2]; (split; [now apply H|]); intros y Hy; apply H2; now apply H. Qed.
Lemma greatest_ext P P' x : (forall y, P y <-> P' y) -> greatest P x <-> greatest P' x.
Proof. intros H. unfold greatest. split; intros [H1 H2]; (split; [now apply H|]); intros y Hy; apply H2; now apply H. Qed.

Section Uniform.
Variable did : Z -> Z -> string.
Variable deg : Z.
Hypothesis Hinj : forall a b a' b', did a b = did a' b' -> a = a' /\ b = b'.
Hypothesis Hdeg : (0 < deg)%Z.
Definition wrap (u : Z) : Z := (if 180 * deg <? u then u - 360 * deg else u)%Z.

(** the effect of the loops on the demand sites: the points of [P] are (re)set, the others untouched *)
Definition sets (demand : Q) (P : Z -> Z -> Prop) (D D' : dict string dsite) : Prop :=
  (dwf D -> dwf D')
  /\ (forall lat lon, P lat lon -> dget D' (did lat lon) = Some (mkD lat lon 1 demand []))
  /\ (forall k, (forall lat lon, P lat lon -> k <> did lat lon) -> dget D' k = dget D k)
  /\ (forall k, (exists lat lon, P lat lon /\ k = did lat lon) \/ (forall lat lon, P lat lon -> k <> did lat lon)).
Lemma sets_none demand (P : Z -> Z -> Prop) D : (forall lat lon, ~ P lat lon) -> sets demand P D D.
Proof using. intros H. split; [auto|]. split; [intros lat lon Hp; destruct (H _ _ Hp)|]. split; [auto|]. intros k. right. intros lat lon Hp. destruct (H _ _ Hp). Qed.
Lemma sets_trans demand (P1 P2 P : Z -> Z -> Prop) D D1 D2 : (forall lat lon, P lat lon -> P1 lat lon \/ P2 lat lon) -> (forall lat lon, P1 lat lon -> P lat lon) -> (forall lat lon, P2 lat lon -> P lat lon) ->
  (forall lat lon, P2 lat lon \/ ~ P2 lat lon) ->
  sets demand P1 D D1 -> sets demand P2 D1 D2 -> sets demand P D D2.
Proof using Hinj.
  intros Hp H1 H2 Dec (W1 & A1 & B1 & C1) (W2 & A2 & B2 & C2). split; [auto|]. split; [|split].
  - intros lat lon HP. destruct (Dec lat lon) as [HP2|HN]; [now apply A2|]. destruct (Hp _ _ HP) as [HP1|HP2]; [|contradiction].
    rewrite B2; [now apply A1|]. intros a b Hab E. apply Hinj in E. destruct E as [-> ->]. contradiction.
  - intros k Hk. rewrite B2; [apply B1|]; intros a b Hab; apply Hk; auto.
  - intros k. destruct (C1 k) as [(a & b & Hab & E)|N1]; [left; exists a, b; auto|]. destruct (C2 k) as [(a & b & Hab & E)|N2]; [left; exists a, b; auto|].
    right. intros a b Hab. destruct (Hp _ _ Hab) as [H|H]; [exact (N1 _ _ H)|exact (N2 _ _ H)].
Qed.
Lemma grid_lat_dec b dy t x : (0 < dy)%Z -> grid_lat b dy t x \/ ~ grid_lat b dy t x.
Proof using.
  intros H. unfold grid_lat. destruct (Z_le_dec x t) as [Hx|Hx]; [|right; intros (j & _ & Hj); contradiction].
  destruct (Z_le_dec b x) as [Hb|Hb]; [|right; intros (j & Hj & _); nia].
  destruct (Z.eq_dec ((x - b) mod dy) 0) as [E|E].
  - left. exists (Z.to_nat ((x - b) / dy)). split; [|exact Hx]. rewrite Z2Nat.id by (apply Z.div_pos; lia). pose proof (Z.div_mod (x - b) dy). lia.
  - right. intros (j & Hj & _). apply E. replace (x - b)%Z with (Z.of_nat j * dy)%Z by lia. apply Z.mod_mul. lia.
Qed.
Lemma grid_lat_step b dy t x : (0 < dy)%Z -> grid_lat b dy t x <-> (b <= t)%Z /\ (x = b \/ grid_lat (b + dy) dy t x).
Proof using.
  intros H. unfold grid_lat. split.
  - intros (j & Hj & Ht). destruct j as [|j]; [cbn in Hj; split; [lia|left; lia]|]. split; [nia|]. right. exists j. nia.
  - intros (Hb & [->|(j & Hj & Ht)]); [exists 0%nat; cbn; lia|]. exists (S j). nia.
Qed.
Lemma lat_loop_ok demand lon dy top fuel : (0 < dy)%Z -> forall lat D D', lat_loop did deg fuel demand lon lat dy top D = Ok D' ->
  sets demand (fun a b => b = lon /\ grid_lat lat dy top a) D D'.
Proof using Hinj.
  intros Hdy. induction fuel as [|fuel IH]; intros lat D D' E; cbn [lat_loop] in E; [discriminate|].
  destruct (lat <=? top)%Z eqn:El.
  - apply Z.leb_le in El. destruct (geo_ok deg lat lon); [|discriminate]. apply IH in E.
    apply sets_trans with (P1 := fun a b => a = lat /\ b = lon) (P2 := fun a b => b = lon /\ grid_lat (lat + dy) dy top a) (D1 := dset D (did lat lon) (mkD lat lon 1 demand [])).
    + intros a b [-> H]. apply grid_lat_step in H; [|exact Hdy]. destruct H as [_ [->|H]]; tauto.
    + intros a b [-> ->]. split; [reflexivity|]. apply grid_lat_step; [exact Hdy|]. tauto.
    + intros a b [-> H]. split; [reflexivity|]. apply grid_lat_step; [exact Hdy|]. tauto.
    + intros a b. destruct (Z.eq_dec b lon) as [->|Hn]; [|right; tauto]. destruct (grid_lat_dec (lat + dy) dy top a Hdy); tauto.
    + split; [intros W; now apply dwf_set|]. split; [|split].
      * intros a b [-> ->]. apply dget_set_eq.
      * intros k Hk. apply dget_set_neq. now apply Hk.
      * intros k. destruct (string_dec k (did lat lon)) as [E1|E1]; [left; exists lat, lon; auto|right]. intros a b [-> ->]. exact E1.
    + exact E.
  - injection E as <-. apply sets_none. intros a b [_ (j & -> & H)]. apply Z.leb_gt in El. nia.
Qed.
Lemma lat_loop_total demand lon dy top fuel : (0 < dy)%Z -> forall lat D, (-90 * deg <= lat)%Z -> (top <= 90 * deg)%Z -> (-180 * deg <= lon <= 180 * deg)%Z ->
  (Z.to_nat (top - lat + 1) < fuel)%nat -> exists D', lat_loop did deg fuel demand lon lat dy top D = Ok D'.
Proof using.
  intros Hdy. induction fuel as [|fuel IH]; intros lat D H1 H2 H3 Hf; [lia|]. cbn [lat_loop].
  destruct (lat <=? top)%Z eqn:El; [|eauto]. apply Z.leb_le in El.
  assert (G : geo_ok deg lat lon = true) by (unfold geo_ok; rewrite !andb_true_iff, !Z.leb_le; lia). rewrite G.
  apply IH; lia.
Qed.

Section Loop.
Variables (demand : Q) (am : bool) (dx left right bottom dy top : Z).
Hypothesis Hdx : (0 < dx)%Z.
Hypothesis Hdy : (0 < dy)%Z.
Hypothesis Hroom : (if am then -180 * deg <= right /\ right + dx < left /\ left <= 180 * deg else right + dx <= 180 * deg)%Z.
Notation end_ := (if am then right + 360 * deg else right)%Z.
Lemma loop_test u : (left <= u)%Z -> (u <= end_ + dx)%Z -> ((wrap u <=? right)%Z || (am && (left <=? wrap u)%Z) = true <-> (u <= end_)%Z).
Proof using Hdx Hdeg Hroom.
  pose proof Hroom as Hroom'. intros H1 H2. unfold wrap.
  destruct am; cbn [andb]; [rewrite orb_true_iff, !Z.leb_le|rewrite orb_false_r, Z.leb_le];
  (destruct (180 * deg <? u)%Z eqn:E; [apply Z.ltb_lt in E|apply Z.ltb_ge in E]); lia.
Qed.
Lemma loop_next u : (left <= u)%Z -> (u <= end_)%Z -> (if 180 * deg <? wrap u + dx then wrap u + dx - 360 * deg else wrap u + dx)%Z = wrap (u + dx).
Proof using Hdx Hdeg Hroom.
  pose proof Hroom as Hroom'. intros H1 H2. unfold wrap.
  destruct (180 * deg <? u)%Z eqn:E; [apply Z.ltb_lt in E|apply Z.ltb_ge in E];
  destruct (180 * deg <? u + dx)%Z eqn:E2; try (apply Z.ltb_lt in E2); try (apply Z.ltb_ge in E2).
  - destruct am; [|lia]. assert (F : (180 * deg <? u - 360 * deg + dx)%Z = false) by (apply Z.ltb_ge; lia). rewrite F. lia.
  - lia.
  - reflexivity.
  - reflexivity.
Qed.
Definition col (u lon : Z) : Prop := exists i : nat, (u + Z.of_nat i * dx <= end_ /\ lon = wrap (u + Z.of_nat i * dx))%Z.
Lemma col_step u lon : col u lon <-> (u <= end_)%Z /\ (lon = wrap u \/ col (u + dx) lon).
Proof using Hdx.
  unfold col. split.
  - intros (i & Hi & ->). destruct i as [|i]; [change (Z.of_nat 0 * dx)%Z with 0%Z in *; rewrite Z.add_0_r in *; split; [exact Hi|now left]|]. split; [clear -Hi Hdx; revert Hi; generalize end_; intros e He; nia|]. right. exists i.
    replace (u + dx + Z.of_nat i * dx)%Z with (u + Z.of_nat (S i) * dx)%Z by lia. split; [exact Hi|reflexivity].
  - intros (Hu & [->|(i & Hi & ->)]); [exists 0%nat; change (Z.of_nat 0 * dx)%Z with 0%Z; rewrite Z.add_0_r; split; [exact Hu|reflexivity]|].
    exists (S i). replace (u + Z.of_nat (S i) * dx)%Z with (u + dx + Z.of_nat i * dx)%Z by lia. split; [exact Hi|reflexivity].
Qed.
Lemma col_dec n : forall u lon, (end_ - u < Z.of_nat n)%Z -> col u lon \/ ~ col u lon.
Proof using Hdx.
  induction n as [|n IH]; intros u lon Hn.
  - right. intros C. apply col_step in C. lia.
  - destruct (Z_le_dec u end_) as [Hu|Hu]; [|right; intros C; apply col_step in C; tauto].
    destruct (Z.eq_dec lon (wrap u)) as [->|Hne]; [left; apply col_step; tauto|].
    destruct (IH (u + dx)%Z lon) as [C|C]; [lia|left; apply col_step; tauto|right; rewrite col_step; tauto].
Qed.
Lemma lon_loop_ok fuel : forall u D D', (left <= u)%Z -> (u <= end_ + dx)%Z ->
  lon_loop did deg fuel demand am (wrap u) dx left right bottom dy top D = Ok D' ->
  sets demand (fun a b => col u b /\ grid_lat bottom dy top a) D D'.
Proof using Hinj Hdeg Hdx Hdy Hroom.
  induction fuel as [|fuel IH]; intros u D D' H1 H2 E; cbn [lon_loop] in E; [discriminate|].
  destruct ((wrap u <=? right)%Z || (am && (left <=? wrap u)%Z)) eqn:T.
  - apply loop_test in T; [|exact H1|exact H2]. apply rbind_ok in E. destruct E as (D1 & E1 & E).
    rewrite loop_next in E by assumption. apply IH in E; [|lia|lia]. apply lat_loop_ok in E1; [|exact Hdy].
    eapply sets_trans with (D1 := D1); [| | | |exact E1|exact E]; cbn beta.
    + intros a b [C G]. apply col_step in C. destruct C as [_ [->|C]]; tauto.
    + intros a b [-> G]. split; [apply col_step; tauto|exact G].
    + intros a b [C G]. split; [apply col_step; tauto|exact G].
    + intros a b. destruct (col_dec (S (Z.to_nat (end_ - (u + dx)))) (u + dx)%Z b ltac:(lia)); destruct (grid_lat_dec bottom dy top a Hdy); tauto.
  - injection E as <-. apply sets_none. intros a b [C _]. apply col_step in C. destruct C as [C _].
    apply (loop_test u H1 H2) in C. congruence.
Qed.
Lemma lon_loop_total fuel : (-90 * deg <= bottom)%Z -> (top <= 90 * deg)%Z -> (-180 * deg <= left)%Z ->
  forall u D, (left <= u)%Z -> (u <= end_ + dx)%Z ->
  (Z.to_nat (end_ - u + 1) + Z.to_nat (top - bottom + 1) + 1 < fuel)%nat ->
  exists D', lon_loop did deg fuel demand am (wrap u) dx left right bottom dy top D = Ok D'.
Proof using Hdeg Hdx Hdy Hroom.
  pose proof Hroom as Hroom'. intros B1 B2 B3. induction fuel as [|fuel IH]; intros u D H1 H2 Hf; [lia|]. cbn [lon_loop].
  destruct ((wrap u <=? right)%Z || (am && (left <=? wrap u)%Z)) eqn:T; [|eauto].
  apply loop_test in T; [|exact H1|exact H2].
  destruct (lat_loop_total demand (wrap u) dy top fuel Hdy bottom D B1 B2) as [D1 E1].
  - unfold wrap. destruct (180 * deg <? u)%Z eqn:E; [apply Z.ltb_lt in E|apply Z.ltb_ge in E]; destruct am; lia.
  - lia.
  - rewrite E1. cbn [rbind]. rewrite loop_next by assumption. apply IH; lia.
Qed.
End Loop.
(** an area whose buffer reaches 180 degrees without crossing the antimeridian: the loop never ends *)
Lemma lon_loop_never demand dx left right bottom dy top fuel : (0 < dx <= 360 * deg)%Z -> (180 * deg <= right)%Z ->
  forall lon D D', (lon <= 180 * deg)%Z -> lon_loop did deg fuel demand false lon dx left right bottom dy top D <> Ok D'.
Proof using Hdeg.
  intros Hdx Hr. induction fuel as [|fuel IH]; intros lon D D' Hl E; cbn [lon_loop] in E; [discriminate|].
  assert (T : (lon <=? right)%Z = true) by (apply Z.leb_le; lia). rewrite T in E. cbn [orb] in E.
  apply rbind_ok in E. destruct E as (D1 & _ & E). revert E. apply IH.
  destruct (180 * deg <? lon + dx)%Z eqn:F; [apply Z.ltb_lt in F; lia|apply Z.ltb_ge in F; lia].
Qed.

Variable deltas : Z -> Z -> Q -> Z * Z.
Variable sites : dict string site.
Lemma some_lon_iff x : some_lon sites x <-> exists s, In s (dvals sites) /\ s_lon s = x.
Proof using.
  unfold some_lon, dvals. split.
  - intros (i & s & lat & Hi & Hl). apply lies_pos in Hl. exists s. split; [apply in_map_iff; exists (i, s); auto|]. congruence.
  - intros (s & Hs & <-). apply in_map_iff in Hs. destruct Hs as ([i s'] & <- & Hi). exists i, s', (s_lat s'). split; [exact Hi|]. now apply lies_pos.
Qed.
Lemma some_lat_iff x : some_lat sites x <-> In x (map s_lat (dvals sites)).
Proof using.
  unfold some_lat, dvals. rewrite in_map_iff. split.
  - intros (i & s & lon & Hi & Hl). apply lies_pos in Hl. exists s. split; [congruence|]. apply in_map_iff. exists (i, s); auto.
  - intros (s & <- & Hs). apply in_map_iff in Hs. destruct Hs as ([i s'] & <- & Hi). exists i, s', (s_lon s'). split; [exact Hi|]. now apply lies_pos.
Qed.
Lemma antimeridian_iff : antimeridian deg sites = true <-> crosses deg sites.
Proof using.
  unfold antimeridian, crosses. rewrite andb_true_iff, !existsb_exists. split.
  - intros [([i s] & Hi & H1) ([i' s'] & Hi' & H2)]. cbn [snd] in *. apply Z.leb_le in H1. apply Z.leb_le in H2. split.
    + exists (s_lon s). split; [apply some_lon_iff; exists s; split; [apply in_map_iff; exists (i, s); auto|reflexivity]|lia].
    + exists (s_lon s'). split; [apply some_lon_iff; exists s'; split; [apply in_map_iff; exists (i', s'); auto|reflexivity]|lia].
  - intros [(x & Hx & H1) (y & Hy & H2)]. apply some_lon_iff in Hx. apply some_lon_iff in Hy. destruct Hx as (s & Hs & <-). destruct Hy as (s' & Hs' & <-).
    apply in_map_iff in Hs. apply in_map_iff in Hs'. destruct Hs as ([i z] & Ez & Hi). destruct Hs' as ([i' z'] & Ez' & Hi'). cbn in Ez, Ez'. subst. split.
    + exists (i, s). split; [exact Hi|]. apply Z.leb_le. cbn [snd]. lia.
    + exists (i', s'). split; [exact Hi'|]. apply Z.leb_le. cbn [snd]. lia.
Qed.
Lemma lons_iff (f : Z -> bool) (P : Z -> Prop) : (forall x, f x = true <-> P x) ->
  forall y, In y (map s_lon (filter (fun s => negb (antimeridian deg sites) || f (s_lon s)) (dvals sites))) <-> some_lon sites y /\ (antimeridian deg sites = true -> P y).
Proof using.
  intros H y. rewrite in_map_iff, some_lon_iff. split.
  - intros (s & <- & Hs). apply filter_In in Hs. destruct Hs as [Hs Hf]. split; [eauto|]. intros Ha. rewrite Ha in Hf. now apply H.
  - intros [(s & Hs & <-) Ha]. exists s. split; [reflexivity|]. apply filter_In. split; [exact Hs|]. destruct (antimeridian deg sites); [|reflexivity]. cbn [negb orb]. apply H. now apply Ha.
Qed.
Lemma add_uniform_area fuel spacing demand D D' : add_uniform did deltas deg sites fuel spacing demand D = Ok D' ->
  exists left right bottom top dx dy, area deg sites (antimeridian deg sites) left right bottom top /\ deltas left bottom spacing = (dx, dy)
   /\ lon_loop did deg fuel demand (antimeridian deg sites) (left - dx)%Z dx (left - dx)%Z (right + dx)%Z (bottom - dy)%Z dy (top + dy)%Z D = Ok D'.
Proof using.
  unfold add_uniform. intros E. apply rbind_ok in E. destruct E as (left & E1 & E). apply rbind_ok in E. destruct E as (right & E2 & E).
  apply rbind_ok in E. destruct E as (bottom & E3 & E). apply rbind_ok in E. destruct E as (top & E4 & E).
  exists left, right, bottom, top. destruct (deltas left bottom spacing) as [dx dy]. cbn [fst snd] in E. exists dx, dy.
  split; [|split; [reflexivity|exact E]].
  apply min_least in E1. apply max_greatest in E2. apply min_least in E3. apply max_greatest in E4.
  split; [apply antimeridian_iff|]. split; [|split; [|split]].
  - revert E1. apply least_ext. intros y. symmetry. apply (lons_iff (near_east deg) (fun x => (175 * deg <= x)%Z)). intros x. unfold near_east. rewrite Z.leb_le. lia.
  - revert E2. apply greatest_ext. intros y. symmetry. apply (lons_iff (near_west deg) (fun x => (x <= -175 * deg)%Z)). intros x. unfold near_west. rewrite Z.leb_le. lia.
  - revert E3. apply least_ext. intros y. apply some_lat_iff.
  - revert E4. apply greatest_ext. intros y. apply some_lat_iff.
Qed.
Lemma least_unique P x y : least P x -> least P y -> x = y.
Proof. intros [H1 H2] [H3 H4]. apply Z.le_antisymm; auto. Qed.
Lemma greatest_unique P x y : greatest P x -> greatest P y -> x = y.
Proof. intros [H1 H2] [H3 H4]. apply Z.le_antisymm; auto. Qed.
Lemma area_unique am left right bottom top am' left' right' bottom' top' :
  area deg sites am left right bottom top -> area deg sites am' left' right' bottom' top' -> am = am' /\ left = left' /\ right = right' /\ bottom = bottom' /\ top = top'.
Proof using.
  intros (A & L & R & B & T) (A' & L' & R' & B' & T').
  assert (Ea : am = am') by (destruct am, am'; try reflexivity; [symmetry; apply A'; now apply A|apply A; now apply A']). subst am'.
  split; [reflexivity|]. split; [exact (least_unique _ _ _ L L')|]. split; [exact (greatest_unique _ _ _ R R')|]. split; [exact (least_unique _ _ _ B B')|exact (greatest_unique _ _ _ T T')].
Qed.
Lemma room_hyp am left right bottom top dx : area deg sites am left right bottom top ->
  (forall x, some_lon sites x -> (-180 * deg <= x <= 180 * deg)%Z) -> (0 < dx < 100 * deg)%Z -> (am = false -> right + 2 * dx <= 180 * deg)%Z ->
  (if am then -180 * deg <= right + dx /\ right + dx + dx < left - dx /\ left - dx <= 180 * deg else right + dx + dx <= 180 * deg)%Z.
Proof using Hdeg.
  intros (A & [[L1 L2] _] & [[R1 R2] _] & _) Hl Hdx Hr. destruct am.
  - specialize (L2 eq_refl). specialize (R2 eq_refl). pose proof (Hl _ L1). pose proof (Hl _ R1). lia.
  - specialize (Hr eq_refl). lia.
Qed.
Lemma wrap_left am left right bottom top dx : area deg sites am left right bottom top ->
  (forall x, some_lon sites x -> (-180 * deg <= x <= 180 * deg)%Z) -> (0 < dx)%Z -> wrap (left - dx) = (left - dx)%Z /\ (left <= (if am then right + 360 * deg else right) + dx)%Z.
Proof using Hdeg.
  intros (A & [[L1 L2] L3] & [[R1 R2] R3] & _) Hl Hdx. pose proof (Hl _ L1). pose proof (Hl _ R1). unfold wrap.
  assert (F : (180 * deg <? left - dx)%Z = false) by (apply Z.ltb_ge; lia). rewrite F. split; [reflexivity|].
  destruct am; [lia|]. assert (left <= right)%Z; [|lia]. apply R3. split; [exact L1|discriminate].
Qed.
Lemma add_uniform_ok fuel spacing demand D D' : roomy deg sites deltas spacing -> add_uniform did deltas deg sites fuel spacing demand D = Ok D' ->
  sets demand (fun lat lon => grid_point deg sites deltas spacing lat lon) D D'.
Proof using Hinj Hdeg.
  intros (_ & Hl & Hr) E. apply add_uniform_area in E. destruct E as (left & right & bottom & top & dx & dy & Ha & Hd & E).
  destruct (Hr _ _ _ _ _ _ _ Ha Hd) as (H1 & H2 & H3).
  pose proof (room_hyp _ _ _ _ _ _ Ha Hl H1 H3) as H4. destruct (wrap_left _ _ _ _ _ dx Ha Hl (proj1 H1)) as [H5 H6].
  rewrite <- H5 in E at 1. apply lon_loop_ok in E; try assumption; [|lia|lia|destruct (antimeridian deg sites); lia].
  assert (X : forall lat lon, grid_point deg sites deltas spacing lat lon <-> col (antimeridian deg sites) dx (right + dx) (left - dx) lon /\ grid_lat (bottom - dy) dy (top + dy) lat).
  { intros lat lon. split.
    - intros (am' & l' & r' & b' & t' & dx' & dy' & Ha' & Hd' & G1 & G2). destruct (area_unique _ _ _ _ _ _ _ _ _ _ Ha Ha') as (<- & <- & <- & <- & <-).
      rewrite Hd in Hd'. injection Hd' as <- <-. split; [exact G1|exact G2].
    - intros [G1 G2]. exists (antimeridian deg sites), left, right, bottom, top, dx, dy. auto. }
  destruct E as (W & P1 & P2 & P3). split; [exact W|]. split; [|split].
  - intros lat lon H. apply P1. now apply X.
  - intros k Hk. apply P2. intros lat lon H. apply Hk. now apply X.
  - intros k. destruct (P3 k) as [(a & b & Hab & E)|N]; [left; exists a, b; split; [now apply X|exact E]|right]. intros a b Hab. apply (N a b). now apply X.
Qed.
Lemma add_uniform_total spacing demand D : roomy deg sites deltas spacing -> on_globe deg sites deltas spacing ->
  exists fuel0, forall fuel, (fuel0 <= fuel)%nat -> exists D', add_uniform did deltas deg sites fuel spacing demand D = Ok D'.
Proof using Hdeg.
  intros (_ & Hl & Hr) [Hn Hg].
  assert (Mn : forall l, l <> [] -> exists x, min_z l = Ok x) by (intros [|a l] H; [congruence|eexists; reflexivity]).
  assert (Mx : forall l, l <> [] -> exists x, max_z l = Ok x) by (intros [|a l] H; [congruence|eexists; reflexivity]).
  assert (Hs : exists s, In s (dvals sites)) by (destruct sites as [|[i s] r]; [congruence|exists s; now left]).
  assert (NE : forall l (x : Z), In x l -> l <> []) by (intros l x Hx ->; destruct Hx).
  assert (E1 : exists left, min_z (map s_lon (filter (fun s => negb (antimeridian deg sites) || near_east deg (s_lon s)) (dvals sites))) = Ok left).
  { apply Mn. destruct (antimeridian deg sites) eqn:Ea; cbn [negb orb].
    - apply antimeridian_iff in Ea as Hc. destruct Hc as [(x & Hx & H1) _]. apply some_lon_iff in Hx. destruct Hx as (s & Hx & <-). apply (NE _ (s_lon s)). apply in_map. apply filter_In. split; [exact Hx|]. apply Z.leb_le. lia.
    - destruct Hs as [s Hs]. apply (NE _ (s_lon s)). apply in_map. apply filter_In. auto. }
  assert (E2 : exists right, max_z (map s_lon (filter (fun s => negb (antimeridian deg sites) || near_west deg (s_lon s)) (dvals sites))) = Ok right).
  { apply Mx. destruct (antimeridian deg sites) eqn:Ea; cbn [negb orb].
    - apply antimeridian_iff in Ea as Hc. destruct Hc as [_ (x & Hx & H1)]. apply some_lon_iff in Hx. destruct Hx as (s & Hx & <-). apply (NE _ (s_lon s)). apply in_map. apply filter_In. split; [exact Hx|]. apply Z.leb_le. lia.
    - destruct Hs as [s Hs]. apply (NE _ (s_lon s)). apply in_map. apply filter_In. auto. }
  assert (E3 : exists b, min_z (map s_lat (dvals sites)) = Ok b) by (apply Mn; destruct Hs as [s Hs]; apply (NE _ (s_lat s)); now apply in_map).
  assert (E4 : exists t, max_z (map s_lat (dvals sites)) = Ok t) by (apply Mx; destruct Hs as [s Hs]; apply (NE _ (s_lat s)); now apply in_map).
  destruct E1 as [left E1]. destruct E2 as [right E2]. destruct E3 as [bottom E3]. destruct E4 as [top E4].
  unfold add_uniform. rewrite E1, E2, E3, E4. cbn [rbind].
  assert (Ha : area deg sites (antimeridian deg sites) left right bottom top).
  { apply min_least in E1. apply max_greatest in E2. apply min_least in E3. apply max_greatest in E4.
    split; [apply antimeridian_iff|]. split; [|split; [|split]].
    - revert E1. apply least_ext. intros y. symmetry. apply (lons_iff (near_east deg) (fun x => (175 * deg <= x)%Z)). intros x. unfold near_east. rewrite Z.leb_le. lia.
    - revert E2. apply greatest_ext. intros y. symmetry. apply (lons_iff (near_west deg) (fun x => (x <= -175 * deg)%Z)). intros x. unfold near_west. rewrite Z.leb_le. lia.
    - revert E3. apply least_ext. intros y. apply some_lat_iff.
    - revert E4. apply greatest_ext. intros y. apply some_lat_iff. }
  destruct (deltas left bottom spacing) as [dx dy] eqn:Hd. cbn [fst snd].
  destruct (Hr _ _ _ _ _ _ _ Ha Hd) as (H1 & H2 & H3). destruct (Hg _ _ _ _ _ _ _ Ha Hd) as (B1 & B2 & B3).
  pose proof (room_hyp _ _ _ _ _ _ Ha Hl H1 H3) as H4. destruct (wrap_left _ _ _ _ _ dx Ha Hl (proj1 H1)) as [H5 H6].
  set (en := (if antimeridian deg sites then (right + dx) + 360 * deg else right + dx)%Z).
  exists (Z.to_nat (en - (left - dx) + 1) + Z.to_nat ((top + dy) - (bottom - dy) + 1) + 2)%nat. intros fuel Hf.
  pose proof (lon_loop_total demand (antimeridian deg sites) dx (left - dx) (right + dx) (bottom - dy) dy (top + dy) (proj1 H1) H2 H4 fuel B1 B2 B3 (left - dx) D) as T.
  rewrite H5 in T. apply T; [lia|destruct (antimeridian deg sites); lia|]. fold en. lia.
Qed.
End Uniform.
