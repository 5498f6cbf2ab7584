(** Proofs about the geographic helpers. *)
From Coq Require Import QArith Qround Qabs Lqa.
From Verif Require Import Base GeoModel GeoSpec.
Local Open Scope Q_scope.

Lemma Qle_bool_false x y : Qle_bool x y = false <-> y < x.
Proof.
  rewrite <- not_true_iff_false, Qle_bool_iff. split; intros H.
  - now apply Qnot_le_lt.
  - now apply Qlt_not_le.
Qed.
Lemma negb_le x y : negb (Qle_bool x y) = true <-> y < x.
Proof. rewrite negb_true_iff. apply Qle_bool_false. Qed.

(** ** angle_delta *)
Lemma angle_delta_signed a b : -(540) < a - b -> a - b <= 540 -> signed_angle (a - b) (angle_delta a b).
Proof.
  intros H1 H2. unfold angle_delta, signed_angle. cbv zeta.
  destruct (Qle_bool (a - b) 180) eqn:E1; simpl.
  - apply Qle_bool_iff in E1. destruct (Qle_bool (a - b) (-(180))) eqn:E2.
    + apply Qle_bool_iff in E2. split; [exists 1%Z; unfold inject_Z; ring|]. lra.
    + apply Qle_bool_false in E2. split; [exists 0%Z; unfold inject_Z; ring|]. lra.
  - apply Qle_bool_false in E1. split; [exists (-1)%Z; unfold inject_Z; ring|]. lra.
Qed.
Lemma angle_delta_in_range_iff a b : (-(180) < angle_delta a b /\ angle_delta a b <= 180) <-> (-(540) < a - b /\ a - b <= 540).
Proof.
  unfold angle_delta. cbv zeta. destruct (Qle_bool (a - b) 180) eqn:E1; simpl.
  - apply Qle_bool_iff in E1. destruct (Qle_bool (a - b) (-(180))) eqn:E2.
    + apply Qle_bool_iff in E2. lra.
    + apply Qle_bool_false in E2. lra.
  - apply Qle_bool_false in E1. lra.
Qed.
Lemma signed_angle_unique d r r' : signed_angle d r -> signed_angle d r' -> r == r'.
Proof.
  intros [[z Hz] [H1 H2]] [[z' Hz'] [H1' H2']].
  assert (Hlt : -(1) < inject_Z z - inject_Z z' /\ inject_Z z - inject_Z z' < 1) by lra.
  assert (Ez : z = z').
  { assert (A : inject_Z z < inject_Z z' + inject_Z 1) by (change (inject_Z 1) with 1; lra).
    assert (B : inject_Z z' < inject_Z z + inject_Z 1) by (change (inject_Z 1) with 1; lra).
    rewrite <- inject_Z_plus, <- Zlt_Qlt in A, B. lia. }
  subst z'. lra.
Qed.
Lemma angle_delta_antisym a b : -(540) < a - b -> a - b < 540 ->
  (angle_delta b a == - angle_delta a b) \/ (angle_delta a b == 180 /\ angle_delta b a == 180).
Proof.
  intros H1 H2. unfold angle_delta. cbv zeta.
  destruct (Qle_bool (a - b) 180) eqn:E1; destruct (Qle_bool (b - a) 180) eqn:E2;
    destruct (Qle_bool (a - b) (-(180))) eqn:E3; destruct (Qle_bool (b - a) (-(180))) eqn:E4; simpl;
    rewrite ?Qle_bool_iff, ?Qle_bool_false in *; try lra; try (left; lra); try (right; lra).
Qed.

(** ** UTM zones *)
Lemma zone_range lon : (1 <= utm_zone lon <= 60)%Z.
Proof. unfold utm_zone. pose proof (Z.mod_pos_bound (Qfloor ((lon + 180) / 6)) 60). lia. Qed.
Lemma epsg_range lat lon : epsg_ok (utm_epsg lat lon) = true /\
  (if Qle_bool 0 lat then (32601 <= utm_epsg lat lon <= 32660)%Z else (32701 <= utm_epsg lat lon <= 32760)%Z).
Proof.
  pose proof (zone_range lon). unfold utm_epsg, epsg_ok. destruct (Qle_bool 0 lat); cbv zeta.
  - split; [|lia]. apply orb_true_iff. left. apply andb_true_iff. split; [apply Z.ltb_lt|apply Z.leb_le]; lia.
  - split; [|lia]. apply orb_true_iff. right. apply andb_true_iff. split; [apply Z.ltb_lt|apply Z.leb_le]; lia.
Qed.
Lemma zone_band lon : -(180) <= lon -> lon < 180 ->
  -(180) + 6 * (inject_Z (utm_zone lon) - 1) <= lon /\ lon < -(180) + 6 * inject_Z (utm_zone lon).
Proof.
  intros H1 H2. unfold utm_zone. pose proof (Qfloor_le ((lon + 180) / 6)) as Hl. pose proof (Qlt_floor ((lon + 180) / 6)) as Hu.
  set (z := Qfloor ((lon + 180) / 6)) in *. rewrite inject_Z_plus in Hu.
  assert (E6 : (lon + 180) / 6 * 6 == lon + 180) by field.
  assert (Hz : (0 <= z < 60)%Z).
  { assert (Ha : 0 <= (lon + 180) / 6) by (apply Qmult_le_r with 6; [reflexivity|rewrite E6; lra]).
    assert (Hb : (lon + 180) / 6 < 60) by (apply Qmult_lt_r with 6; [reflexivity|rewrite E6; lra]).
    split.
    - change 0%Z with (Qfloor 0). now apply Qfloor_resp_le.
    - apply Qle_lt_trans with (z := 60) in Hl; [|exact Hb]. unfold inject_Z, Qlt in Hl. simpl in Hl. lia. }
  rewrite Z.mod_small by exact Hz. rewrite inject_Z_plus. change (inject_Z 1) with 1 in *.
  split; nra.
Qed.
Lemma zone_wrap lon : lon == 180 -> utm_zone lon = 1%Z.
Proof.
  intros H. unfold utm_zone. assert (E : (lon + 180) / 6 == 60) by (rewrite H; reflexivity).
  apply Qfloor_comp in E. rewrite E. reflexivity.
Qed.

(** ** Geohash *)
Definition rng (base size x : Q) (n : nat) (k : Z) (r : Q * Q) : Prop :=
  exists w, size == w * inject_Z (2 ^ Z.of_nat n) /\ (0 <= k < 2 ^ Z.of_nat n)%Z /\
    fst r == base + w * inject_Z k /\ snd r == base + w * (inject_Z k + 1) /\
    fst r <= x /\ (x < snd r \/ (k = 2 ^ Z.of_nat n - 1)%Z /\ x == base + size).

Lemma halve_rng base size x n k r r' b : rng base size x n k r -> halve x r = (r', b) ->
  rng base size x (S n) (2 * k + bit b) r'.
Proof.
  intros (w & Hw & Hk & H1 & H2 & Hlo & Hhi) E. unfold halve in E. cbv zeta in E.
  assert (Hp : (2 ^ Z.of_nat (S n) = 2 * 2 ^ Z.of_nat n)%Z) by (rewrite Nat2Z.inj_succ, Z.pow_succ_r; lia).
  exists (w / 2). rewrite Hp.
  assert (Hc : (fst r + snd r) / 2 == base + w * inject_Z k + w / 2) by (rewrite H1, H2; field).
  rewrite inject_Z_mult, inject_Z_plus, inject_Z_mult. change (inject_Z 2) with 2.
  split; [rewrite Hw; field|].
  destruct (Qle_bool ((fst r + snd r) / 2) x) eqn:Ec; simpl in E; inversion E; subst; clear E; cbn [bit fst snd].
  - apply Qle_bool_iff in Ec. change (inject_Z 1) with 1. split; [lia|]. split; [rewrite Hc; field|].
    split; [rewrite H2; field|]. split; [exact Ec|]. destruct Hhi as [H|[H H']]; [now left|right]. split; [lia|exact H'].
  - apply Qle_bool_false in Ec. change (inject_Z 0) with 0. split; [lia|]. split; [rewrite H1; field|].
    split; [rewrite Hc; field|]. split; [exact Hlo|]. now left.
Qed.

Fixpoint run_bits (n : nat) (lat lon : Q) (st : gstate) : gstate * list bool :=
  match n with
  | O => (st, [])
  | S m => let '(st1, b) := bit_step lat lon st in let '(st2, l) := run_bits m lat lon st1 in (st2, b :: l)
  end.
Lemma run_bits_app n m lat lon st : run_bits (n + m) lat lon st =
  let '(s1, l1) := run_bits n lat lon st in let '(s2, l2) := run_bits m lat lon s1 in (s2, l1 ++ l2).
Proof.
  revert st. induction n as [|n IH]; intros st; simpl.
  - now destruct (run_bits m lat lon st).
  - destruct (bit_step lat lon st) as [s1 b]. rewrite IH. destruct (run_bits n lat lon s1) as [s2 l]. now destruct (run_bits m lat lon s2).
Qed.

Definition G (lat lon : Q) (nx ny : nat) (kx ky : Z) (st : gstate) : Prop :=
  rng (-(180)) 360 lon nx kx (g_lon st) /\ rng (-(90)) 180 lat ny ky (g_lat st) /\
  nx = (ny + if g_odd st then 1 else 0)%nat.
Lemma run_bits_G lat lon n : forall nx ny kx ky st st' l, G lat lon nx ny kx ky st -> run_bits n lat lon st = (st', l) ->
  List.length l = n /\ exists nx' ny' kx' ky', deinterleave (g_odd st) l kx ky = (kx', ky') /\ G lat lon nx' ny' kx' ky' st' /\
    (nx' + ny' = nx + ny + n)%nat.
Proof.
  induction n as [|n IH]; intros nx ny kx ky st st' l HG E.
  - simpl in E. inversion E; subst. split; [reflexivity|]. exists nx, ny, kx, ky. simpl. auto.
  - simpl in E. destruct (bit_step lat lon st) as [s1 b] eqn:Eb. destruct (run_bits n lat lon s1) as [s2 l2] eqn:Er.
    inversion E; subst; clear E. destruct HG as (Hx & Hy & Hn). unfold bit_step in Eb. destruct (g_odd st) eqn:Eo.
    + destruct (halve lat (g_lat st)) as [r b'] eqn:Eh. inversion Eb; subst; clear Eb.
      assert (HG1 : G lat lon (ny + 1) (S ny) kx (2 * ky + bit b) (mkG (negb true) r (g_lon st))).
      { split; [exact Hx|]. split; [eapply halve_rng; eauto|]. simpl. lia. }
      destruct (IH _ _ _ _ _ _ _ HG1 Er) as (Hlen & nx' & ny' & kx' & ky' & Hd & HG' & Hsum).
      split; [simpl; now rewrite Hlen|]. exists nx', ny', kx', ky'. simpl. simpl in Hd. split; [exact Hd|]. split; [exact HG'|]. lia.
    + destruct (halve lon (g_lon st)) as [r b'] eqn:Eh. inversion Eb; subst; clear Eb.
      assert (HG1 : G lat lon (S (ny + 0)) ny (2 * kx + bit b) ky (mkG (negb false) (g_lat st) r)).
      { split; [eapply halve_rng; eauto|]. split; [exact Hy|]. simpl. lia. }
      destruct (IH _ _ _ _ _ _ _ HG1 Er) as (Hlen & nx' & ny' & kx' & ky' & Hd & HG' & Hsum).
      split; [simpl; now rewrite Hlen|]. exists nx', ny', kx', ky'. simpl. simpl in Hd. split; [exact Hd|]. split; [exact HG'|]. lia.
Qed.

Lemma char_loop_bits lat lon st st' cb : char_loop bitvals lat lon st 0 = (st', cb) ->
  (cb < 32)%nat /\ run_bits 5 lat lon st = (st', five_bits cb).
Proof.
  unfold bitvals, run_bits. cbn [char_loop].
  destruct (bit_step lat lon st) as [s1 b1]. destruct (bit_step lat lon s1) as [s2 b2].
  destruct (bit_step lat lon s2) as [s3 b3]. destruct (bit_step lat lon s3) as [s4 b4]. destruct (bit_step lat lon s4) as [s5 b5].
  intros E. injection E as <- <-. split.
  - apply Nat.ltb_lt. destruct b1, b2, b3, b4, b5; vm_compute; reflexivity.
  - f_equal. destruct b1, b2, b3, b4, b5; vm_compute; reflexivity.
Qed.

Lemma seed_get n : (n < 32)%nat -> exists c, String.get n seed = Some c /\ index_in c seed = Some n.
Proof. intros H. do 32 (destruct n as [|n]; [eexists; split; reflexivity|]). lia. Qed.
Lemma index_in_lt c s n : index_in c s = Some n -> (n < String.length s)%nat /\ String.get n s = Some c.
Proof.
  revert n. induction s as [|d r IH]; intros n; simpl; [discriminate|]. destruct (Ascii.eqb c d) eqn:E.
  - intros H. inversion H; subst. apply Ascii.eqb_eq in E. subst. split; [lia|reflexivity].
  - destruct (index_in c r) as [m|]; simpl; [|discriminate]. intros H. inversion H; subst. destruct (IH m eq_refl). split; [lia|assumption].
Qed.

Lemma append_cons a c s : ((a ++ String c "") ++ s = a ++ String c s)%string.
Proof. induction a as [|d r IH]; simpl; [reflexivity|]. now rewrite IH. Qed.

Lemma hash_loop_spec lat lon n : forall st acc, exists s l st', hash_loop n lat lon st acc = Ok (acc ++ s)%string /\
  String.length s = n /\ hash_bits s = Some l /\ run_bits (5 * n) lat lon st = (st', l).
Proof.
  induction n as [|n IH]; intros st acc.
  - exists ""%string, [], st. simpl. split; [|auto]. f_equal. induction acc as [|c r IH]; simpl; [reflexivity|]. now rewrite <- IH.
  - cbn [hash_loop]. destruct (char_loop bitvals lat lon st 0) as [st1 cb] eqn:Ec. apply char_loop_bits in Ec. destruct Ec as [Hcb Hr].
    destruct (seed_get cb Hcb) as (c & Eg & Ei). rewrite Eg.
    destruct (IH st1 (acc ++ String c "")%string) as (s & l & st' & E & Hlen & Hb & Hrun).
    exists (String c s), (five_bits cb ++ l), st'. split; [rewrite E; f_equal; apply append_cons|].
    split; [simpl; now rewrite Hlen|]. split; [cbn [hash_bits]; now rewrite Ei, Hb|].
    replace (5 * S n)%nat with (5 + 5 * n)%nat by lia. now rewrite run_bits_app, Hr, Hrun.
Qed.

Lemma geo_hash_spec lat lon : valid_point lat lon -> exists s, geo_hash lat lon = Ok s /\ String.length s = 10%nat /\ in_cell s lat lon.
Proof.
  intros (H1 & H2 & H3 & H4). unfold geo_hash.
  apply Qle_bool_iff in H1, H2, H3, H4. rewrite H1, H2, H3, H4. simpl negb. cbv iota.
  apply Qle_bool_iff in H1, H2, H3, H4.
  destruct (hash_loop_spec lat lon 10 (mkG false (-(90), 90) (-(180), 180)) "") as (s & l & st' & E & Hlen & Hb & Hrun).
  exists s. split; [exact E|]. split; [exact Hlen|].
  assert (HG : G lat lon 0 0 0 0 (mkG false (-(90), 90) (-(180), 180))).
  { split; [|split; [|reflexivity]].
    - exists 360. simpl. repeat split; try reflexivity; try lia; try assumption.
      destruct (Qlt_le_dec lon 180) as [|Hge]; [now left|right]. split; [reflexivity|]. lra.
    - exists 180. simpl. repeat split; try reflexivity; try lia; try assumption.
      destruct (Qlt_le_dec lat 90) as [|Hge]; [now left|right]. split; [reflexivity|]. lra. }
  destruct (run_bits_G lat lon _ _ _ _ _ _ _ _ HG Hrun) as (_ & nx & ny & kx & ky & Hd & (Hx & Hy & Hn) & Hsum).
  assert (nx = 25%nat /\ ny = 25%nat) as [-> ->]. { destruct (g_odd st'); lia. }
  assert (Hpart : forall base size x k r, rng base size x 25 k r -> in_part base size k x).
  { intros base size x k r (w & Hw & Hk & Hf & Hs & Hlo & Hhi). change (2 ^ Z.of_nat 25)%Z with divisions in *.
    split; [exact Hk|].
    assert (Ew : forall q, size * q / inject_Z divisions == w * q).
    { intros q. rewrite Hw. field. unfold divisions, inject_Z, Qeq. simpl. lia. }
    split; [rewrite Ew, <- Hf; exact Hlo|]. rewrite Ew, <- Hs. exact Hhi. }
  exists kx, ky. split; [unfold decode; rewrite Hb; simpl; simpl in Hd; now rewrite Hd|].
  split; eapply Hpart; eauto.
Qed.

(** the part a value lies in is unique *)
Lemma in_part_unique base size k k' x : 0 < size -> in_part base size k x -> in_part base size k' x -> k = k'.
Proof.
  intros Hs (Hk & Hlo & Hhi) (Hk' & Hlo' & Hhi').
  assert (Hd : 0 < inject_Z divisions) by reflexivity.
  assert (Hdw : exists w, 0 < w /\ size == w * inject_Z divisions).
  { exists (size / inject_Z divisions). split; [apply Qlt_shift_div_l; [exact Hd|lra]|]. field. intros E. rewrite E in Hd. discriminate. }
  destruct Hdw as (w & Hw & Ew).
  assert (Ec : forall q, size * q / inject_Z divisions == w * q).
  { intros q. rewrite Ew. field. intros E. rewrite E in Hd. discriminate. }
  rewrite Ec in Hlo, Hhi, Hlo', Hhi'.
  assert (Hone : forall a b, w * inject_Z a < w * (inject_Z b + 1) -> (a <= b)%Z).
  { intros a b H. apply Qmult_lt_l in H; [|exact Hw]. change 1 with (inject_Z 1) in H. rewrite <- inject_Z_plus in H.
    rewrite <- Zlt_Qlt in H. lia. }
  assert (Hdd : size == w * (inject_Z (divisions - 1) + 1)).
  { rewrite Ew. change (inject_Z (divisions - 1) + 1) with (inject_Z 33554431 + inject_Z 1). rewrite <- inject_Z_plus. reflexivity. }
  destruct Hhi as [Hhi|[Ek Hx]]; destruct Hhi' as [Hhi'|[Ek' Hx']].
  - assert (k <= k')%Z by (apply Hone; lra). assert (k' <= k)%Z by (apply Hone; lra). lia.
  - assert (k' <= k)%Z by (apply Hone; lra). unfold divisions in *. lia.
  - assert (k <= k')%Z by (apply Hone; lra). unfold divisions in *. lia.
  - lia.
Qed.

Lemma deinterleave_inj : forall l l' odd kx ky kx' ky', List.length l = List.length l' ->
  deinterleave odd l kx ky = deinterleave odd l' kx' ky' -> kx = kx' /\ ky = ky' /\ l = l'.
Proof.
  induction l as [|b r IH]; intros [|b' r'] odd kx ky kx' ky' Hlen E; cbn [deinterleave List.length] in *; try discriminate.
  - inversion E; auto.
  - injection Hlen as Hlen. destruct odd; apply IH in E; try exact Hlen; destruct E as (E1 & E2 & ->); unfold bit in *.
    + destruct b, b'; try (exfalso; lia); (split; [lia|]; split; [lia|reflexivity]).
    + destruct b, b'; try (exfalso; lia); (split; [lia|]; split; [lia|reflexivity]).
Qed.
Lemma five_bits_inj n m : (n < 32)%nat -> (m < 32)%nat -> five_bits n = five_bits m -> n = m.
Proof.
  assert (H : forall n : nat, (n < 32)%nat -> fold_left (fun (a : nat) (b : bool) => 2 * a + if b then 1 else 0)%nat (five_bits n) 0%nat = n).
  { intros k Hk. do 32 (destruct k as [|k]; [vm_compute; reflexivity|]). lia. }
  intros Hn Hm E. rewrite <- (H n Hn), <- (H m Hm), E. reflexivity.
Qed.
Lemma hash_bits_len s : forall l, hash_bits s = Some l -> List.length l = (5 * String.length s)%nat.
Proof.
  induction s as [|c r IH]; intros l; cbn [hash_bits].
  - intros E. inversion E. reflexivity.
  - destruct (index_in c seed); [|discriminate]. destruct (hash_bits r) as [l'|]; [|discriminate]. intros E. injection E as <-.
    cbn [List.length String.length]. rewrite (IH l' eq_refl). lia.
Qed.
Lemma hash_bits_inj s : forall s' l, hash_bits s = Some l -> hash_bits s' = Some l -> s = s'.
Proof.
  induction s as [|c r IH]; intros [|c' r'] l E E'; cbn [hash_bits] in *.
  - reflexivity.
  - injection E as <-. destruct (index_in c' seed); [|discriminate]. destruct (hash_bits r'); [|discriminate]. discriminate.
  - injection E' as <-. destruct (index_in c seed); [|discriminate]. destruct (hash_bits r); [|discriminate]. discriminate.
  - destruct (index_in c seed) as [n|] eqn:En; [|discriminate]. destruct (hash_bits r) as [l1|] eqn:E1; [|discriminate].
    destruct (index_in c' seed) as [m|] eqn:Em; [|discriminate]. destruct (hash_bits r') as [l2|] eqn:E2; [|discriminate].
    apply index_in_lt in En, Em. destruct En as [Hn Gn], Em as [Hm Gm]. change (String.length seed) with 32%nat in *.
    assert (Heq : five_bits m ++ l2 = five_bits n ++ l1) by congruence. clear E E'. unfold five_bits in Heq. cbn [app] in Heq.
    assert (Hf : five_bits n = five_bits m) by (unfold five_bits; congruence).
    apply five_bits_inj in Hf; [|assumption|assumption]. subst m. rewrite Gn in Gm. injection Gm as ->. f_equal.
    apply IH with l1; [reflexivity|]. rewrite E2. congruence.
Qed.
Lemma decode_inj s s' c : String.length s = String.length s' -> decode s = Some c -> decode s' = Some c -> s = s'.
Proof.
  unfold decode. destruct (hash_bits s) as [l|] eqn:E; [|discriminate]. destruct (hash_bits s') as [l'|] eqn:E'; [|discriminate].
  intros Hlen H H'. simpl in H, H'. assert (Hd : deinterleave false l 0 0 = deinterleave false l' 0 0) by congruence.
  apply deinterleave_inj in Hd.
  - destruct Hd as (_ & _ & ->). eapply hash_bits_inj; eauto.
  - rewrite (hash_bits_len _ _ E), (hash_bits_len _ _ E'). lia.
Qed.
Lemma in_cell_unique s s' lat lon : String.length s = String.length s' -> in_cell s lat lon -> in_cell s' lat lon -> s = s'.
Proof.
  intros Hlen (kx & ky & E & Hx & Hy) (kx' & ky' & E' & Hx' & Hy').
  assert (kx = kx') by (eapply in_part_unique; [|exact Hx|exact Hx']; reflexivity).
  assert (ky = ky') by (eapply in_part_unique; [|exact Hy|exact Hy']; reflexivity). subst.
  eapply decode_inj; eauto.
Qed.
Lemma geo_hash_iff lat lon s : valid_point lat lon -> String.length s = 10%nat -> (geo_hash lat lon = Ok s <-> in_cell s lat lon).
Proof.
  intros Hv Hs. destruct (geo_hash_spec lat lon Hv) as (s' & E & Hlen & Hc). split.
  - intros E2. congruence.
  - intros Hc2. rewrite E. f_equal. eapply in_cell_unique; eauto. congruence.
Qed.
Lemma geo_hash_rejects lat lon : ~ valid_point lat lon -> geo_hash lat lon = Err DataExn.
Proof.
  intros H. unfold geo_hash. destruct (Qle_bool (-(90)) lat) eqn:E1; [|reflexivity]. destruct (Qle_bool lat 90) eqn:E2; [|reflexivity].
  destruct (Qle_bool (-(180)) lon) eqn:E3; [|reflexivity]. destruct (Qle_bool lon 180) eqn:E4; [|reflexivity].
  apply Qle_bool_iff in E1, E2, E3, E4. exfalso. apply H. repeat split; assumption.
Qed.

(** ** GeoLocation *)
Lemma copy_altitude_ll lat lon x y e alt a : valid_point lat lon ->
  copy_loc (mkLoc (Some lat) (Some lon) x y e alt) (only_altitude a) = Ok (mkLoc (Some lat) (Some lon) None None None a).
Proof.
  intros (H1 & H2 & H3 & H4). unfold copy_loc, make_loc, lat_ok, lon_ok. simpl. apply Qle_bool_iff in H1, H2, H3, H4.
  now rewrite H1, H2, H3, H4.
Qed.
Section Reads.
  Variable to_ll : Z -> Q -> Q -> Q * Q.
  Variable to_utm : Z -> Q -> Q -> Q * Q.
  Definition read_any (which : bool) (g : geoloc) : geoloc :=
    if which then snd (read_ll to_ll g) else snd (read_utm to_utm g).
  Lemma make_loc_cases lat lon x y e alt g : make_loc lat lon x y e alt = Ok g ->
    (exists la lo, valid_point la lo /\ g = mkLoc (Some la) (Some lo) None None None alt) \/
    (exists a b c, epsg_ok c = true /\ g = mkLoc None None (Some a) (Some b) (Some c) alt).
  Proof.
    unfold make_loc. intros H.
    assert (A : forall la lo, (if negb (lat_ok la) then Err DataExn else if negb (lon_ok lo) then Err DataExn
                else Ok (mkLoc (Some la) (Some lo) None None None alt)) = Ok g -> exists la lo, valid_point la lo /\ g = mkLoc (Some la) (Some lo) None None None alt).
    { intros la lo E. exists la, lo. unfold lat_ok, lon_ok in E. destruct (Qle_bool (-(90)) la) eqn:E1; [|discriminate].
      destruct (Qle_bool la 90) eqn:E2; [|discriminate]. destruct (Qle_bool (-(180)) lo) eqn:E3; [|discriminate].
      destruct (Qle_bool lo 180) eqn:E4; [|discriminate]. apply Qle_bool_iff in E1, E2, E3, E4. simpl in E. inversion E.
      split; [repeat split; assumption|reflexivity]. }
    assert (B : forall a b c, (if epsg_ok c then Ok (mkLoc None None (Some a) (Some b) (Some c) alt) else Err DataExn) = Ok g ->
      exists a b c, epsg_ok c = true /\ g = mkLoc None None (Some a) (Some b) (Some c) alt).
    { intros a b c E. exists a, b, c. destruct (epsg_ok c); [|discriminate]. inversion E. auto. }
    destruct lat, lon; [left; eapply A; eauto| | |]; right; destruct x, y, e; try discriminate; eapply B; eauto.
  Qed.
  Lemma reads_stable lat lon x y e alt g ws : make_loc lat lon x y e alt = Ok g ->
    let g' := fold_left (fun g w => read_any w g) ws g in
    fst (read_ll to_ll g') = fst (read_ll to_ll g) /\ fst (read_utm to_utm g') = fst (read_utm to_utm g) /\
    (exists p, fst (read_ll to_ll g) = Ok p) /\ (exists p, fst (read_utm to_utm g) = Ok p).
  Proof.
    intros Hm. apply make_loc_cases in Hm. destruct Hm as [(la & lo & _ & ->)|(a & b & c & _ & ->)]; cbv zeta.
    - set (g0 := mkLoc (Some la) (Some lo) None None None alt).
      assert (H : forall ws g, g = g0 \/ g = snd (read_utm to_utm g0) ->
        fold_left (fun g w => read_any w g) ws g = g0 \/ fold_left (fun g w => read_any w g) ws g = snd (read_utm to_utm g0)).
      { induction ws0 as [|w r IH]; intros g Hg; simpl; [exact Hg|]. apply IH. unfold g0, read_any, read_ll, read_utm in *. simpl in *.
        destruct (to_utm (utm_epsg la lo) lo la) as [px py] eqn:Ep. simpl in *. destruct Hg as [->| ->]; destruct w; simpl; try rewrite Ep; simpl; auto. }
      destruct (H ws g0 (or_introl eq_refl)) as [-> | ->]; unfold g0, read_ll, read_utm; simpl;
        destruct (to_utm (utm_epsg la lo) lo la) as [px py] eqn:Ep; simpl; eauto 6.
    - set (g0 := mkLoc None None (Some a) (Some b) (Some c) alt).
      assert (H : forall ws g, g = g0 \/ g = snd (read_ll to_ll g0) ->
        fold_left (fun g w => read_any w g) ws g = g0 \/ fold_left (fun g w => read_any w g) ws g = snd (read_ll to_ll g0)).
      { induction ws0 as [|w r IH]; intros g Hg; simpl; [exact Hg|]. apply IH. unfold g0, read_any, read_ll, read_utm in *. simpl in *.
        destruct (to_ll c a b) as [px py] eqn:Ep. simpl in *. destruct Hg as [->| ->]; destruct w; simpl; try rewrite Ep; simpl; auto. }
      destruct (H ws g0 (or_introl eq_refl)) as [-> | ->]; unfold g0, read_ll, read_utm; simpl;
        destruct (to_ll c a b) as [px py] eqn:Ep; simpl; eauto 6.
  Qed.
  (** copying a location whose own coordinates are the only ones stored keeps them *)
  Lemma copy_altitude_fresh lat lon x y e alt g a : make_loc lat lon x y e alt = Ok g ->
    exists g', copy_loc g (only_altitude a) = Ok g' /\ gl_alt g' = a /\
      fst (read_ll to_ll g') = fst (read_ll to_ll g) /\ fst (read_utm to_utm g') = fst (read_utm to_utm g).
  Proof.
    intros Hm. apply make_loc_cases in Hm. destruct Hm as [(la & lo & Hv & ->)|(p & q & c & Hc & ->)].
    - exists (mkLoc (Some la) (Some lo) None None None a). split; [now apply copy_altitude_ll|]. split; [reflexivity|].
      unfold read_ll, read_utm. simpl. destruct (to_utm _ _ _). auto.
    - exists (mkLoc None None (Some p) (Some q) (Some c) a). split; [unfold copy_loc, make_loc; simpl; now rewrite Hc|]. split; [reflexivity|].
      unfold read_ll, read_utm. simpl. destruct (to_ll _ _ _). auto.
  Qed.
End Reads.
Lemma epsg_accepted lat lon : valid_point lat lon ->
  (exists g, make_loc (Some lat) (Some lon) None None None None = Ok g) /\
  (forall x y, exists g, make_loc None None (Some x) (Some y) (Some (utm_epsg lat lon)) None = Ok g) /\
  (if Qle_bool 0 lat then (32601 <= utm_epsg lat lon <= 32660)%Z else (32701 <= utm_epsg lat lon <= 32760)%Z).
Proof.
  intros (H1 & H2 & H3 & H4). destruct (epsg_range lat lon) as [He Hr]. split; [|split; [|exact Hr]].
  - unfold make_loc, lat_ok, lon_ok. apply Qle_bool_iff in H1, H2, H3, H4. rewrite H1, H2, H3, H4. simpl. eauto.
  - intros x y. unfold make_loc. rewrite He. eauto.
Qed.
Lemma same_hash_iff_same_cell lat lon lat' lon' : valid_point lat lon -> valid_point lat' lon' ->
  (geo_hash lat lon = geo_hash lat' lon' <->
   exists s, String.length s = 10%nat /\ in_cell s lat lon /\ in_cell s lat' lon').
Proof.
  intros Hv Hv'. destruct (geo_hash_spec lat lon Hv) as (s & E & Hl & Hc). destruct (geo_hash_spec lat' lon' Hv') as (s' & E' & Hl' & Hc').
  rewrite E, E'. split.
  - intros H. inversion H; subst. eauto.
  - intros (s2 & Hl2 & Hc2 & Hc2'). f_equal. transitivity s2; [|symmetry]; eapply in_cell_unique; eauto; congruence.
Qed.
