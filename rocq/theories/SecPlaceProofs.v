(** Proofs for C42 and C58. *)
From Coq Require Import QArith Qround Qabs Qminmax Lqa Sorted.
From Verif Require Import Base QLib MonadLib TopologyModel SetupModel GeoModel SecLinkSpec SecLinkProofs SecPlaceModel SecPlaceSpec SecDpProofs.
Local Open Scope Q_scope.
Local Open Scope list_scope.

(** ** Sums *)
Notation total := SecPlaceSpec.total.
Lemma tot_cons {A} (f : A -> Q) a l : total f (a :: l) = f a + total f l.
Proof. reflexivity. Qed.
Lemma tot_nil {A} (f : A -> Q) : total f [] = 0.
Proof. reflexivity. Qed.
Global Opaque SecPlaceSpec.total.
Ltac ts := cbn [app map List.concat rev List.length seq filter sum_q fold_right]; rewrite ?tot_cons, ?tot_nil.
Lemma qnat_S n : qnat (S n) == qnat n + 1.
Proof. unfold qnat. rewrite Nat2Z.inj_succ. unfold Z.succ. now rewrite inject_Z_plus. Qed.
Lemma tot_ext {A} (f g : A -> Q) l : (forall x, In x l -> f x == g x) -> total f l == total g l.
Proof. induction l as [|a l IH]; intros H; ts; [reflexivity|]. rewrite (H a (or_introl eq_refl)), IH; [reflexivity|]. intros x Hx. apply H. now right. Qed.
Lemma tot_app {A} (f : A -> Q) l r : total f (l ++ r) == total f l + total f r.
Proof. induction l as [|a l IH]; ts; [lra|]. rewrite IH. lra. Qed.
Lemma tot_le {A} (f g : A -> Q) l : (forall x, In x l -> f x <= g x) -> total f l <= total g l.
Proof. induction l as [|a l IH]; intros H; ts; [lra|]. pose proof (H a (or_introl eq_refl)). assert (total f l <= total g l) by (apply IH; intros x Hx; apply H; now right). lra. Qed.
Lemma tot_nonneg {A} (f : A -> Q) l : (forall x, In x l -> 0 <= f x) -> 0 <= total f l.
Proof. induction l as [|a l IH]; intros H; ts; [lra|]. pose proof (H a (or_introl eq_refl)). assert (0 <= total f l) by (apply IH; intros x Hx; apply H; now right). lra. Qed.
Lemma tot_plus {A} (f g : A -> Q) l : total (fun x => f x + g x) l == total f l + total g l.
Proof. induction l as [|a l IH]; ts; [lra|]. rewrite IH. lra. Qed.
Lemma tot_scale {A} c (f : A -> Q) l : total (fun x => c * f x) l == c * total f l.
Proof. induction l as [|a l IH]; ts; [lra|]. rewrite IH. lra. Qed.
Lemma tot_const {A} c (l : list A) : total (fun _ => c) l == c * qnat (List.length l).
Proof. induction l as [|a l IH]; ts; [change (qnat 0) with 0; lra|]. rewrite IH, qnat_S. lra. Qed.
Lemma tot_swap {A B} (f : A -> B -> Q) la lb : total (fun a => total (f a) lb) la == total (fun b => total (fun a => f a b) la) lb.
Proof.
  induction la as [|a la IH]; ts.
  - rewrite (tot_ext _ (fun _ => 0)) by (intros; reflexivity). rewrite tot_const. lra.
  - rewrite IH, <- tot_plus. reflexivity.
Qed.
Lemma tot_map {A B} (h : A -> B) f l : total f (map h l) == total (fun x => f (h x)) l.
Proof. induction l as [|a l IH]; ts; [reflexivity|]. now rewrite IH. Qed.
Lemma tot_concat {A} (f : A -> Q) ls : total f (List.concat ls) == total (total f) ls.
Proof. induction ls as [|l ls IH]; ts; [reflexivity|]. rewrite tot_app, IH. reflexivity. Qed.
Lemma tot_rev {A} (f : A -> Q) l : total f (rev l) == total f l.
Proof. induction l as [|a l IH]; ts; [reflexivity|]. rewrite tot_app, IH. ts. lra. Qed.
Lemma tot_Forall2 {A B} (R : A -> B -> Prop) f g la lb : Forall2 R la lb -> (forall a b, R a b -> f a == g b) -> total f la == total g lb.
Proof. intros H E. induction H as [|a b la lb Hab H IH]; ts; [reflexivity|]. now rewrite (E a b Hab), IH. Qed.
Lemma sum_q_map {A} (f : A -> Q) l : sum_q (map f l) == total f l.
Proof. induction l as [|a l IH]; ts; [reflexivity|]. fold (sum_q (map f l)). now rewrite IH. Qed.
Lemma tot_nth {A} (f : A -> Q) d l : total (fun i => f (nth i l d)) (seq 0 (List.length l)) == total f l.
Proof.
  induction l as [|a l IH]; ts; [reflexivity|]. rewrite <- seq_shift, tot_map. cbn [nth]. now rewrite IH.
Qed.
Lemma tot_bool {A} (p : A -> bool) l : total (fun x => if p x then 1 else 0) l == qnat (List.length (filter p l)).
Proof.
  induction l as [|a l IH]; ts; [reflexivity|]. rewrite IH. destruct (p a); cbn [List.length]; [|lra]. rewrite qnat_S. lra.
Qed.
Lemma qnat_le a b : (a <= b)%nat <-> qnat a <= qnat b.
Proof. unfold qnat. rewrite <- Zle_Qle. lia. Qed.
Lemma qnat_plus a b : qnat (a + b) == qnat a + qnat b.
Proof. unfold qnat. now rewrite Nat2Z.inj_add, inject_Z_plus. Qed.
Lemma qnat_mult a b : qnat (a * b) == qnat a * qnat b.
Proof. unfold qnat. now rewrite Nat2Z.inj_mul, inject_Z_mult. Qed.
Lemma qnat_pos a : 0 <= qnat a.
Proof. apply (qnat_le 0 a). lia. Qed.

Lemma Forall2_in_r {A B} (R : A -> B -> Prop) la lb b : Forall2 R la lb -> In b lb -> exists a, In a la /\ R a b.
Proof. intros H. induction H as [|a' b' la lb Hab H IH]; intros Hb; [destruct Hb|]. destruct Hb as [<-|Hb]; [exists a'; split; [now left|exact Hab]|]. destruct (IH Hb) as (a & Ha & Hr). exists a. split; [now right|exact Hr]. Qed.
Lemma Forall2_in_l {A B} (R : A -> B -> Prop) la lb a : Forall2 R la lb -> In a la -> exists b, In b lb /\ R a b.
Proof. intros H. induction H as [|a' b' la lb Hab H IH]; intros Ha; [destruct Ha|]. destruct Ha as [<-|Ha]; [exists b'; split; [now left|exact Hab]|]. destruct (IH Ha) as (b & Hb & Hr). exists b. split; [now right|exact Hr]. Qed.

(** ** Azimuths of the sectors of a node *)
Lemma mod360_spec x : direction (mod360 x) /\ exists z, mod360 x == x + 360 * inject_Z z.
Proof.
  unfold mod360, FULL, direction. pose proof (Qfloor_le (x / 360)) as A. pose proof (Qlt_floor (x / 360)) as B. rewrite inject_Z_plus in B. change (inject_Z 1) with 1 in B.
  assert (E : x / 360 * 360 == x) by (field). split; [split|].
  - assert (inject_Z (Qfloor (x / 360)) * 360 <= x / 360 * 360) by (apply Qmult_le_compat_r; lra). lra.
  - assert (x / 360 * 360 < (inject_Z (Qfloor (x / 360)) + 1) * 360) by (apply Qmult_lt_compat_r; lra). lra.
  - exists (- Qfloor (x / 360))%Z. rewrite inject_Z_opp. lra.
Qed.
Lemma half_spec n : (1 <= n)%nat -> (if Nat.even n then inject_Z (Z.of_nat n) / 2 - (1 # 2) else inject_Z (Z.of_nat (Nat.div2 n))) == (qnat n - 1) / 2.
Proof.
  intros Hn. unfold qnat. destruct (Nat.even n) eqn:E; [field|].
  assert (O : Nat.odd n = true) by (unfold Nat.odd; now rewrite E). apply Nat.odd_spec in O. destruct O as (m & ->). replace (2 * m + 1)%nat with (S (2 * m)) by lia. rewrite Nat.div2_succ_double.
  rewrite Nat2Z.inj_succ, Nat2Z.inj_mul. unfold Z.succ. rewrite inject_Z_plus, inject_Z_mult. change (inject_Z (Z.of_nat 2)) with 2. change (inject_Z 1) with 1. field.
Qed.
Lemma azimuths_ok c n hsr : 0 < hsr -> (1 <= n)%nat -> exists l, get_sector_azimuths_from_node_center c n hsr = Ok l /\ fan c hsr n l.
Proof.
  intros Hh Hn. unfold get_sector_azimuths_from_node_center. destruct (Nat.eqb_spec n 0) as [->|_]; [lia|]. pose proof (half_spec n Hn) as Hf. set (half := if Nat.even n then _ else _) in *. clearbody half.
  assert (L : Z.to_nat (Qceiling ((c + hsr * half + hsr / 2 - (c - hsr * half)) / hsr)) = n).
  { assert (E : (c + hsr * half + hsr / 2 - (c - hsr * half)) / hsr == qnat n - (1 # 2)) by (rewrite Hf; field; lra). rewrite E. clear E.
    pose proof (Qle_ceiling (qnat n - (1 # 2))) as A. pose proof (Qceiling_lt (qnat n - (1 # 2))) as B. set (z := Qceiling (qnat n - (1 # 2))) in *. clearbody z. unfold qnat in *.
    assert (inject_Z (z - 1) < inject_Z (Z.of_nat n)) by lra. assert (inject_Z (Z.of_nat n - 1) < inject_Z z).
    { assert (Ez : (Z.of_nat n - 1 = Z.of_nat n + -1)%Z) by lia. rewrite Ez, inject_Z_plus. change (inject_Z (-1)) with (-1)%Q. lra. }
    rewrite <- Zlt_Qlt in *. lia. }
  unfold arange. rewrite L, !map_length, seq_length, Nat.eqb_refl. cbn [guard rbind]. eexists. split; [reflexivity|]. split; [rewrite !map_length; apply seq_length|].
  intros i s Hs. rewrite map_map in Hs. rewrite nth_error_map in Hs. destruct (nth_error (seq 0 n) i) as [k|] eqn:Ek; [|discriminate]. cbn in Hs. injection Hs as <-.
  assert (k = i). { apply nth_error_nth with (d := O) in Ek as Ek'. assert (i < List.length (seq 0 n))%nat by (apply nth_error_Some; congruence). rewrite seq_length in H. rewrite seq_nth in Ek' by exact H. lia. } subst k.
  destruct (mod360_spec (c - hsr * half + inject_Z (Z.of_nat i) * hsr)) as (D & z & E). split; [exact D|]. exists z. rewrite E. unfold qnat. rewrite Hf. unfold qnat. lra.
Qed.

Lemma dir_unique a b z : direction a -> direction b -> a == b + 360 * inject_Z z -> a == b.
Proof.
  intros [A1 A2] [B1 B2] E. assert (z = 0%Z).
  { assert (inject_Z (-1) < inject_Z z) by (change (inject_Z (-1)) with (-1)%Q; lra). assert (inject_Z z < inject_Z 1) by (change (inject_Z 1) with 1; lra). rewrite <- Zlt_Qlt in *. lia. }
  subst z. change (inject_Z 0) with 0 in E. lra.
Qed.
Lemma fan_unique c c' h n l l' : c == c' -> fan c h n l -> fan c' h n l' -> Forall2 Qeq l l'.
Proof.
  intros E [L F] [L' F']. assert (X : forall i s s', nth_error l i = Some s -> nth_error l' i = Some s' -> s == s').
  { intros i s s' H H'. destruct (F i s H) as (D & z & Z1), (F' i s' H') as (D' & z' & Z2). apply (dir_unique s s' (z - z')); [assumption..|]. rewrite Z1, Z2. unfold Z.sub. rewrite inject_Z_plus, inject_Z_opp, E. lra. }
  assert (L2 : List.length l = List.length l') by congruence. clear L L' F F'. revert l' L2 X. induction l as [|a l IH]; intros [|a' l'] L2 X; try discriminate; constructor.
  - apply (X O); reflexivity.
  - apply IH; [now injection L2|]. intros i. apply (X (S i)).
Qed.
Lemma fan_dir c h n l s : fan c h n l -> In s l -> direction s.
Proof. intros [_ F] H. apply In_nth_error in H. destruct H as (i & H). now destruct (F i s H). Qed.

Lemma delta_between a b : delta a b == between a b.
Proof.
  unfold delta, FULL. assert (E : 360 / 2 == 180) by reflexivity. rewrite E.
  destruct (between_cases a b) as [[-> H]|[-> H]]; destruct (abs_case (180 - Qabs (a - b))) as [[? ->]|[? ->]]; lra.
Qed.
Lemma between_le_180 a b : between a b <= 180.
Proof. destruct (between_cases a b) as [[-> H]|[-> H]]; lra. Qed.
Lemma between_nonneg a b : direction a -> direction b -> 0 <= between a b.
Proof. intros [A1 A2] [B1 B2]. destruct (between_cases a b) as [[-> H]|[-> H]]; destruct (abs_case (a - b)); lra. Qed.
Lemma between_l a b c : a == b -> between a c == between b c.
Proof. intros E. unfold between. now rewrite E. Qed.
Lemma between_lift a b : direction a -> direction b -> exists k, between a b == Qabs (a - b + 360 * inject_Z k).
Proof.
  intros [A1 A2] [B1 B2]. destruct (between_cases a b) as [[E H]|[E H]].
  - exists 0%Z. rewrite E. change (inject_Z 0) with 0. assert (X : a - b + 360 * 0 == a - b) by lra. now rewrite X.
  - destruct (abs_case (a - b)) as [[P Q]|[P Q]].
    + exists (-1)%Z. change (inject_Z (-1)) with (-1)%Q. rewrite E, Q. destruct (abs_case (a - b + 360 * -1)) as [[? ->]|[? ->]]; lra.
    + exists 1%Z. change (inject_Z 1) with 1. rewrite E, Q. destruct (abs_case (a - b + 360 * 1)) as [[? ->]|[? ->]]; lra.
Qed.

(** ** Each link is seen by at most one sector of a placement *)
Section Geometry.
Variables (hsr : Q) (nspn : nat).
Hypothesis Hpos : 0 < hsr.
Definition sep (s t : Q) : Prop := exists d z, t - s == d + 360 * inject_Z z /\ hsr <= d /\ d <= 360 - hsr.
Lemma sep_not_both s t x : direction s -> direction t -> direction (nb_angle x) -> sep s t -> sees hsr s x = true -> sees hsr t x = true -> False.
Proof.
  intros Ds Dt Dx (d & z & E & L & U) Hs Ht. unfold sees in *. apply Bool.negb_true_iff, qle_false in Hs. apply Bool.negb_true_iff, qle_false in Ht.
  destruct (between_lift _ _ Ds Dx) as (k & Ek). destruct (between_lift _ _ Dt Dx) as (m & Em). rewrite Ek in Hs. rewrite Em in Ht. set (th := nb_angle x) in *.
  assert (E2 : t - th + 360 * inject_Z m - (s - th + 360 * inject_Z k) == d + 360 * inject_Z (z + m - k)).
  { unfold Z.sub. rewrite !inject_Z_plus, inject_Z_opp. lra. }
  assert (E3 : hsr / 2 + hsr / 2 == hsr) by field.
  set (q := (z + m - k)%Z) in *. clearbody q. set (u := t - th + 360 * inject_Z m) in *. set (v := s - th + 360 * inject_Z k) in *. clearbody u v.
  assert (B : - hsr < u - v /\ u - v < hsr).
  { destruct (abs_case u) as [[? Eu]|[? Eu]]; destruct (abs_case v) as [[? Ev]|[? Ev]]; rewrite Eu in Ht; rewrite Ev in Hs; lra. }
  rewrite E2 in B. destruct (Z_lt_le_dec q 0) as [Q|Q].
  - assert (inject_Z q <= inject_Z (-1)) by (rewrite <- Zle_Qle; lia). change (inject_Z (-1)) with (-1)%Q in *. lra.
  - assert (inject_Z 0 <= inject_Z q) by (rewrite <- Zle_Qle; lia). change (inject_Z 0) with 0 in *. lra.
Qed.

Lemma spread i j : (i < j < nspn)%nat -> hsr <= (qnat j - qnat i) * hsr /\ (qnat j - qnat i) * hsr <= hsr * qnat nspn - hsr.
Proof.
  intros H. assert (A : 1 <= qnat j - qnat i). { assert (qnat (S i) <= qnat j) by (apply qnat_le; lia). rewrite qnat_S in *. lra. }
  assert (B : qnat j - qnat i <= qnat nspn - 1). { assert (qnat (S j) <= qnat nspn) by (apply qnat_le; lia). pose proof (qnat_pos i). rewrite qnat_S in *. lra. }
  split; nra.
Qed.
Lemma FOP_app {A} (R : A -> A -> Prop) l r : ForallOrdPairs R l -> ForallOrdPairs R r -> (forall x y, In x l -> In y r -> R x y) -> ForallOrdPairs R (l ++ r).
Proof.
  intros Hl Hr C. induction Hl as [|a l Ha Hl IH]; cbn; [exact Hr|]. constructor.
  - apply Forall_app. split; [exact Ha|]. apply Forall_forall. intros y Hy. apply C; [now left|exact Hy].
  - apply IH. intros x y Hx. apply C. now right.
Qed.
Lemma FOP_nth {A} (R : A -> A -> Prop) l : (forall i j x y, (i < j)%nat -> nth_error l i = Some x -> nth_error l j = Some y -> R x y) -> ForallOrdPairs R l.
Proof.
  induction l as [|a l IH]; intros H; constructor.
  - apply Forall_forall. intros y Hy. apply In_nth_error in Hy. destruct Hy as (j & Hy). apply (H O (S j)); [lia|reflexivity|exact Hy].
  - apply IH. intros i j x y Hij Hx Hy. apply (H (S i) (S j)); [lia|exact Hx|exact Hy].
Qed.
Lemma fan_sep c l : hsr * qnat nspn <= 360 -> fan c hsr nspn l -> ForallOrdPairs sep l.
Proof.
  intros Hw [L F]. apply FOP_nth. intros i j s t Hij Hs Ht. destruct (F i s Hs) as (_ & z1 & E1). destruct (F j t Ht) as (_ & z2 & E2).
  assert (j < nspn)%nat by (rewrite <- L; apply nth_error_Some; congruence). destruct (spread i j) as [A B]; [lia|].
  exists ((qnat j - qnat i) * hsr), (z2 - z1)%Z. split; [|split; lra]. rewrite E1, E2. unfold Z.sub. rewrite inject_Z_plus, inject_Z_opp. lra.
Qed.
Lemma fans_sep a b la lb : hsr * qnat nspn <= b - a -> b - a <= 360 - hsr * qnat nspn -> fan a hsr nspn la -> fan b hsr nspn lb ->
  forall s t, In s la -> In t lb -> sep s t.
Proof.
  intros H1 H2 [La Fa] [Lb Fb] s t Hs Ht. apply In_nth_error in Hs. destruct Hs as (i & Hs). apply In_nth_error in Ht. destruct Ht as (j & Ht).
  destruct (Fa i s Hs) as (_ & z1 & E1). destruct (Fb j t Ht) as (_ & z2 & E2).
  assert (i < nspn)%nat by (rewrite <- La; apply nth_error_Some; congruence). assert (j < nspn)%nat by (rewrite <- Lb; apply nth_error_Some; congruence).
  exists (b - a + (qnat j - qnat i) * hsr), (z2 - z1)%Z. split; [rewrite E1, E2; unfold Z.sub; rewrite inject_Z_plus, inject_Z_opp; lra|].
  destruct (Nat.lt_trichotomy i j) as [Hij|[->|Hij]].
  - destruct (spread i j) as [A B]; [lia|]. split; lra.
  - assert (hsr <= hsr * qnat nspn). { assert (qnat 1 <= qnat nspn) by (apply qnat_le; lia). change (qnat 1) with 1 in *. nra. } split; lra.
  - destruct (spread j i) as [A B]; [lia|]. split; lra.
Qed.
Lemma apart_cons w a l : 0 <= w -> apart w (a :: l) -> apart w l /\ forall b, In b l -> a + w <= b.
Proof.
  intros Hw. revert a. induction l as [|b l IH]; intros a H; [split; [exact I|intros b []]|]. destruct H as [H1 H2]. split; [exact H2|]. destruct (IH b H2) as [_ IH']. intros c [<-|Hc]; [exact H1|]. specialize (IH' c Hc). lra.
Qed.
Lemma last_max w l d : 0 <= w -> apart w l -> forall b, In b l -> b <= last l d.
Proof.
  intros Hw. induction l as [|a l IH]; intros H b Hb; [destruct Hb|]. destruct (apart_cons w a l Hw H) as [H1 H2]. destruct l as [|a' l]; [destruct Hb as [<-|[]]; cbn; lra|].
  change (last (a :: a' :: l) d) with (last (a' :: l) d). destruct Hb as [<-|Hb]; [|now apply IH]. specialize (H2 a' (or_introl eq_refl)). assert (a' <= last (a' :: l) d) by (apply IH; [exact H1|now left]). lra.
Qed.
Lemma last_default {A} (l : list A) d d' : l <> [] -> last l d = last l d'.
Proof. induction l as [|a l IH]; intros H; [congruence|]. destruct l; [reflexivity|]. cbn [last] in *. apply IH. discriminate. Qed.
Lemma spaced_sep nodes secs : 0 <= hsr * qnat nspn -> hsr * qnat nspn <= 360 -> spaced (hsr * qnat nspn) nodes -> Forall2 (fun a l => fan a hsr nspn l) nodes secs ->
  ForallOrdPairs sep (List.concat secs).
Proof.
  intros W0 W [Ap La] F. set (w := hsr * qnat nspn) in *.
  assert (X : forall hi, (forall b, In b nodes -> b <= hi) -> (forall a, In a nodes -> hi + w <= a + 360) -> ForallOrdPairs sep (List.concat secs)).
  { intros hi. clear La. induction F as [|a l nodes secs Fa F IH]; intros H1 H2; [constructor|]. destruct (apart_cons w a nodes W0 Ap) as [Ap' Gap]. cbn [List.concat]. apply FOP_app.
    - exact (fan_sep a l W Fa).
    - apply IH; [exact Ap'|intros b Hb; apply H1; now right|intros b Hb; apply H2; now right].
    - intros s t Hs Ht. apply in_concat in Ht. destruct Ht as (lt & Hlt & Ht). destruct (Forall2_in_r _ _ _ lt F Hlt) as (b & Hb & Fb).
      apply (fans_sep a b l lt); [| |exact Fa|exact Fb|exact Hs|exact Ht].
      + specialize (Gap b Hb). fold w. lra.
      + fold w. specialize (H1 b (or_intror Hb)). specialize (H2 a (or_introl eq_refl)). lra. }
  destruct nodes as [|a0 nodes]; [inversion F; constructor|]. apply (X (last (a0 :: nodes) a0)).
  - intros b Hb. exact (last_max w _ a0 W0 Ap b Hb).
  - intros a Ha. destruct Ha as [<-|Ha]; [exact La|]. destruct (apart_cons w a0 nodes W0 Ap) as [_ Gap]. specialize (Gap a Ha). lra.
Qed.
Lemma one_sees l x : (forall s, In s l -> direction s) -> direction (nb_angle x) -> ForallOrdPairs sep l ->
  List.length (filter (fun s => sees hsr s x) l) = if existsb (fun s => sees hsr s x) l then 1%nat else 0%nat.
Proof.
  intros D Dx F. induction F as [|a l Ha F IH]; [reflexivity|]. cbn [filter existsb]. destruct (sees hsr a x) eqn:Ea; cbn [orb List.length].
  - f_equal. assert (N : filter (fun s => sees hsr s x) l = []).
    { destruct (filter (fun s => sees hsr s x) l) as [|t r] eqn:E; [reflexivity|]. exfalso. assert (Ht : In t (filter (fun s => sees hsr s x) l)) by (rewrite E; now left). apply filter_In in Ht. destruct Ht as [Ht St].
      rewrite Forall_forall in Ha. eapply (sep_not_both a t x); eauto; [apply D; now left|apply D; now right]. }
    now rewrite N.
  - apply IH. intros s Hs. apply D. now right.
Qed.
End Geometry.
