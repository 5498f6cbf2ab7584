(** The detection of misspelt fields in configuration files. *)
From Coq Require Import ZArith QArith Lqa Ascii Lia.
From Verif Require Import Base Dict QLib TopologyModel SetupModel LosRangeModel MonadLib ConfModel ConfSpec ConfProofs ConfLosProofs ConfOptProofs ConfFileProofs ConfRadioProofs ConfTripProofs.
Local Open Scope string_scope.
Local Open Scope list_scope.

(** ** white space *)
Lemma blank_iff c : blank c = true <-> nat_of_ascii c = 32%nat \/ (9 <= nat_of_ascii c <= 13)%nat.
Proof. unfold blank. rewrite orb_true_iff, andb_true_iff, Nat.eqb_eq, !Nat.leb_le. tauto. Qed.
Lemma lstrip_split s : exists a, blanks a /\ s = (a ++ lstrip s)%string.
Proof.
  induction s as [|c s IH]; [exists ""; split; [exact I|reflexivity]|]. cbn. destruct (blank c) eqn:Eb; [|exists ""; split; [exact I|reflexivity]].
  destruct IH as (a & Ha & E). exists (String c a). split; [split; [now apply blank_iff|exact Ha]|]. cbn. now rewrite <- E.
Qed.
Lemma rstrip_split s : exists b, blanks b /\ s = (rstrip s ++ b)%string.
Proof.
  induction s as [|c s IH]; [exists ""; split; [exact I|reflexivity]|]. destruct IH as (b & Hb & E). cbn. destruct (rstrip s) as [|c' r] eqn:Er.
  - destruct (blank c) eqn:Ec; [exists (String c b); split; [split; [now apply blank_iff|exact Hb]|cbn; now rewrite E at 1]|]. exists b. split; [exact Hb|]. cbn. now rewrite E at 1.
  - exists b. split; [exact Hb|]. cbn. now rewrite E at 1.
Qed.
Lemma lstrip_pad a s : blanks a -> lstrip (a ++ s) = lstrip s.
Proof. induction a as [|c a IH]; [reflexivity|]. intros [Hc Ha]. cbn. apply blank_iff in Hc. rewrite Hc. auto. Qed.
Lemma rstrip_blanks b : blanks b -> rstrip b = "".
Proof. induction b as [|c b IH]; [reflexivity|]. intros [Hc Hb]. cbn. rewrite (IH Hb). apply blank_iff in Hc. now rewrite Hc. Qed.
Lemma rstrip_pad s b : blanks b -> rstrip (s ++ b) = rstrip s.
Proof. intros Hb. induction s as [|c s IH]; [now apply rstrip_blanks|]. cbn. now rewrite IH. Qed.
Lemma strip_pad a s b : blanks a -> blanks b -> strip (a ++ s ++ b) = strip s.
Proof.
  intros Ha Hb. unfold strip. rewrite (lstrip_pad a _ Ha). induction s as [|c s IH].
  - cbn. clear Ha. induction b as [|c b IHb]; [reflexivity|]. destruct Hb as [Hc Hb]. cbn. apply blank_iff in Hc. rewrite Hc. exact (IHb Hb).
  - cbn. destruct (blank c); [exact IH|]. change (String c (s ++ b)) with (String c s ++ b)%string. now apply rstrip_pad.
Qed.
Lemma spelled_iff k key : strip key = key -> spelled k key <-> casefold (strip k) = casefold key.
Proof.
  intros Hs. split.
  - intros (a & k' & b & Ha & Hb & -> & Hk). rewrite (strip_pad a k' b Ha Hb). apply casefold_iff in Hk. rewrite <- strip_fold, Hk, strip_fold. now rewrite Hs.
  - intros E. destruct (lstrip_split k) as (a & Ha & Ea). destruct (rstrip_split (lstrip k)) as (b & Hb & Eb). exists a, (strip k), b. split; [exact Ha|]. split; [exact Hb|]. split; [unfold strip; now rewrite <- Eb|]. now apply casefold_iff.
Qed.

(** ** templates whose fields are different *)
Fixpoint tidy (v : val) : bool :=
  match v with
  | VDict d => distinct (map (fun q => casefold (fst q)) d) && ((fix all (d : list (string * val)) : bool := match d with [] => true | (k, x) :: d => beq (strip k) k && (tidy x && all d) end) d)
  | VList l => (fix all (l : list val) : bool := match l with [] => true | x :: l => tidy x && all l end) l
  | _ => true
  end.
Lemma tidy_dict d : tidy (VDict d) = true -> NoDup (map (fun q => casefold (fst q)) d) /\ forall k x, In (k, x) d -> strip k = k /\ tidy x = true.
Proof.
  cbn. intros H. apply andb_true_iff in H. destruct H as [H1 H2]. split; [now apply distinct_nodup|]. clear H1. induction d as [|[k x] d IH]; [contradiction|].
  apply andb_true_iff in H2. destruct H2 as [H2 H3]. apply andb_true_iff in H3. destruct H3 as [H3 H4]. intros k' x' [[= <- <-]|Hin]; [split; [now apply beq_eq|exact H3]|now apply IH].
Qed.
Lemma lowmap_get o k key : NoDup (map (fun q : string * val => casefold (fst q)) o) -> dget (lowmap o) k = Some key <-> casefold key = k /\ In key (map fst o).
Proof.
  intros Hn. split; [apply lowmap_some|]. intros [<- Hin]. unfold lowmap.
  assert (G : forall r, (forall k1, dget r k1 <> None -> True) -> dget (fold_left (fun r q => dset r (casefold (fst q)) (fst q)) o r) (casefold key) = Some key); [|apply (G []); auto].
  induction o as [|[k1 v1] o IH]; intros r _; [contradiction|]. inversion Hn as [|? ? H1 H2]; subst. cbn [fold_left fst snd]. destruct Hin as [Hk|Hin]; [|now apply IH]. cbn in Hk. subst k1.
  cbn in H1. clear - H1. assert (G : forall r, dget r (casefold key) = Some key -> dget (fold_left (fun r (q : string * val) => dset r (casefold (fst q)) (fst q)) o r) (casefold key) = Some key).
  { induction o as [|[k2 v2] o IH]; intros r' Hr; [exact Hr|]. cbn [fold_left fst snd]. apply IH; [intros Hin; apply H1; now right|]. rewrite dget_set_neq; [exact Hr|]. intros E. apply H1. left. cbn. now symmetry. }
  apply G. apply dget_set_eq.
Qed.
Lemma nodup_fold (o : dict string val) : NoDup (map (fun q => casefold (fst q)) o) -> NoDup (map fst o).
Proof. intros H. rewrite <- (map_map fst casefold) in H. eapply NoDup_map_inv; exact H. Qed.
(** ** induction on values *)
Lemma val_rect' (Q : val -> Prop) : (forall v, (forall l, v <> VList l) -> (forall d, v <> VDict d) -> Q v) -> (forall l, (forall x, In x l -> Q x) -> Q (VList l)) -> (forall d, (forall k x, In (k, x) d -> Q x) -> Q (VDict d)) -> forall v, Q v.
Proof.
  intros H1 H2 H3. fix F 1. intros v. destruct v as [| | | |l|d| | |]; try (apply H1; intros ? ?; discriminate).
  - apply H2. induction l as [|y l IH]; intros x Hin; [contradiction|]. destruct Hin as [<-|Hin]; [apply F|exact (IH x Hin)].
  - apply H3. induction d as [|[k0 y] d IH]; intros k x Hin; [contradiction|]. destruct Hin as [E|Hin]; [injection E as _ <-; apply F|exact (IH k x Hin)].
Qed.
Lemma typo_all d o : (forall k v, In (k, v) d -> exists key ov, dget (lowmap o) (casefold (strip k)) = Some key /\ dget o key = Some ov /\ nested v ov = Ok tt) -> detect_typo (VDict d) (VDict o) = Ok tt.
Proof.
  induction d as [|[k v] d IH]; intros H; [reflexivity|]. rewrite typo_cons. destruct (H k v (or_introl eq_refl)) as (key & ov & E1 & E2 & E3). rewrite E1, E2, E3. cbn [rbind]. apply IH. intros k' v' Hin. apply (H k' v'). now right.
Qed.
Lemma nested_all l o r : (forall x, In x l -> detect_typo x (VDict o) = Ok tt) -> nested (VList l) (VList (VDict o :: r)) = Ok tt.
Proof. cbn [nested]. induction l as [|x l IH]; intros H; [reflexivity|]. rewrite (H x (or_introl eq_refl)). cbn [rbind]. apply IH. intros y Hy. apply H. now right. Qed.
Theorem typo_iff data : forall origin, tidy origin = true -> detect_typo data origin = Ok tt <-> legal data origin.
Proof.
  revert data. assert (G : forall v, (forall o, tidy o = true -> detect_typo v o = Ok tt <-> legal v o) /\ (forall ov, tidy ov = true -> nested v ov = Ok tt <-> legal_value v ov)); [|intros v; apply G].
  apply val_rect'.
  - intros v Hl Hd. split; intros o Ho; split.
    + destruct v; try discriminate. now destruct (Hd d).
    + intros H. inversion H; subst. now destruct (Hd d).
    + intros _. now apply legal_scalar.
    + intros _. destruct v; try reflexivity; [now destruct (Hl l)|now destruct (Hd d)].
  - intros l IH. split; intros o Ho; split.
    + discriminate.
    + intros H. inversion H.
    + intros H. destruct o as [| | |s|[|x r]| | | |]; try discriminate.
      * destruct s; [discriminate|]. apply legal_text.
      * destruct x as [| | | | |o0| | |]; try (apply legal_list; intros ? ?; discriminate). apply legal_objects. intros y Hy. apply (IH y Hy); [|eapply nested_list; eauto].
        cbn in Ho. apply andb_true_iff in Ho. apply Ho.
    + intros H. inversion H as [v ov H1 H2|v ov H1|l0 o0 r H1|l0 x r H1|l0 c s]; subst.
      * now destruct (H2 l).
      * inversion H1.
      * apply nested_all. intros y Hy. apply (IH y Hy); [|now apply H1]. cbn in Ho. apply andb_true_iff in Ho. apply Ho.
      * destruct x; try reflexivity. now destruct (H1 d).
      * reflexivity.
  - intros d IH. assert (Hd : forall o, tidy o = true -> detect_typo (VDict d) o = Ok tt <-> legal (VDict d) o).
    { intros o Ho. split.
      - intros H. destruct o as [| | | | |o| | |]; try discriminate. constructor. destruct (tidy_dict o Ho) as [Hn Hv]. intros k v Hin. destruct (typo_In _ _ H _ _ Hin) as (key & ov & E1 & E2 & E3).
        apply lowmap_get in E1; [|exact Hn]. destruct E1 as [E1 E4]. apply dget_In in E2. destruct (Hv _ _ E2) as [Hs Ht]. exists key, ov. split; [exact E2|]. split; [apply spelled_iff; [exact Hs|now symmetry]|]. apply (IH k v Hin); [exact Ht|exact E3].
      - intros H. inversion H as [d' o' H1]; subst. destruct (tidy_dict o' Ho) as [Hn Hv]. apply typo_all. intros k v Hin. destruct (H1 k v Hin) as (key & ov & E1 & E2 & E3). destruct (Hv _ _ E1) as [Hs Ht]. exists key, ov.
        split; [apply lowmap_get; [exact Hn|]; apply spelled_iff in E2; [|exact Hs]; split; [now symmetry|apply in_map_iff; exists (key, ov); auto]|]. split; [apply In_dget; [now apply nodup_fold|exact E1]|]. apply (IH k v Hin); [exact Ht|exact E3]. }
    split; [exact Hd|]. intros ov Ho. cbn [nested]. rewrite (Hd ov Ho). split; [apply legal_section|]. intros H. inversion H as [v ov' H1 H2|v ov' H1| | |]; subst; [now destruct (H1 d)|exact H1].
Qed.
Lemma template_tidy : tidy template = true. Proof. vm_compute. reflexivity. Qed.
Theorem accepted_legal rf name data o : struct_objects rf name data = Ok o -> legal data template.
Proof. unfold struct_objects. intros E. apply rbind_ok in E. destruct E as ([] & E & _). apply typo_iff; [exact template_tidy|exact E]. Qed.
