(** Configuration files: the parameters of the project reach the checks of every device. *)
From Coq Require Import ZArith QArith Lqa Ascii Lia.
From Verif Require Import Base Dict QLib TopologyModel SetupModel LosRangeModel MonadLib ConfModel ConfSpec ConfProofs ConfLosProofs ConfOptProofs.
Local Open Scope string_scope.
Local Open Scope list_scope.

(** ** names *)
Lemma blank_lower c : blank (lower_char c) = blank c.
Proof. destruct c as [[] [] [] [] [] [] [] []]; reflexivity. Qed.
Lemma lstrip_fold s : lstrip (casefold s) = casefold (lstrip s).
Proof. induction s as [|c s IH]; [reflexivity|]. cbn. rewrite blank_lower. destruct (blank c); [exact IH|reflexivity]. Qed.
Lemma rstrip_fold s : rstrip (casefold s) = casefold (rstrip s).
Proof.
  induction s as [|c s IH]; [reflexivity|]. cbn [casefold smap rstrip]. unfold casefold in IH. cbn [rstrip smap]. fold (smap lower_char s). change (casefold s) with (smap lower_char s). rewrite IH.
  destruct (rstrip s); cbn; [|reflexivity]. rewrite blank_lower. now destruct (blank c).
Qed.
Lemma strip_fold s : strip (casefold s) = casefold (strip s).
Proof. unfold strip. now rewrite lstrip_fold, rstrip_fold. Qed.
Lemma fold_strip k name : casefold k = name -> strip name = name -> casefold (strip k) = name.
Proof. intros E S. rewrite <- strip_fold. now rewrite E. Qed.

(** ** dictionaries: what a merged dictionary says about a lower-case name *)
Definition named (k : string) (q : string * val) : bool := beq (casefold (fst q)) k.
Lemma filter_dset (P : string -> bool) d key v : filter (fun q : string * val => P (fst q)) (dset d key v) = if P key then dset (filter (fun q => P (fst q)) d) key v else filter (fun q => P (fst q)) d.
Proof.
  induction d as [|[k1 v1] d IH]; cbn [dset filter fst].
  - destruct (P key); reflexivity.
  - destruct (beq_spec key k1) as [->|Hk]; cbn [filter fst].
    + destruct (P k1); cbn [dset]; [now rewrite beq_refl|reflexivity].
    + rewrite IH. destruct (P k1), (P key); cbn [dset]; try reflexivity. now rewrite (proj2 (beq_neq _ _) Hk).
Qed.
Lemma filter_merge_gen (P : string -> bool) b : forall a, filter (fun q : string * val => P (fst q)) (merge a b) = merge (filter (fun q => P (fst q)) a) (filter (fun q => P (fst q)) b).
Proof.
  unfold merge. induction b as [|[k1 v1] b IH]; intros a; [reflexivity|]. cbn [fold_left fst snd filter]. rewrite IH, filter_dset.
  destruct (P k1); reflexivity.
Qed.
Lemma filter_merge k b a : filter (named k) (merge a b) = merge (filter (named k) a) (filter (named k) b).
Proof. apply (filter_merge_gen (fun x => beq (casefold x) k)). Qed.
Lemma dset_end (d : dict string val) k v : ~ In k (map fst d) -> dset d k v = d ++ [(k, v)].
Proof.
  induction d as [|[k1 v1] d IH]; cbn; [reflexivity|]. intros Hn. destruct (beq_spec k k1) as [->|?]; [tauto|]. rewrite IH by tauto. reflexivity.
Qed.
Lemma merge_nil b : forall a : dict string val, NoDup (map fst (a ++ b)) -> merge a b = a ++ b.
Proof.
  unfold merge. induction b as [|[k v] b IH]; intros a Hn; cbn [fold_left fst snd]; [now rewrite app_nil_r|].
  rewrite map_app in Hn. cbn in Hn. rewrite dset_end.
  - rewrite IH; [now rewrite <- app_assoc|]. rewrite !map_app. cbn. rewrite <- app_assoc. exact Hn.
  - apply NoDup_remove_2 in Hn. intros Hin. apply Hn. apply in_app_iff. now left.
Qed.
Lemma merge_nodup b : forall a : dict string val, NoDup (map fst a) -> NoDup (map fst (merge a b)).
Proof. unfold merge. induction b as [|[k v] b IH]; intros a Ha; cbn [fold_left fst snd]; [exact Ha|]. apply IH. now apply (dwf_set a k v). Qed.
Lemma merge_In b : forall (a : dict string val) q, In q (merge a b) -> In q a \/ In q b.
Proof.
  unfold merge. induction b as [|[k v] b IH]; intros a q; cbn [fold_left fst snd]; [auto|]. intros H. destruct (IH _ _ H) as [H1|H1]; [|right; now right].
  assert (G : forall d : dict string val, In q (dset d k v) -> In q d \/ q = (k, v)).
  { induction d as [|[k1 v1] d IHd]; cbn; [intros [->|[]]; auto|]. destruct (beq_spec k k1) as [->|?]; cbn; [intros [->|?]; auto|]. intros [->|H2]; [auto|]. destruct (IHd H2); auto. }
  destruct (G a H1) as [?| ->]; [auto|]. right. now left.
Qed.
Definition low (q : string * val) : string * val := (casefold (fst q), snd q).
Lemma lower_merge d : lower_keys d = merge [] (map low d).
Proof.
  unfold lower_keys, merge. generalize (@nil (string * val)). induction d as [|[k v] d IH]; intros r; [reflexivity|]. cbn [fold_left map low fst snd]. apply IH.
Qed.
Lemma lower_In d q : In q (lower_keys d) -> exists key, casefold key = fst q /\ In (key, snd q) d.
Proof.
  rewrite lower_merge. intros H. apply merge_In in H. destruct H as [[]|H]. apply in_map_iff in H. destruct H as ([key v] & <- & H). exists key. auto.
Qed.
Lemma lower_nodup d : NoDup (map fst (lower_keys d)).
Proof. rewrite lower_merge. apply merge_nodup. constructor. Qed.
Lemma named_low k d : filter (fun q => beq (fst q) k) (map low d) = map low (filter (named k) d).
Proof. induction d as [|[k1 v1] d IH]; [reflexivity|]. cbn [map filter]. unfold named at 1. cbn [low fst]. destruct (beq (casefold k1) k); cbn [map]; now rewrite IH. Qed.
Lemma dget_filter k (d : dict string val) : dget d k = dget (filter (fun q => beq (fst q) k) d) k.
Proof.
  induction d as [|[k1 v1] d IH]; [reflexivity|]. cbn [filter fst dget]. rewrite (beq_sym k1 k). destruct (beq k k1) eqn:E; cbn [dget]; rewrite ?E; auto.
Qed.
Lemma filter_merge' k b a : filter (fun q : string * val => beq (fst q) k) (merge a b) = merge (filter (fun q => beq (fst q) k) a) (filter (fun q => beq (fst q) k) b).
Proof. apply (filter_merge_gen (fun x => beq x k)). Qed.
Lemma lower_get d k : dget (lower_keys d) k = dget (lower_keys (filter (named k) d)) k.
Proof.
  rewrite !lower_merge. rewrite dget_filter, filter_merge'. symmetry. rewrite dget_filter, filter_merge'. f_equal. f_equal. rewrite <- !named_low.
  induction (map low d) as [|q l IH]; [reflexivity|]. cbn [filter]. destruct (beq (fst q) k) eqn:E; cbn [filter]; rewrite ?E; now rewrite ?IH.
Qed.
(** no key of the dictionary is [k], whatever its case *)
Definition free (k : string) (d : dict string val) : Prop := forall key v, In (key, v) d -> casefold key <> k.
Lemma free_filter k d : free k d -> filter (named k) d = [].
Proof.
  intros H. induction d as [|[key v] d IH]; [reflexivity|]. cbn [filter]. unfold named at 1. cbn [fst]. rewrite (proj2 (beq_neq _ _)) by (apply (H key v); now left).
  apply IH. intros k' v' Hin. apply (H k' v'). now right.
Qed.
Lemma lower_merge_free k a b : free k a -> NoDup (map fst b) -> dget (lower_keys (merge a b)) k = dget (lower_keys b) k.
Proof.
  intros Ha Hb. rewrite lower_get, filter_merge, (free_filter _ _ Ha), merge_nil; [symmetry; apply lower_get|]. cbn [app].
  clear - Hb. induction b as [|[k1 v1] b IH]; [constructor|]. cbn in Hb. inversion_clear Hb as [|? ? H1 H2]. cbn [filter]. destruct (named k (k1, v1)); [|auto]. cbn. constructor; [|auto].
  intros Hin. apply H1. apply in_map_iff in Hin. destruct Hin as (q & <- & Hq). apply filter_In in Hq. apply in_map. tauto.
Qed.
Lemma lower_free k d : free k d -> dget (lower_keys d) k = None.
Proof. intros H. rewrite lower_get, (free_filter _ _ H). reflexivity. Qed.

(** ** [from_dict]: the argument for a key that no nested dictionary mentions *)
Section Take.
Variable sub : string -> dict string val -> result val.
Variable args : list string.
Variable prop : dict string val.
Definition inner_free (k : string) (d : dict string val) : Prop := forall key d', In (key, VDict d') d -> free k d'.
Definition plain_value (v : val) : Prop := match v with VDict _ | VList _ => False | _ => True end.
Lemma flat_get k d : free k d -> forall kw, dget (fold_left (fun kw q => if mem (casefold (fst q)) args then dset kw (casefold (fst q)) (snd q) else kw) d kw) k = dget kw k.
Proof.
  intros H. induction d as [|[key v] d IH]; intros kw; [reflexivity|]. cbn [fold_left fst snd]. rewrite IH by (intros k' v' Hin; apply (H k' v'); now right).
  destruct (mem (casefold key) args); [|reflexivity]. apply dget_set_neq. intros E. apply (H key v); [now left|auto].
Qed.
Lemma take_other k kw q kw' : fst q <> k -> (forall d, snd q = VDict d -> free k d) -> take sub args prop kw q = Ok kw' -> dget kw' k = dget kw k.
Proof.
  destruct q as [key v]. cbn [fst snd]. intros Hk Hf. unfold take. destruct (mem key args).
  - destruct (enum_of key).
    + destruct (is_none v); [intros [= <-]; reflexivity|]. intros E. inv_do. subst. apply dget_set_neq. auto.
    + destruct v; try (intros [= <-]; try reflexivity; apply dget_set_neq; auto); [intros E; inv_do; subst; apply dget_set_neq; auto|].
      destruct (class_key key); intros E; inv_do; subst; [apply dget_set_neq; auto|reflexivity].
  - destruct v; intros [= <-]; try reflexivity. apply flat_get. auto.
Qed.
Lemma take_same k kw v kw' : In k args -> enum_of k = None -> plain_value v -> take sub args prop kw (k, v) = Ok kw' -> dget kw' k = if is_none v then dget kw k else Some v.
Proof.
  intros Ha He Hp. unfold take. rewrite (proj2 (mem_In k args) Ha), He. destruct v; try contradiction; intros [= <-]; cbn; try reflexivity; apply dget_set_eq.
Qed.
Lemma fold_take_get k : In k args -> enum_of k = None -> forall l, NoDup (map fst l) -> inner_free k l -> (forall v, In (k, v) l -> plain_value v) ->
  forall kw kw', foldM (take sub args prop) kw l = Ok kw' -> dget kw' k = match dget l k with Some v => if is_none v then dget kw k else Some v | None => dget kw k end.
Proof.
  intros Ha He l. induction l as [|[key v] l IH]; intros Hn Hf Hp kw kw' E; [cbn in E; now injection E as <-|].
  cbn in Hn. inversion_clear Hn as [|? ? Hx Hn']. cbn [foldM] in E. apply rbind_ok in E. destruct E as (kw1 & E1 & E2).
  assert (IHl := IH Hn' (fun key d' Hin => Hf key d' (or_intror Hin)) (fun v Hin => Hp v (or_intror Hin)) _ _ E2). rewrite IHl. cbn [dget]. destruct (beq_spec k key) as [Ek|Hk].
  - subst key. rewrite (take_same k kw v kw1 Ha He (Hp v (or_introl eq_refl)) E1).
    assert (Hg : dget l k = None) by now apply dget_None_keys. rewrite Hg. reflexivity.
  - rewrite (take_other k kw (key, v) kw1) with (3 := E1); [reflexivity|cbn; congruence|]. cbn. intros d ->. apply (Hf key d). now left.
Qed.
End Take.
Definition given (kw : dict string val) : dict string val := filter (fun q => negb (is_none (snd q))) kw.
Lemma given_get kw k : (forall v, dget kw k = Some v -> v <> VNone) -> NoDup (map fst kw) -> dget (given kw) k = dget kw k.
Proof.
  intros H. unfold given. induction kw as [|[k1 v1] kw IH]; intros Hn; [reflexivity|]. cbn in Hn. inversion_clear Hn as [|? ? Hx Hn']. cbn [filter snd dget] in *.
  revert H. destruct (beq_spec k k1) as [Ek|Hk]; intros H.
  - subst k1. specialize (H v1 eq_refl). rewrite (proj2 (is_none_false v1) H). cbn [negb dget]. now rewrite beq_refl.
  - destruct (is_none v1); cbn [negb]; [now apply IH|]. cbn [dget]. rewrite (proj2 (beq_neq k k1) Hk). now apply IH.
Qed.
Lemma take_nodup sub args prop kw q kw' : NoDup (map fst kw) -> take sub args prop kw q = Ok kw' -> NoDup (map fst kw').
Proof.
  intros Hn. assert (S : forall k v, NoDup (map fst (dset kw k v))) by (intros; now apply (dwf_set kw)).
  destruct q as [key v]. unfold take. destruct (mem key args).
  - destruct (enum_of key); [destruct (is_none v); [intros [= <-]; auto|intros E; inv_do; subst; auto]|].
    destruct v; try (intros [= <-]; auto); [intros E; inv_do; subst; auto|]. destruct (class_key key); intros E; inv_do; subst; auto.
  - destruct v; intros [= <-]; auto. clear S. revert kw Hn. induction d as [|[k1 v1] d IH]; intros kw Hn; [exact Hn|]. cbn [fold_left fst snd]. apply IH.
    destruct (mem (casefold k1) args); [now apply (dwf_set kw)|exact Hn].
Qed.
Lemma fold_take_nodup sub args prop l : forall kw kw', NoDup (map fst kw) -> foldM (take sub args prop) kw l = Ok kw' -> NoDup (map fst kw').
Proof.
  induction l as [|q l IH]; intros kw kw' Hn E; [cbn in E; now injection E as <-|]. cbn [foldM] in E. apply rbind_ok in E. destruct E as (kw1 & E1 & E2). eapply IH; [|exact E2]. eapply take_nodup; eauto.
Qed.
(** what reaches the constructor *)
Lemma from_dict_ok sub (args : params) build prop o : from_dict sub args build prop = Ok o -> exists kw, foldM (take sub (map fst args) prop) [] (lower_keys prop) = Ok kw /\ NoDup (map fst kw) /\ build (given kw) = Ok o.
Proof.
  unfold from_dict. intros E. apply rbind_ok in E. destruct E as (kw & E1 & E2). exists kw. split; [exact E1|]. split; [|exact E2]. eapply fold_take_nodup; [|exact E1]. constructor.
Qed.
Definition lookup (prop : dict string val) (k : string) : option val := match dget (lower_keys prop) k with Some VNone => None | r => r end.
Lemma given_lookup sub (args : params) prop kw k : In k (map fst args) -> enum_of k = None -> inner_free k (lower_keys prop) -> (forall v, dget (lower_keys prop) k = Some v -> plain_value v) ->
  foldM (take sub (map fst args) prop) [] (lower_keys prop) = Ok kw -> NoDup (map fst kw) -> dget (given kw) k = lookup prop k.
Proof.
  intros Ha He Hf Hp E Hn. assert (G : dget kw k = lookup prop k).
  { unfold lookup. rewrite (fold_take_get sub (map fst args) prop k Ha He _ (lower_nodup prop) Hf (fun v Hin => Hp v (In_dget _ _ _ (lower_nodup prop) Hin)) [] kw E).
    destruct (dget (lower_keys prop) k) as [v|]; [|reflexivity]. destruct v; reflexivity. }
  rewrite <- G. apply given_get; [|exact Hn]. rewrite G. unfold lookup. intros v. destruct (dget (lower_keys prop) k) as [w|]; [|discriminate]. destruct w; intros [= <-]; discriminate.
Qed.

(** ** [_detect_typo] *)
Definition lowmap (o : dict string val) : dict string string := fold_left (fun r q => dset r (casefold (fst q)) (fst q)) o [].
Definition nested (v ov : val) : result unit :=
  match v with
  | VDict _ => detect_typo v ov
  | VList l =>
    match ov with
    | VList (VDict o0 :: _) => (fix each (l : list val) : result unit := match l with [] => Ok tt | x :: l => do _ <- detect_typo x (VDict o0) ; each l end) l
    | VList (_ :: _) | VStr (String _ _) => Ok tt
    | VList [] => Err PyIndexError
    | VStr "" => Err PyIndexError
    | VDict _ => Err PyKeyError
    | _ => Err PyTypeError
    end
  | _ => Ok tt
  end.
Lemma typo_cons k v d o : detect_typo (VDict ((k, v) :: d)) (VDict o) =
  match dget (lowmap o) (casefold (strip k)) with
  | None => Err ConfigExn
  | Some key => match dget o key with None => Err PyKeyError | Some ov => do _ <- nested v ov ; detect_typo (VDict d) (VDict o) end
  end.
Proof. reflexivity. Qed.
Lemma typo_In d o : detect_typo (VDict d) (VDict o) = Ok tt -> forall k v, In (k, v) d -> exists key ov, dget (lowmap o) (casefold (strip k)) = Some key /\ dget o key = Some ov /\ nested v ov = Ok tt.
Proof.
  induction d as [|[k1 v1] d IH]; intros E k v; [contradiction|]. rewrite typo_cons in E. destruct (dget (lowmap o) (casefold (strip k1))) as [key|] eqn:E1; [|discriminate].
  destruct (dget o key) as [ov|] eqn:E2; [|discriminate]. apply rbind_ok in E. destruct E as ([] & E3 & E4). intros [[= -> ->]|Hin]; [eauto 6|auto].
Qed.
Lemma lowmap_some o k key : dget (lowmap o) k = Some key -> casefold key = k /\ In key (map fst o).
Proof.
  unfold lowmap. assert (G : forall r, dget (fold_left (fun r q => dset r (casefold (fst q)) (fst q)) o r) k = Some key -> dget r k = Some key \/ (casefold key = k /\ In key (map fst o))).
  { induction o as [|[k1 v1] o IH]; intros r; cbn [fold_left fst snd map]; [auto|]. intros E. destruct (IH _ E) as [E1|[E1 E2]]; [|right; split; [auto|now right]].
    rewrite dget_set in E1. destruct (beq_spec k (casefold k1)) as [Ek|Hk]; [|auto]. injection E1 as <-. right. split; [auto|now left]. }
  intros E. destruct (G _ E) as [E1|E1]; [discriminate|exact E1].
Qed.
(** no field of the template, at this level, is called [k]; no field of a nested section is *)
Definition outer (k : string) (o : dict string val) : bool := forallb (fun q => negb (beq (casefold (fst q)) k)) o.
Definition inner (k : string) (o : dict string val) : bool := forallb (fun q => match snd q with VDict o' => outer k o' | _ => true end) o.
Lemma typo_free k d o : detect_typo (VDict d) (VDict o) = Ok tt -> strip k = k -> outer k o = true -> free k d.
Proof.
  intros E Hs Ho key v Hin Hk. destruct (typo_In _ _ E _ _ Hin) as (key' & ov & E1 & E2 & _). rewrite (fold_strip _ _ Hk Hs) in E1. apply lowmap_some in E1. destruct E1 as [E1 E3].
  unfold outer in Ho. rewrite forallb_forall in Ho. apply in_map_iff in E3. destruct E3 as (q & <- & Hq). specialize (Ho q Hq). rewrite E1, beq_refl in Ho. discriminate.
Qed.
Lemma typo_inner k d o : detect_typo (VDict d) (VDict o) = Ok tt -> strip k = k -> inner k o = true -> inner_free k d.
Proof.
  intros E Hs Ho key d' Hin. destruct (typo_In _ _ E _ _ Hin) as (key' & ov & E1 & E2 & E3). cbn [nested] in E3. destruct ov; try discriminate.
  unfold inner in Ho. rewrite forallb_forall in Ho. specialize (Ho (key', VDict d0) (dget_In _ _ _ E2)). cbn in Ho. eapply typo_free; eauto.
Qed.
(** a field with a number in the template is given no dictionary and no list *)
Lemma typo_plain k d o : detect_typo (VDict d) (VDict o) = Ok tt -> strip k = k -> (forall key, dget (lowmap o) k = Some key -> exists q, dget o key = Some (VNum q)) ->
  forall key v, In (key, v) d -> casefold key = k -> plain_value v.
Proof.
  intros E Hs Ho key v Hin Hk. destruct (typo_In _ _ E _ _ Hin) as (key' & ov & E1 & E2 & E3). rewrite (fold_strip _ _ Hk Hs) in E1. destruct (Ho _ E1) as [q Eq]. rewrite Eq in E2. injection E2 as <-.
  destruct v; cbn in *; try exact I; discriminate.
Qed.
Lemma nested_list l o0 r : nested (VList l) (VList (VDict o0 :: r)) = Ok tt -> forall x, In x l -> detect_typo x (VDict o0) = Ok tt.
Proof.
  cbn [nested]. induction l as [|y l IH]; intros E x; [contradiction|]. apply rbind_ok in E. destruct E as ([] & E1 & E2). intros [<-|Hin]; auto.
Qed.
