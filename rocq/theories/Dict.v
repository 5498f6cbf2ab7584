(** Python dictionaries as association lists in insertion order. *)
From Verif Require Import Base.

(** the type of dictionaries from K to V *)
Notation dict K V := (list (K * V)).

Section Dict.
Context {K V : Type} `{EqB K}.

(** d.get(k) *)
Fixpoint dget (d : dict K V) (k : K) : option V :=
  match d with [] => None | (k', v) :: t => if beq k k' then Some v else dget t k end.
(** k in d *)
Definition dmem (d : dict K V) (k : K) : bool := match dget d k with Some _ => true | None => false end.
(** d[k] = v : in place for an existing key, at the end for a new one *)
Fixpoint dset (d : dict K V) (k : K) (v : V) : dict K V :=
  match d with
  | [] => [(k, v)]
  | (k', v') :: t => if beq k k' then (k', v) :: t else (k', v') :: dset t k v
  end.
(** d with key k removed ([del d[k]] when present) *)
Definition ddel (d : dict K V) (k : K) : dict K V := filter (fun p => negb (beq k (fst p))) d.
Definition dkeys (d : dict K V) : list K := map fst d.
Definition dvals (d : dict K V) : list V := map snd d.
(** keys are unique: holds of every Python dict *)
Definition dwf (d : dict K V) : Prop := NoDup (dkeys d).

Lemma dget_set_eq d k v : dget (dset d k v) k = Some v.
Proof.
  induction d as [|[k' v'] t IH]; simpl; [now rewrite beq_refl|].
  destruct (beq k k') eqn:E; simpl; rewrite E; auto.
Qed.
Lemma dget_set_neq d k k' v : k' <> k -> dget (dset d k v) k' = dget d k'.
Proof.
  intros Hn. induction d as [|[k1 v1] t IH]; simpl.
  - destruct (beq_spec k' k); congruence.
  - destruct (beq_spec k k1) as [->|Hk]; simpl.
    + destruct (beq_spec k' k1); congruence.
    + destruct (beq k' k1); auto.
Qed.
Lemma dget_set d k k' v : dget (dset d k v) k' = if beq k' k then Some v else dget d k'.
Proof. destruct (beq_spec k' k) as [->|Hn]; [apply dget_set_eq|now apply dget_set_neq]. Qed.
Lemma dget_del_eq d k : dget (ddel d k) k = None.
Proof.
  induction d as [|[k1 v1] t IH]; simpl; [reflexivity|].
  destruct (beq_spec k k1) as [->|Hk]; simpl; [exact IH|].
  destruct (beq_spec k k1); congruence.
Qed.
Lemma dget_del_neq d k k' : k' <> k -> dget (ddel d k) k' = dget d k'.
Proof.
  intros Hn. induction d as [|[k1 v1] t IH]; simpl; [reflexivity|].
  destruct (beq_spec k k1) as [->|Hk]; simpl.
  - destruct (beq_spec k' k1); congruence.
  - destruct (beq k' k1); auto.
Qed.
Lemma dget_del d k k' : dget (ddel d k) k' = if beq k' k then None else dget d k'.
Proof. destruct (beq_spec k' k) as [->|Hn]; [apply dget_del_eq|now apply dget_del_neq]. Qed.
Lemma dget_In d k v : dget d k = Some v -> In (k, v) d.
Proof.
  induction d as [|[k1 v1] t IH]; simpl; [discriminate|].
  destruct (beq_spec k k1) as [->|Hk]; intros E; [left; congruence|right; auto].
Qed.
Lemma dget_None_keys d k : dget d k = None <-> ~ In k (dkeys d).
Proof.
  induction d as [|[k1 v1] t IH]; simpl; [tauto|].
  destruct (beq_spec k k1) as [->|Hk].
  - split; [discriminate|intros Hn; exfalso; auto].
  - rewrite IH. split; [intros Hn [E|E]; auto; congruence|tauto].
Qed.
Lemma In_dget d k v : dwf d -> In (k, v) d -> dget d k = Some v.
Proof.
  unfold dwf. induction d as [|[k1 v1] t IH]; simpl; [tauto|]. intros Hnd [E|E].
  - inversion E; subst. now rewrite beq_refl.
  - inversion Hnd as [|? ? Hn Hnd']; subst.
    destruct (beq_spec k k1) as [->|Hk]; [|auto].
    exfalso. apply Hn. change k1 with (fst (k1, v)). now apply in_map.
Qed.
Lemma dget_In_iff d k v : dwf d -> (dget d k = Some v <-> In (k, v) d).
Proof. intros Hw. split; [apply dget_In|now apply In_dget]. Qed.
Lemma dmem_keys d k : dmem d k = true <-> In k (dkeys d).
Proof.
  unfold dmem. destruct (dget d k) as [v|] eqn:E.
  - split; [intros _|reflexivity]. apply dget_In in E. change k with (fst (k, v)). now apply in_map.
  - apply dget_None_keys in E. split; [discriminate|tauto].
Qed.
Lemma dmem_Some d k : dmem d k = true <-> exists v, dget d k = Some v.
Proof.
  unfold dmem. destruct (dget d k) as [v|]; split; try discriminate; eauto.
  intros [v E]; discriminate.
Qed.
Lemma dmem_None d k : dmem d k = false <-> dget d k = None.
Proof. unfold dmem. destruct (dget d k); split; congruence. Qed.
Lemma dkeys_set d k v : dkeys (dset d k v) = if dmem d k then dkeys d else dkeys d ++ [k].
Proof.
  unfold dmem. induction d as [|[k1 v1] t IH]; simpl; [reflexivity|].
  destruct (beq_spec k k1) as [->|Hk]; simpl; [reflexivity|].
  rewrite IH. destruct (dget t k); reflexivity.
Qed.
Lemma dwf_set d k v : dwf d -> dwf (dset d k v).
Proof.
  unfold dwf. intros Hw. rewrite dkeys_set. destruct (dmem d k) eqn:E; [exact Hw|].
  apply dmem_None, dget_None_keys in E.
  clear -Hw E. induction Hw as [|a l Ha Hl IH]; simpl in *.
  - constructor; [tauto|constructor].
  - constructor; [rewrite in_app_iff; simpl; intuition congruence|apply IH; tauto].
Qed.
Lemma dkeys_del d k : dkeys (ddel d k) = filter (fun x => negb (beq k x)) (dkeys d).
Proof.
  unfold ddel, dkeys. induction d as [|[k1 v1] t IH]; simpl; [reflexivity|].
  destruct (beq k k1); simpl; [exact IH|now rewrite IH].
Qed.
Lemma dwf_del d k : dwf d -> dwf (ddel d k).
Proof. unfold dwf. intros Hw. rewrite dkeys_del. now apply NoDup_filter'. Qed.
Lemma dwf_nil : dwf [].
Proof. constructor. Qed.
Lemma In_dvals d v : dwf d -> (In v (dvals d) <-> exists k, dget d k = Some v).
Proof.
  intros Hw. unfold dvals. rewrite in_map_iff. split.
  - intros [[k v'] [E Hin]]. simpl in E. subst. exists k. now apply In_dget.
  - intros [k E]. exists (k, v). split; [reflexivity|now apply dget_In].
Qed.
Lemma In_dkeys d k : In k (dkeys d) <-> exists v, dget d k = Some v.
Proof. rewrite <- dmem_keys, dmem_Some. reflexivity. Qed.
(** Fields kept by position: removing an absent key is the identity. *)
Lemma ddel_absent d k : dget d k = None -> ddel d k = d.
Proof.
  induction d as [|[k1 v1] t IH]; simpl; [reflexivity|].
  destruct (beq_spec k k1); simpl; [discriminate|]. intros E. now rewrite IH.
Qed.
End Dict.
