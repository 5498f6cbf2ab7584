(** Facts about the loops of the models: mapM, filterM, concatM, dictionaries built by successive
    assignments, and finite sums. *)
From Coq Require Import QArith Lqa Permutation DecimalString DecimalNat.
From Verif Require Import Base Dict TopologyModel SetupModel IlpModel IlpSpec QLib.
Local Open Scope Q_scope.

Lemma get_ok {K V} `{EqB K} (d : dict K V) k v : get d k = Ok v <-> dget d k = Some v.
Proof. unfold get. destruct (dget d k); split; congruence. Qed.
Lemma guard_ok b e u : guard b e = Ok u -> b = true.
Proof. unfold guard. destruct b; congruence. Qed.
Lemma rbind_ok {A B} (r : result A) (f : A -> result B) y : rbind r f = Ok y -> exists x, r = Ok x /\ f x = Ok y.
Proof. destruct r as [x|e]; cbn; [eauto|discriminate]. Qed.
(** splits [(do x <- r ; f x) = Ok y] hypotheses *)
Ltac inv_do :=
  repeat match goal with
  | H : rbind ?r ?f = Ok ?y |- _ =>
    let x := fresh "x" in let E := fresh "E" in
    apply rbind_ok in H; destruct H as (x & E & H)
  | H : Ok _ = Ok _ |- _ => injection H as H
  | H : get _ _ = Ok _ |- _ => apply get_ok in H
  end.

Lemma mapM_ok {A B} (f : A -> result B) l r : mapM f l = Ok r -> Forall2 (fun x y => f x = Ok y) l r.
Proof.
  revert r. induction l as [|x l IH]; cbn; intros r E; [injection E as <-; constructor|].
  inv_do. subst. constructor; auto.
Qed.
Lemma mapM_In {A B} (f : A -> result B) l r x : mapM f l = Ok r -> In x l -> exists y, f x = Ok y /\ In y r.
Proof.
  intros E. apply mapM_ok in E. induction E as [|a b l r Hab E IH]; [contradiction|].
  intros [->|Hin]; [exists b; split; [exact Hab|now left]|]. destruct (IH Hin) as (y & ? & ?). exists y. split; [auto|now right].
Qed.
Lemma mapM_inv {A B} (f : A -> result B) l r y : mapM f l = Ok r -> In y r -> exists x, In x l /\ f x = Ok y.
Proof.
  intros E. apply mapM_ok in E. induction E as [|a b l r Hab E IH]; [contradiction|].
  intros [->|Hin]; [exists a; split; [now left|exact Hab]|]. destruct (IH Hin) as (x & ? & ?). exists x. split; [now right|auto].
Qed.
Lemma mapM_total {A B} (f : A -> result B) l : (forall x, In x l -> exists y, f x = Ok y) -> exists r, mapM f l = Ok r.
Proof.
  induction l as [|x l IH]; intros Hf; [exists []; reflexivity|].
  destruct (Hf x) as [y Ey]; [now left|]. destruct IH as [r Er]; [intros; apply Hf; now right|].
  exists (y :: r). cbn. rewrite Ey. cbn. now rewrite Er.
Qed.
Lemma mapM_pure {A B} (f : A -> result B) (g : A -> B) l : (forall x, In x l -> f x = Ok (g x)) -> mapM f l = Ok (map g l).
Proof.
  induction l as [|x l IH]; intros Hf; [reflexivity|]. cbn. rewrite (Hf x) by now left. cbn.
  rewrite IH by (intros; apply Hf; now right). reflexivity.
Qed.
Lemma mapM_eq {A B} (f : A -> result B) (g : A -> B) l r : mapM f l = Ok r -> (forall x y, In x l -> f x = Ok y -> y = g x) -> r = map g l.
Proof.
  intros E. apply mapM_ok in E. induction E as [|a b l r Hab E IH]; intros Hg; [reflexivity|].
  cbn. rewrite (Hg a b (or_introl eq_refl) Hab). f_equal. apply IH. intros x y Hin. apply Hg. now right.
Qed.
Lemma concatM_In {A B} (f : A -> result (list B)) l r x : concatM f l = Ok r -> In x l -> exists rx, f x = Ok rx /\ incl rx r.
Proof.
  unfold concatM. intros E Hin. inv_do. subst. destruct (mapM_In _ _ _ _ E0 Hin) as (rx & Ex & Hr).
  exists rx. split; [exact Ex|]. intros y Hy. apply in_concat. eauto.
Qed.
Lemma concatM_inv {A B} (f : A -> result (list B)) l r y : concatM f l = Ok r -> In y r -> exists x rx, In x l /\ f x = Ok rx /\ In y rx.
Proof.
  unfold concatM. intros E Hin. inv_do. subst. apply in_concat in Hin. destruct Hin as (rx & Hr & Hy).
  destruct (mapM_inv _ _ _ _ E0 Hr) as (x' & ? & ?). eauto.
Qed.
Lemma concatM_total {A B} (f : A -> result (list B)) l : (forall x, In x l -> exists y, f x = Ok y) -> exists r, concatM f l = Ok r.
Proof. intros Hf. unfold concatM. destruct (mapM_total f l Hf) as [r Er]. rewrite Er. cbn. eauto. Qed.
Lemma concatM_pure {A B} (f : A -> result (list B)) (g : A -> list B) l : (forall x, In x l -> f x = Ok (g x)) -> concatM f l = Ok (flat_map g l).
Proof. intros Hf. unfold concatM. rewrite (mapM_pure f g l Hf). cbn. now rewrite flat_map_concat_map. Qed.
Lemma filterM_ok {A} (f : A -> result bool) l r : filterM f l = Ok r ->
  (forall x, In x l -> exists b, f x = Ok b) /\ (forall x, In x r <-> In x l /\ f x = Ok true) /\ (NoDup l -> NoDup r).
Proof.
  revert r. induction l as [|x l IH]; cbn; intros r E.
  - injection E as <-. split; [contradiction|]. split; [intro x; cbn; tauto|intros; constructor].
  - inv_do. rename x0 into b. rename x1 into r'. destruct (IH _ E1) as (H1 & H2 & H3). split; [|split].
    + intros y [->|Hy]; eauto.
    + intros y. subst r. destruct b; cbn; rewrite H2.
      * split; [intros [->|[? ?]]; auto|intros [[->|?] ?]; auto].
      * split; [intros [? ?]; auto|]. intros [[->|?] Hy]; [congruence|auto].
    + intros Hn. inversion_clear Hn. subst r. destruct b; [constructor|]; auto. rewrite H2. tauto.
Qed.

(** ** dictionaries built by successive assignments *)
Section DictOf.
Context {K V : Type} `{EqB K}.
Lemma fold_set_keys (l : list (K * V)) : forall d k, In k (dkeys (fold_left (fun d p => dset d (fst p) (snd p)) l d)) <-> In k (dkeys d) \/ In k (map fst l).
Proof.
  induction l as [|[k1 v1] l IH]; intros d k; cbn [fold_left map fst snd In]; [tauto|].
  rewrite IH, dkeys_set. destruct (dmem d k1) eqn:E.
  - apply dmem_keys in E. split; [tauto|]. intros [|[->|]]; auto.
  - rewrite in_app_iff. cbn. tauto.
Qed.
Lemma dict_of_keys (l : list (K * V)) k : In k (dkeys (dict_of l)) <-> In k (map fst l).
Proof. unfold dict_of. rewrite fold_set_keys. cbn. tauto. Qed.
Lemma fold_set_In (l : list (K * V)) : forall d k v, dget (fold_left (fun d p => dset d (fst p) (snd p)) l d) k = Some v -> dget d k = Some v \/ In (k, v) l.
Proof.
  induction l as [|[k1 v1] l IH]; intros d k v; cbn [fold_left fst snd]; [auto|]. intros E.
  destruct (IH _ _ _ E) as [E'|?]; [|right; now right]. rewrite dget_set in E'. destruct (beq_spec k k1) as [->|?].
  - injection E' as ->. right. now left.
  - auto.
Qed.
Lemma dict_of_In (l : list (K * V)) k v : dget (dict_of l) k = Some v -> In (k, v) l.
Proof. intros E. apply fold_set_In in E. destruct E as [E|?]; [discriminate|auto]. Qed.
Lemma dict_of_wf (l : list (K * V)) : dwf (dict_of l).
Proof.
  unfold dict_of. assert (G : forall d : dict K V, dwf d -> dwf (fold_left (fun d p => dset d (fst p) (snd p)) l d)).
  { induction l as [|p l IH]; intros d Hd; cbn; [exact Hd|]. apply IH. now apply dwf_set. }
  apply G. constructor.
Qed.
Lemma dict_of_get (l : list (K * V)) k : In k (map fst l) -> exists v, dget (dict_of l) k = Some v /\ In (k, v) l.
Proof.
  intros Hin. apply dict_of_keys, In_dkeys in Hin. destruct Hin as [v Ev]. exists v. split; [exact Ev|]. now apply dict_of_In.
Qed.
(** all assignments to [k] have the same value *)
Lemma dict_of_value (l : list (K * V)) k v : In (k, v) l -> (forall v', In (k, v') l -> v' = v) -> dget (dict_of l) k = Some v.
Proof.
  intros Hin Hu. destruct (dict_of_get l k) as (v' & Ev & Hv); [change k with (fst (k, v)); now apply in_map|].
  now rewrite Ev, (Hu _ Hv).
Qed.
Lemma dict_of_None (l : list (K * V)) k : ~ In k (map fst l) -> dget (dict_of l) k = None.
Proof. intros Hn. apply dget_None_keys. now rewrite dict_of_keys. Qed.
(** the last assignment wins *)
Lemma dict_of_app (a b : list (K * V)) k : dget (dict_of (a ++ b)) k = match dget (dict_of b) k with Some v => Some v | None => dget (dict_of a) k end.
Proof.
  unfold dict_of. rewrite fold_left_app. set (d := fold_left _ a []). clearbody d. revert d.
  induction b as [|[k1 v1] b IH] using rev_ind; intros d; [reflexivity|].
  rewrite !fold_left_app. cbn [fold_left fst snd]. rewrite !dget_set. destruct (beq k k1); [reflexivity|apply IH].
Qed.
End DictOf.

Lemma fresh_get {K} `{EqB K} (mk : K -> var) (l : list K) k : dget (dict_of (fresh mk l)) k = if mem k l then Some (Var (mk k)) else None.
Proof.
  destruct (mem k l) eqn:E.
  - apply mem_In in E. apply dict_of_value.
    + unfold fresh. apply in_map_iff. eauto.
    + intros v' Hv. unfold fresh in Hv. apply in_map_iff in Hv. destruct Hv as (k' & E' & _). congruence.
  - apply mem_not_In in E. apply dict_of_None. unfold fresh. rewrite map_map. cbn. now rewrite map_id.
Qed.

(** ** sums *)
Lemma total_app {A} (f : A -> Q) l r : total f (l ++ r) == total f l + total f r.
Proof. induction l as [|x l IH]; cbn; [lra|]. rewrite IH. lra. Qed.
Lemma total_perm {A} (f : A -> Q) l r : Permutation l r -> total f l == total f r.
Proof. induction 1; cbn; lra. Qed.
Lemma lists_perm {A} (l r : list A) P : lists l P -> lists r P -> Permutation l r.
Proof. intros [N1 H1] [N2 H2]. apply NoDup_Permutation; auto. intros x. rewrite H1, H2. tauto. Qed.
Lemma lists_total {A} (f : A -> Q) (l r : list A) P : lists l P -> lists r P -> total f l == total f r.
Proof. intros H1 H2. apply total_perm. eapply lists_perm; eauto. Qed.
Lemma total_ext {A} (f g : A -> Q) l : (forall x, In x l -> f x == g x) -> total f l == total g l.
Proof. induction l as [|x l IH]; cbn; intros Hfg; [lra|]. rewrite (Hfg x) by now left. rewrite IH by (intros; apply Hfg; now right). lra. Qed.
Lemma total_le {A} (f g : A -> Q) l : (forall x, In x l -> f x <= g x) -> total f l <= total g l.
Proof.
  induction l as [|x l IH]; cbn; intros Hfg; [lra|]. specialize (IH (fun y Hy => Hfg y (or_intror Hy))).
  specialize (Hfg x (or_introl eq_refl)). lra.
Qed.
Lemma total_nonneg {A} (f : A -> Q) l : (forall x, In x l -> 0 <= f x) -> 0 <= total f l.
Proof. intros Hf. induction l as [|x l IH]; cbn; [lra|]. specialize (IH (fun y Hy => Hf y (or_intror Hy))). specialize (Hf x (or_introl eq_refl)). lra. Qed.
Lemma total_zero {A} (f : A -> Q) l : (forall x, In x l -> 0 <= f x) -> total f l == 0 -> forall x, In x l -> f x == 0.
Proof.
  induction l as [|y l IH]; cbn; intros Hf Ht x Hx; [contradiction|].
  assert (H1 := Hf y (or_introl eq_refl)). assert (H2 := total_nonneg f l (fun z Hz => Hf z (or_intror Hz))).
  destruct Hx as [->|Hx]; [lra|]. apply IH; auto. lra.
Qed.
Lemma total_member {A} (f : A -> Q) l x : (forall y, In y l -> 0 <= f y) -> In x l -> f x <= total f l.
Proof.
  induction l as [|y l IH]; cbn; intros Hf Hx; [contradiction|].
  assert (H1 := Hf y (or_introl eq_refl)). assert (H2 := total_nonneg f l (fun z Hz => Hf z (or_intror Hz))).
  destruct Hx as [->|Hx]; [lra|]. specialize (IH (fun z Hz => Hf z (or_intror Hz)) Hx). lra.
Qed.
Lemma total_scale {A} (q : Q) (f : A -> Q) l : total (fun x => q * f x) l == q * total f l.
Proof. induction l as [|x l IH]; cbn; [lra|]. rewrite IH. lra. Qed.
Lemma total_add {A} (f g : A -> Q) l : total (fun x => f x + g x) l == total f l + total g l.
Proof. induction l as [|x l IH]; cbn; [lra|]. rewrite IH. lra. Qed.
Lemma total_sub {A} (f g : A -> Q) l : total (fun x => f x - g x) l == total f l - total g l.
Proof. induction l as [|x l IH]; cbn; [lra|]. rewrite IH. lra. Qed.
Lemma total_map {A B} (h : A -> B) (f : B -> Q) l : total f (map h l) == total (fun x => f (h x)) l.
Proof. induction l as [|x l IH]; cbn; [lra|]. rewrite IH. lra. Qed.
Lemma total_filter {A} (p : A -> bool) (f : A -> Q) l : total f (filter p l) == total (fun x => if p x then f x else 0) l.
Proof. induction l as [|x l IH]; cbn; [lra|]. destruct (p x); cbn; rewrite IH; lra. Qed.
Lemma total_const0 {A} (l : list A) : total (fun _ => 0) l == 0.
Proof. induction l as [|x l IH]; cbn; [lra|]. rewrite IH. lra. Qed.
Lemma total_pick {A} `{EqB A} (q : Q) (k : A) l : NoDup l -> In k l -> total (fun x => if beq k x then q else 0) l == q.
Proof.
  induction 1 as [|y l Hy Hl IH]; cbn; [contradiction|]. intros [->|Hin].
  - rewrite beq_refl. rewrite (total_ext _ (fun _ => 0)); [rewrite total_const0; lra|].
    intros z Hz. destruct (beq_spec k z) as [->|?]; [contradiction|lra].
  - rewrite IH by exact Hin. destruct (beq_spec k y) as [->|?]; [contradiction|lra].
Qed.
(** exchanging two sums *)
Lemma total_exchange {A B} (f : A -> B -> Q) la lb : total (fun a => total (f a) lb) la == total (fun b => total (fun a => f a b) la) lb.
Proof.
  induction la as [|a la IH]; cbn; [rewrite total_const0; lra|]. rewrite IH, <- total_add. apply total_ext. intros. cbn. lra.
Qed.
Lemma fold_plus l : forall q, fold_left Qplus l q == q + total (fun x => x) l.
Proof. induction l as [|x l IH]; intros q; cbn; [lra|]. rewrite IH. lra. Qed.
Lemma eval_xsum v l : eval v (xsum l) == total (eval v) l.
Proof. induction l as [|x l IH]; cbn; [lra|]. fold (xsum l). rewrite IH. lra. Qed.

(** ** decimal names *)
Lemma dec_inj m n : dec m = dec n -> m = n.
Proof.
  unfold dec. intros E. apply (f_equal NilEmpty.uint_of_string) in E. rewrite !NilEmpty.usu in E. injection E as E.
  now apply Unsigned.to_uint_inj.
Qed.
