(** Finite sums of rationals. *)
From Coq Require Import QArith Qminmax Lqa.
From Verif Require Import Base.
Local Open Scope Q_scope.

Definition total {A} (f : A -> Q) (l : list A) : Q := fold_right (fun x s => f x + s) 0 l.
Lemma tot_cons {A} (f : A -> Q) a l : total f (a :: l) = f a + total f l. Proof. reflexivity. Qed.
Lemma tot_nil {A} (f : A -> Q) : total f [] = 0. Proof. reflexivity. Qed.
Lemma tot_ext {A} (f g : A -> Q) l : (forall x, In x l -> f x == g x) -> total f l == total g l.
Proof. induction l as [|a l IH]; intros H; rewrite ?tot_cons, ?tot_nil; [reflexivity|]. rewrite (H a (or_introl eq_refl)), IH; [reflexivity|]. intros x Hx. apply H. now right. Qed.
Lemma tot_app {A} (f : A -> Q) l r : total f (l ++ r) == total f l + total f r.
Proof. induction l as [|a l IH]; cbn [app]; rewrite ?tot_cons, ?tot_nil; [lra|]. rewrite IH. lra. Qed.
Lemma tot_le {A} (f g : A -> Q) l : (forall x, In x l -> f x <= g x) -> total f l <= total g l.
Proof. induction l as [|a l IH]; intros H; rewrite ?tot_cons, ?tot_nil; [lra|]. pose proof (H a (or_introl eq_refl)). assert (total f l <= total g l) by (apply IH; intros x Hx; apply H; now right). lra. Qed.
Lemma tot_zero {A} (f : A -> Q) l : (forall x, In x l -> f x == 0) -> total f l == 0.
Proof. induction l as [|a l IH]; intros H; rewrite ?tot_cons, ?tot_nil; [lra|]. rewrite (H a (or_introl eq_refl)), IH; [lra|]. intros x Hx. apply H. now right. Qed.
Lemma tot_nonneg {A} (f : A -> Q) l : (forall x, In x l -> 0 <= f x) -> 0 <= total f l.
Proof. induction l as [|a l IH]; intros H; rewrite ?tot_cons, ?tot_nil; [lra|]. pose proof (H a (or_introl eq_refl)). assert (0 <= total f l) by (apply IH; intros x Hx; apply H; now right). lra. Qed.
Lemma tot_plus {A} (f g : A -> Q) l : total (fun x => f x + g x) l == total f l + total g l.
Proof. induction l as [|a l IH]; rewrite ?tot_cons, ?tot_nil; [lra|]. rewrite IH. lra. Qed.
Lemma tot_scale {A} c (f : A -> Q) l : total (fun x => c * f x) l == c * total f l.
Proof. induction l as [|a l IH]; rewrite ?tot_cons, ?tot_nil; [lra|]. rewrite IH. lra. Qed.
Lemma tot_map {A B} (h : A -> B) f l : total f (map h l) == total (fun x => f (h x)) l.
Proof. induction l as [|a l IH]; cbn [map]; rewrite ?tot_cons, ?tot_nil; [lra|]. rewrite IH. lra. Qed.
Lemma tot_filter {A} (p : A -> bool) f l : total f (filter p l) == total (fun x => if p x then f x else 0) l.
Proof. induction l as [|a l IH]; cbn [filter]; rewrite ?tot_cons, ?tot_nil; [lra|]. destruct (p a); rewrite ?tot_cons, IH; lra. Qed.
Lemma tot_filter_split {A} (p : A -> bool) f l : total f l == total f (filter p l) + total f (filter (fun x => negb (p x)) l).
Proof. rewrite !tot_filter, <- tot_plus. apply tot_ext. intros x _. destruct (p x); cbn; lra. Qed.
(** order does not matter *)
Lemma tot_remove {A} (f : A -> Q) a r1 r2 : total f (r1 ++ a :: r2) == f a + total f (r1 ++ r2).
Proof. rewrite !tot_app, tot_cons. lra. Qed.
Lemma tot_same {A} (f : A -> Q) l : forall r, NoDup l -> NoDup r -> (forall x, In x l <-> In x r) -> total f l == total f r.
Proof.
  induction l as [|a l IH]; intros r Nl Nr E.
  - destruct r as [|b r]; [reflexivity|]. exfalso. apply (proj2 (E b)). now left.
  - inversion Nl as [|? ? Na Nl']; subst. assert (Ha : In a r) by (apply E; now left). apply in_split in Ha. destruct Ha as (r1 & r2 & ->).
    rewrite tot_remove, tot_cons. rewrite (IH (r1 ++ r2)); [reflexivity|exact Nl'|now apply NoDup_remove_1 in Nr|].
    apply NoDup_remove_2 in Nr. intros x. specialize (E x). rewrite in_app_iff in *. cbn in E. split.
    + intros Hx. assert (a <> x) by (intros <-; contradiction). tauto.
    + intros Hx. assert (a <> x) by (intros <-; tauto). tauto.
Qed.
(** summing by groups *)
Lemma tot_group {A K} `{EqB K} (key : A -> K) (f : A -> Q) ks : forall l, NoDup ks -> (forall x, In x l -> In (key x) ks) ->
  total f l == total (fun k => total f (filter (fun x => beq (key x) k) l)) ks.
Proof.
  induction ks as [|k ks IH]; intros l N Hin.
  - destruct l as [|a l]; [reflexivity|]. destruct (Hin a (or_introl eq_refl)).
  - inversion N as [|? ? Nk N']; subst. rewrite tot_cons, (tot_filter_split (fun x => beq (key x) k)). rewrite (IH (filter (fun x => negb (beq (key x) k)) l)); [|exact N'|].
    + assert (E : total (fun k0 => total f (filter (fun x => beq (key x) k0) (filter (fun x => negb (beq (key x) k)) l))) ks == total (fun k0 => total f (filter (fun x => beq (key x) k0) l)) ks); [|rewrite E; reflexivity].
      apply tot_ext. intros j Hj. rewrite !tot_filter. apply tot_ext. intros x _. destruct (beq_spec (key x) k) as [->|]; cbn [negb]; [|reflexivity]. destruct (beq_spec k j) as [->|]; [contradiction|reflexivity].
    + intros x Hx. apply filter_In in Hx. destruct Hx as [Hx B]. destruct (Hin x Hx) as [E|Hk]; [|exact Hk]. apply negb_true_iff in B. rewrite <- E, beq_refl in B. discriminate.
Qed.
