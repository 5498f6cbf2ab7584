(** Small facts about rationals used by several modules. *)
From Coq Require Import QArith Lqa.
From Verif Require Import Base.
Local Open Scope Q_scope.

Lemma qle_true x y : Qle_bool x y = true <-> x <= y.
Proof. apply Qle_bool_iff. Qed.
Lemma qle_false x y : Qle_bool x y = false <-> y < x.
Proof.
  split; intro H.
  - apply Qnot_le_lt. intro L. apply qle_true in L. congruence.
  - destruct (Qle_bool x y) eqn:E; [|reflexivity]. apply qle_true in E. lra.
Qed.
Lemma qeq_true x y : Qeq_bool x y = true <-> x == y.
Proof. apply Qeq_bool_iff. Qed.
Lemma qeq_false x y : Qeq_bool x y = false <-> ~ x == y.
Proof.
  split; intro H.
  - intro E. apply qeq_true in E. congruence.
  - destruct (Qeq_bool x y) eqn:E; [|reflexivity]. apply qeq_true in E. contradiction.
Qed.
Lemma qle_case x y : {x <= y} + {y < x}.
Proof. destruct (Qle_bool x y) eqn:E; [left; apply qle_true | right; apply qle_false]; exact E. Qed.
Ltac qb :=
  repeat match goal with
  | H : Qle_bool _ _ = true |- _ => apply qle_true in H
  | H : Qle_bool _ _ = false |- _ => apply qle_false in H
  | H : Qeq_bool _ _ = true |- _ => apply qeq_true in H
  | H : Qeq_bool _ _ = false |- _ => apply qeq_false in H
  end.
