(** Vocabulary for C15: flows on the edges of a directed graph. *)
From Coq Require Import QArith.
From Verif Require Import Base Dict PruneModel.
Local Open Scope Q_scope.

Fixpoint sumq {A} (f : A -> Q) (l : list A) : Q := match l with [] => 0 | x :: r => f x + sumq f r end.
(** what leaves and what enters a location *)
Definition outflow (fl : dict edge Q) (v : string) : Q := sumq (fun p => if String.eqb (fst (fst p)) v then snd p else 0) fl.
Definition inflow (fl : dict edge Q) (v : string) : Q := sumq (fun p => if String.eqb (snd (fst p)) v then snd p else 0) fl.
Definition net (fl : dict edge Q) (v : string) : Q := outflow fl v - inflow fl v.

(** a directed walk along edges carrying more than [x] *)
Inductive walk (fl : dict edge Q) (x : Q) : string -> string -> Prop :=
| walk_one u v f : dget fl (u, v) = Some f -> x < f -> walk fl x u v
| walk_cons u v w f : dget fl (u, v) = Some f -> x < f -> walk fl x v w -> walk fl x u w.
Definition acyclic_above (fl : dict edge Q) (x : Q) : Prop := forall v, ~ walk fl x v v.

(** the graph of the optimiser: every flow is on a link, every end of a link is a location and
    no link joins a location to itself *)
Definition graph_ok (links : list edge) (locations : list string) (fl : dict edge Q) : Prop :=
  dwf fl /\ (forall e, In e (dkeys fl) -> In e links) /\
  (forall e, In e links -> In (fst e) locations /\ In (snd e) locations /\ fst e <> snd e).
(** every link has a value in the result, 0 if it had none before *)
Definition defined_on (links : list edge) (fl : dict edge Q) : Prop := forall e, In e (dkeys fl) <-> In e links.
