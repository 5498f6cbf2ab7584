(** What C33 means: the share of the time during which something holds. *)
From Coq Require Import ZArith QArith.
From Verif Require Import Base Dict TopologyModel NxModel NxSpec.
Local Open Scope list_scope.
Local Open Scope Q_scope.

(** [P] holds during a time of [m] between [a] and [b]; it changes finitely often *)
Inductive holds_for (P : Q -> Prop) : Q -> Q -> Q -> Prop :=
| holds_end a b m : a == b -> m == 0 -> holds_for P a b m
| holds_on a b c m m' : a <= b -> (forall s, a <= s -> s < b -> P s) -> holds_for P b c m -> m' == b - a + m -> holds_for P a c m'
| holds_off a b c m : a <= b -> (forall s, a <= s -> s < b -> ~ P s) -> holds_for P b c m -> holds_for P a c m.

Section Time.
Variable draw : string * string -> nat -> Q * Q.
Variables mttf mttr : Q.
(** when the n-th life of the link starts, and when it fails *)
Fixpoint starts (k : string * string) (n : nat) : Q :=
  match n with O => 0 | S n => starts k n + mttf * fst (draw k n) + mttr * snd (draw k n) end.
Definition fails_at (k : string * string) (n : nat) : Q := starts k n + mttf * fst (draw k n).
Definition down (k : string * string) (s : Q) : Prop := exists n, fails_at k n <= s /\ s < starts k (S n).
(** the pair of sites is joined by a wireless backhaul link *)
Definition joined (g : graph) (k : string * string) : Prop := exists u v, arc_type g u v (Some (ELink WIRELESS_BACKHAUL)) /\ sorted_pair k u v.
(** the arcs that work at time [s] *)
Definition works (g : graph) (s : Q) (x y : string) : Prop := arc g x y /\ forall k, joined g k -> sorted_pair k x y -> ~ down k s.
End Time.
(** *** the same, told of the topology *)
Section Topo.
Variable draw : string * string -> nat -> Q * Q.
Variables mttf mttr : Q.
Variables (t : topo) (f : list status).
(** an active wireless backhaul link, in one direction or the other *)
Definition radio_pair (k : string * string) : Prop := exists u v, carries t f u v /\ sorted_pair k u v.
(** demand site [d] is connected at time [s] *)
Definition served_at (s : Q) (d : string) : Prop :=
  linked (fun x y => (exists e, arc_of t f x y e) /\ forall k, radio_pair k -> sorted_pair k x y -> ~ down draw mttf mttr k s) d.
End Topo.
