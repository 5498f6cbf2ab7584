(** Shared vocabulary: decidable equality, exceptions as values, the enumerations of
    terragraph_planner/common/configuration/enums.py. *)
From Coq Require Export List Arith ZArith Bool String Ascii Lia.
From Coq Require Import QArith.
Export ListNotations.
Open Scope list_scope.
Close Scope Q_scope.

(** Boolean equality with its specification. *)
Class EqB (A : Type) := { beq : A -> A -> bool; beq_spec : forall x y, reflect (x = y) (beq x y) }.

#[global] Arguments beq : simpl never.

Lemma beq_refl {A} `{EqB A} (x : A) : beq x x = true.
Proof. destruct (beq_spec x x); congruence. Qed.
Lemma beq_eq {A} `{EqB A} (x y : A) : beq x y = true <-> x = y.
Proof. destruct (beq_spec x y); split; congruence. Qed.
Lemma beq_true {A} `{EqB A} (x y : A) : beq x y = true -> x = y.
Proof. apply beq_eq. Qed.
Lemma beq_false {A} `{EqB A} (x y : A) : beq x y = false -> x <> y.
Proof. destruct (beq_spec x y); congruence. Qed.
Lemma beq_neq {A} `{EqB A} (x y : A) : beq x y = false <-> x <> y.
Proof. destruct (beq_spec x y); split; congruence. Qed.
Lemma beq_sym {A} `{EqB A} (x y : A) : beq x y = beq y x.
Proof. destruct (beq_spec x y); destruct (beq_spec y x); congruence. Qed.
Lemma eqb_dec {A} `{EqB A} (x y : A) : {x = y} + {x <> y}.
Proof. destruct (beq_spec x y); auto. Qed.

#[global] Instance EqB_string : EqB string := {| beq := String.eqb; beq_spec := String.eqb_spec |}.
#[global] Instance EqB_nat : EqB nat := {| beq := Nat.eqb; beq_spec := Nat.eqb_spec |}.
#[global] Instance EqB_Z : EqB Z := {| beq := Z.eqb; beq_spec := Z.eqb_spec |}.
Lemma bool_eqb_spec (x y : bool) : reflect (x = y) (Bool.eqb x y).
Proof. destruct x, y; constructor; congruence. Qed.
#[global] Instance EqB_bool : EqB bool := {| beq := Bool.eqb; beq_spec := bool_eqb_spec |}.

Definition prod_beq {A B} `{EqB A} `{EqB B} (p q : A * B) : bool :=
  beq (fst p) (fst q) && beq (snd p) (snd q).
Lemma prod_beq_spec {A B} `{EqB A} `{EqB B} (p q : A * B) : reflect (p = q) (prod_beq p q).
Proof.
  destruct p as [a b], q as [c d]; unfold prod_beq; simpl.
  destruct (beq_spec a c); destruct (beq_spec b d); simpl; constructor; congruence.
Qed.
#[global] Instance EqB_prod {A B} `{EqB A} `{EqB B} : EqB (A * B) :=
  {| beq := prod_beq; beq_spec := prod_beq_spec |}.

Definition option_beq {A} `{EqB A} (p q : option A) : bool :=
  match p, q with Some a, Some b => beq a b | None, None => true | _, _ => false end.
Lemma option_beq_spec {A} `{EqB A} (p q : option A) : reflect (p = q) (option_beq p q).
Proof.
  destruct p as [a|], q as [b|]; simpl; try (constructor; congruence).
  destruct (beq_spec a b); constructor; congruence.
Qed.
#[global] Instance EqB_option {A} `{EqB A} : EqB (option A) :=
  {| beq := option_beq; beq_spec := option_beq_spec |}.

(** Python exceptions as values.  [PyKeyError] etc. are exceptions raised by the
    interpreter, the others are the planner's own (common/exceptions.py). *)
Inductive exn :=
| TopologyExn | PlannerExn | DataExn | LOSExn | ConfigExn | OptExn
| PyKeyError | PyIndexError | PyZeroDivision | PyTypeError | PyValueError | PyNameError
| PyAssertion | NetworkXExn | OutOfFuel.

Inductive result (A : Type) := Ok (a : A) | Err (e : exn).
Arguments Ok {A} a.
Arguments Err {A} e.
Definition rbind {A B} (r : result A) (f : A -> result B) : result B :=
  match r with Ok a => f a | Err e => Err e end.
Notation "'do' x <- r ; f" := (rbind r (fun x => f)) (at level 200, x name, r at level 100, f at level 200).
Definition rok {A} (r : result A) : bool := match r with Ok _ => true | Err _ => false end.

(** common/configuration/enums.py 111-136: StatusType and its four classes. *)
Inductive status := PROPOSED | EXISTING | CANDIDATE | UNAVAILABLE | UNREACHABLE.
Definition status_beq (a b : status) : bool :=
  match a, b with
  | PROPOSED, PROPOSED | EXISTING, EXISTING | CANDIDATE, CANDIDATE
  | UNAVAILABLE, UNAVAILABLE | UNREACHABLE, UNREACHABLE => true
  | _, _ => false
  end.
Lemma status_beq_spec (a b : status) : reflect (a = b) (status_beq a b).
Proof. destruct a, b; constructor; congruence. Qed.
#[global] Instance EqB_status : EqB status := {| beq := status_beq; beq_spec := status_beq_spec |}.
Definition immutable (s : status) : bool := match s with EXISTING | UNAVAILABLE => true | _ => false end.
Definition active (s : status) : bool := match s with PROPOSED | EXISTING => true | _ => false end.
Definition inactive (s : status) : bool := match s with UNAVAILABLE | UNREACHABLE => true | _ => false end.
Definition reachable_st (s : status) : bool :=
  match s with PROPOSED | EXISTING | CANDIDATE => true | _ => false end.

(** common/configuration/enums.py: SiteType, LinkType, PolarityType, DeviceType, LocationType. *)
Inductive site_type := CN | DN | POP.
Definition site_type_beq (a b : site_type) : bool :=
  match a, b with CN, CN | DN, DN | POP, POP => true | _, _ => false end.
Lemma site_type_beq_spec a b : reflect (a = b) (site_type_beq a b).
Proof. destruct a, b; constructor; congruence. Qed.
#[global] Instance EqB_site_type : EqB site_type :=
  {| beq := site_type_beq; beq_spec := site_type_beq_spec |}.
Inductive link_type := WIRELESS_BACKHAUL | WIRELESS_ACCESS | ETHERNET.
Definition link_type_beq (a b : link_type) : bool :=
  match a, b with
  | WIRELESS_BACKHAUL, WIRELESS_BACKHAUL | WIRELESS_ACCESS, WIRELESS_ACCESS
  | ETHERNET, ETHERNET => true | _, _ => false end.
Lemma link_type_beq_spec a b : reflect (a = b) (link_type_beq a b).
Proof. destruct a, b; constructor; congruence. Qed.
#[global] Instance EqB_link_type : EqB link_type :=
  {| beq := link_type_beq; beq_spec := link_type_beq_spec |}.
Inductive polarity := ODD | EVEN | UNASSIGNED.
Definition polarity_beq (a b : polarity) : bool :=
  match a, b with ODD, ODD | EVEN, EVEN | UNASSIGNED, UNASSIGNED => true | _, _ => false end.
Lemma polarity_beq_spec a b : reflect (a = b) (polarity_beq a b).
Proof. destruct a, b; constructor; congruence. Qed.
#[global] Instance EqB_polarity : EqB polarity :=
  {| beq := polarity_beq; beq_spec := polarity_beq_spec |}.

(** List membership as a boolean (Python's [x in list]). *)
Fixpoint mem {A} `{EqB A} (x : A) (l : list A) : bool :=
  match l with [] => false | y :: t => beq x y || mem x t end.
Lemma mem_In {A} `{EqB A} (x : A) l : mem x l = true <-> In x l.
Proof.
  induction l as [|y t IH]; simpl; [split; [discriminate|tauto]|].
  rewrite orb_true_iff, IH, beq_eq. split; intros [E|E]; auto.
Qed.
Lemma mem_not_In {A} `{EqB A} (x : A) l : mem x l = false <-> ~ In x l.
Proof. rewrite <- mem_In. destruct (mem x l); split; congruence. Qed.
(** Python's [set.discard]/[list] filtering: all occurrences removed. *)
Definition discard {A} `{EqB A} (x : A) (l : list A) : list A :=
  filter (fun y => negb (beq x y)) l.
Lemma discard_In {A} `{EqB A} (x y : A) l : In y (discard x l) <-> In y l /\ y <> x.
Proof.
  unfold discard. rewrite filter_In, negb_true_iff, beq_neq. intuition congruence.
Qed.
Lemma NoDup_filter' {A} (f : A -> bool) l : NoDup l -> NoDup (filter f l).
Proof.
  induction 1 as [|x l Hx Hl IH]; simpl; [constructor|].
  destruct (f x); [constructor; [rewrite filter_In; tauto|exact IH]|exact IH].
Qed.
(** Python's [set.add]. *)
Definition sadd {A} `{EqB A} (x : A) (l : list A) : list A := if mem x l then l else l ++ [x].
Lemma sadd_In {A} `{EqB A} (x y : A) l : In y (sadd x l) <-> y = x \/ In y l.
Proof.
  unfold sadd. destruct (mem x l) eqn:E.
  - apply mem_In in E. split; [tauto|intros [->|]; auto].
  - rewrite in_app_iff. simpl. intuition congruence.
Qed.
Lemma sadd_NoDup {A} `{EqB A} (x : A) l : NoDup l -> NoDup (sadd x l).
Proof.
  intros Hn. unfold sadd. destruct (mem x l) eqn:E; [exact Hn|].
  apply mem_not_In in E. clear -Hn E. induction Hn as [|a l Ha Hl IH]; simpl.
  - constructor; [tauto|constructor].
  - constructor.
    + rewrite in_app_iff; simpl in *. intuition congruence.
    + apply IH. simpl in E. tauto.
Qed.
