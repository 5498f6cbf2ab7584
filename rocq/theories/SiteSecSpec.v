(** What C74 means. *)
From Coq Require Import QArith Qabs Permutation.
From Verif Require Import Base SecLinkSpec SecPlaceSpec SiteSecModel.
Local Open Scope Q_scope.
Local Open Scope list_scope.

(** the azimuths of a node *)
Definition azimuths (l : list vsector) (n : Z) : list Q := map v_az (filter (fun s => Z.eqb (v_node s) n) l).
(** all on one site, and no place of a node taken twice *)
Definition one_site (l : list vsector) : Prop := forall s s', In s l -> In s' l -> v_site s = v_site s'.
Definition own_places (l : list vsector) : Prop := NoDup (map (fun s => (v_node s, v_pos s)) l).
(** at most [k] nodes *)
Definition at_most_nodes (k : nat) (l : list vsector) : Prop :=
  forall ns, NoDup ns -> (forall n, In n ns -> exists s, In s l /\ v_node s = n) -> (List.length ns <= k)%nat.
(** neighbours in a row are [hsr] apart, within a hundredth of a degree *)
Fixpoint in_a_row (hsr : Q) (l : list Q) : Prop :=
  match l with
  | a :: ((b :: _) as t) => Qabs (between a b - hsr) < 1 # 100 /\ in_a_row hsr t
  | _ => True
  end.
(** [p] lies on the arc from [s] clockwise to [e] *)
Definition on_arc (p s e : Q) : Prop := (s <= e /\ s <= p /\ p <= e) \/ (e < s /\ (s <= p \/ p <= e)).
Definition ends (l : list Q) (a b : Q) : Prop := hd_error l = Some a /\ hd_error (rev l) = Some b.
(** the nodes' ends are [hsr] apart and none lies on the arc of the other *)
Definition clear_of (hsr : Q) (x y : list Q) : Prop := forall a b c d, ends x a b -> ends y c d ->
  (hsr <= between a c /\ hsr <= between b c /\ hsr <= between a d /\ hsr <= between b d) /\
  (~ on_arc c a b /\ ~ on_arc d a b /\ ~ on_arc a c d /\ ~ on_arc b c d).
(** sectors that suit the device *)
Definition suitable (number_of_nodes nspn : nat) (hsr : Q) (l : list vsector) (row : Z -> list Q) : Prop :=
  one_site l /\ own_places l /\ at_most_nodes number_of_nodes l /\
  forall s, In s l -> List.length (azimuths l (v_node s)) = nspn /\ Permutation (row (v_node s)) (azimuths l (v_node s)) /\
    in_a_row hsr (row (v_node s)) /\
    forall s', In s' l -> v_node s' <> v_node s -> clear_of hsr (row (v_node s)) (row (v_node s')).

(** The circular mean of the azimuths of a node, in any order, is a direction nearer to the centre of the
    node than half a step.  (Exactly it is the centre, unless the sectors go all the way round:
    C74_mean_is_the_centre.) *)
Definition mean_near (mean : list Q -> Q) (hsr : Q) (n : nat) (f : list Q) : Prop := forall l, Permutation l f ->
  direction (mean l) /\ forall c, fan c hsr n f -> exists z : Z, Qabs (mean l - c - 360 * inject_Z z) < hsr / 2.
(** the sectors of a node do not pass north *)
Definition not_past_north (l : list Q) : Prop := forall a b r t, l = r ++ a :: b :: t -> a < b.

From Coq Require Import Reals Qreals.
(** the sums of line 413 and 414 *)
Definition radians (a : Q) : R := (Q2R a * PI / 180)%R.
Definition sum_of (g : R -> R) (l : list Q) : R := fold_right (fun a s => (g (radians a) + s)%R) 0%R l.
