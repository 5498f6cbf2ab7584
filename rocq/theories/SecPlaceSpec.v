(** What C42 and C58 mean. *)
From Coq Require Import QArith Qabs Qminmax Qround.
From Verif Require Import Base QLib SecLinkSpec SecPlaceModel.
Local Open Scope Q_scope.
Local Open Scope list_scope.

Definition qnat (n : nat) : Q := inject_Z (Z.of_nat n).
Definition total {A} (f : A -> Q) (l : list A) : Q := fold_right (fun x s => f x + s) 0 l.

(** [l] are the azimuths of the [n] sectors of a node at [center]: side by side, centred on it *)
Definition fan (center hsr : Q) (n : nat) (l : list Q) : Prop :=
  List.length l = n /\ forall i s, nth_error l i = Some s ->
    direction s /\ exists z : Z, s == center + (qnat i - (qnat n - 1) / 2) * hsr + 360 * inject_Z z.

(** nodes of the given width that do not overlap, going round once *)
Fixpoint apart (width : Q) (l : list Q) : Prop :=
  match l with
  | a :: ((b :: _) as t) => a + width <= b /\ apart width t
  | _ => True
  end.
Definition spaced (width : Q) (l : list Q) : Prop :=
  apart width l /\ match l with [] => True | a :: _ => last l a + width <= a + 360 end.

Section Placement.
Variables (nbs : list neighbor) (nspn : nat) (hsr : Q) (dn_dn_limit dn_total_limit : option Z) (weight : option Q).

(** a sector sees a link within half its scan range *)
Definition sees (s : Q) (x : neighbor) : bool := negb (Qle_bool (hsr / 2) (between s (nb_angle x))).
Definition within (limit : option Z) (n : nat) : Prop := match limit with Some z => (Z.of_nat n <= z)%Z | None => True end.
(** positions of a node considered: every third degree, no sector sees too many links *)
Definition position (a : Q) : Prop := exists k, (k < 120)%nat /\ a == 3 * qnat k.
Definition not_overloaded (a : Q) : Prop := forall l s, fan a hsr nspn l -> In s l ->
  within dn_total_limit (List.length (filter (sees s) nbs)) /\
  within dn_dn_limit (List.length (filter (fun x => sees s x && nb_dist_type x) nbs)).
(** a way to place [n] nodes, with the sectors *)
Definition placement (n : nat) (nodes : list Q) (sectors : list (list Q)) : Prop :=
  List.length nodes = n /\ spaced (hsr * qnat nspn) nodes /\ Forall (fun a => position a /\ not_overloaded a) nodes /\
  Forall2 (fun a l => fan a hsr nspn l) nodes sectors.

(** how many links are seen by some sector *)
Definition seen (sectors : list Q) : nat := List.length (filter (fun x => existsb (fun s => sees s x) sectors) nbs).
(** sum of the squared deviations, weighted by distance and kind of link *)
Definition far : Q := fold_right Qmax 0 (map nb_dist nbs).
Definition kind_weight (x : neighbor) : Q := match nb_dist_type x, weight with true, Some w => w | _, _ => 1 end.
Definition deviation (sectors : list Q) : Q :=
  total (fun x => total (fun s => if sees s x then between s (nb_angle x) * between s (nb_angle x) * (nb_dist x / far) * kind_weight x else 0) sectors) nbs.
End Placement.

(** the site and device considered *)
Record wf_site (nbs : list neighbor) (number_of_nodes nspn : nat) (hsr : Q) (weight : option Q) : Prop := mkWfSite {
  wfs_dir : forall x, In x nbs -> direction (nb_angle x);
  wfs_dist : forall x, In x nbs -> 0 < nb_dist x;
  wfs_some : nbs <> [];
  wfs_hsr : 0 < hsr;
  wfs_nspn : (1 <= nspn)%nat;
  wfs_nodes : (1 <= number_of_nodes)%nat;
  (* DeviceData.__init__ *)
  wfs_around : hsr * qnat nspn * qnat number_of_nodes <= 360;
  (* BACKHAUL_LINK_TYPE_WEIGHT = 8 *)
  wfs_weight : match weight with Some w => 0 < w /\ w <= 8 | None => True end
}.

(** a client site has one node; the cost of a link for its direction [c]: the square of the deviation, and
    that of a whole turn when the node does not see the link *)
Definition client_cost (node : Q) (angles : list Q) (c : Q) : Q :=
  total (fun a => if Qle_bool (between c a) (node / 2) then between c a * between c a else 360 * 360) angles.
