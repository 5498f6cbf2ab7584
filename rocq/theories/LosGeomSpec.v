(** What C27, C28 and C56 mean. *)
From Coq Require Import Reals.
From Verif Require Import Base ElevModel ElevSpec LosGeomModel.
Local Open Scope R_scope.

(** ** pairs of sites *)
(** length of the line of sight; level if an altitude is unknown *)
Definition rise (s1 s2 : lsite) : R := match ls_alt s1, ls_alt s2 with Some a, Some b => b - a | _, _ => 0 end.
Definition los_length (s1 s2 : lsite) : R := sqrt ((ls_x s2 - ls_x s1)^2 + (ls_y s2 - ls_y s1)^2 + (rise s1 s2)^2).
(** angle to the horizontal, in degrees *)
Definition los_angle (s1 s2 : lsite) : R := asin (Rabs (rise s1 s2) / los_length s1 s2) * 180 / PI.
Record usable_pair (max_los_distance min_los_distance max_el_dev : R) (zones : list zone) (s1 s2 : lsite) : Prop := {
  up_apart : ~ (ls_x s1 = ls_x s2 /\ ls_y s1 = ls_y s2);
  up_buildings : ~ (ls_rooftop s1 = true /\ ls_rooftop s2 = true /\ ls_building s1 = ls_building s2);
  up_range : min_los_distance <= los_length s1 s2 <= max_los_distance;
  up_angle : ls_alt s1 <> None -> ls_alt s2 <> None -> los_angle s1 s2 <= max_el_dev;
  up_zones : forall z, In z zones -> z (ls_x s1, ls_y s1) (ls_x s2, ls_y s2) = false }.
Definition valid_params (max_los_distance min_los_distance max_el_dev threshold : R) : Prop :=
  0 < min_los_distance < max_los_distance /\ 0 <= max_el_dev <= 90 /\ 0 <= threshold <= 1.
(** a zone meets a line or not, whatever the direction of the line *)
Definition undirected (zones : list zone) : Prop := forall z p q, In z zones -> z p q = z q p.

(** ** the line and the columns of the surface *)
Definition dist3 (x y z x' y' z' : R) : R := sqrt ((x - x')^2 + (y - y')^2 + (z - z')^2).
(** distance of a point from the point at [t] of the line of sight; the sites are at 0 and 1 *)
Definition gap (s1 s2 : lsite) (a1 a2 t x y z : R) : R :=
  dist3 (ls_x s1 + t * (ls_x s2 - ls_x s1)) (ls_y s1 + t * (ls_y s2 - ls_y s1)) (a1 + t * (a2 - a1)) x y z.
(** the place is beside the line, no further than [r] from it *)
Definition beside (s1 s2 : lsite) (r x y : R) : Prop :=
  let dx := ls_x s2 - ls_x s1 in let dy := ls_y s2 - ls_y s1 in
  exists s w, 0 <= s <= 1 /\ - r <= w <= r /\
    x = ls_x s1 + s * dx - w * dy / sqrt (dx^2 + dy^2) /\ y = ls_y s1 + s * dy + w * dx / sqrt (dx^2 + dy^2).
(** the point of the line nearest to (x, y, z) is not between the sites *)
Definition past_an_end (s1 s2 : lsite) (a1 a2 x y z : R) : Prop :=
  exists t, (t < 0 \/ 1 < t) /\ forall t', gap s1 s2 a1 a2 t x y z <= gap s1 s2 a1 a2 t' x y z.
(** the height of the line of sight over the place nearest to (x, y) *)
Definition line_height (s1 s2 : lsite) (a1 a2 x y : R) : R :=
  let dx := ls_x s2 - ls_x s1 in let dy := ls_y s2 - ls_y s1 in
  a1 + ((x - ls_x s1) * dx + (y - ls_y s1) * dy) / (dx^2 + dy^2) * (a2 - a1).

(** ** the Fresnel zone *)
(** radius of the first Fresnel zone halfway, in metres: half the root of c*D/f, f in Hz *)
Definition zone_radius (frequency_mhz : R) (s1 s2 : lsite) : R := 865725790883 / 100000000000 * sqrt (los_length s1 s2 / frequency_mhz).
(** foot of the perpendicular from a point to the line of sight *)
Definition foot (s1 s2 : lsite) (a1 a2 x y z : R) : R :=
  let dx := ls_x s2 - ls_x s1 in let dy := ls_y s2 - ls_y s1 in let dz := a2 - a1 in
  ((x - ls_x s1) * dx + (y - ls_y s1) * dy + (z - a1) * dz) / (dx^2 + dy^2 + dz^2).
(** inside the ellipsoid whose long axis is the line of sight and whose radius halfway is [r] *)
Definition in_zone (s1 s2 : lsite) (a1 a2 r x y z : R) : Prop :=
  let t := foot s1 s2 a1 a2 x y z in (2 * t - 1)^2 + (gap s1 s2 a1 a2 t x y z / r)^2 < 1.
(** the same on the map *)
Definition map_foot (s1 s2 : lsite) (x y : R) : R :=
  let dx := ls_x s2 - ls_x s1 in let dy := ls_y s2 - ls_y s1 in ((x - ls_x s1) * dx + (y - ls_y s1) * dy) / (dx^2 + dy^2).
Definition under_zone (s1 s2 : lsite) (r x y : R) : Prop :=
  let t := map_foot s1 s2 x y in
  (2 * t - 1)^2 + ((ls_x s1 + t * (ls_x s2 - ls_x s1) - x)^2 + (ls_y s1 + t * (ls_y s2 - ls_y s1) - y)^2) / r^2 <= 1.
Definition at_an_end (s1 s2 : lsite) (x y : R) : Prop := (x = ls_x s1 /\ y = ls_y s1) \/ (x = ls_x s2 /\ y = ls_y s2).
(** a point in the zone, lower than the line, which is at one of the sites or not under the ellipse on the map *)
Definition blind_spot (s1 s2 : lsite) (a1 a2 r x y z : R) : Prop :=
  in_zone s1 s2 a1 a2 r x y z /\ z < line_height s1 s2 a1 a2 x y /\ (at_an_end s1 s2 x y \/ ~ under_zone s1 s2 r x y).
