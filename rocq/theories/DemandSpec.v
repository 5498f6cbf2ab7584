(** What demand generation promises, independently of the loops that compute it. *)
From Coq Require Import QArith ZArith.
From Verif Require Import Base Dict TopologyModel SetupModel DemandModel.
Local Open Scope list_scope.

Section DemandSpec.
Variable did : Z -> Z -> string.
Variable dist : Z -> Z -> Z -> Z -> Q.
Variables (rooftop : string -> bool) (building : string -> option Z).
Variable deg : Z.
Variable sites : dict string site.

(** a place is given by latitude and longitude *)
Definition lies_at (s : site) (lat lon : Z) : Prop := exists alt, s_loc s = (lat, lon, alt).
Definition within (radius : Q) (lat lon : Z) (i : string) : Prop :=
  exists s slat slon, In (i, s) sites /\ lies_at s slat slon /\ (dist slon slat lon lat <= radius)%Q.
Definition cn_at (lat lon : Z) (i : string) : Prop := exists s, In (i, s) sites /\ s_type s = CN /\ lies_at s lat lon.

(** a CN and a DN or POP that can be wired to the same demand: same location, or same known building *)
Definition same_building (i j : string) : Prop :=
  rooftop i = true /\ rooftop j = true /\ exists b, building i = Some b /\ building j = Some b /\ (0 <= b)%Z.
Definition shares (i j : string) : Prop :=
  exists s s', In (i, s) sites /\ In (j, s') sites /\ s_type s = CN /\ s_type s' <> CN /\ (s_loc s = s_loc s' \/ same_building i j).

(** the points of the uniform grid: columns [left + i dx] up to [right], counted across the antimeridian when
    the area crosses it; rows [bottom + j dy] up to [top] *)
Definition grid_lon (am : bool) (left dx right lon : Z) : Prop :=
  exists i : nat, let u := (left + Z.of_nat i * dx)%Z in
    ((u <= if am then right + 360 * deg else right) /\ lon = (if 180 * deg <? u then u - 360 * deg else u))%Z.
Definition grid_lat (bottom dy top lat : Z) : Prop :=
  exists j : nat, (lat = bottom + Z.of_nat j * dy /\ lat <= top)%Z.

(** [x] is the least / greatest of the values satisfying [P] *)
Definition least (P : Z -> Prop) (x : Z) : Prop := P x /\ forall y, P y -> (x <= y)%Z.
Definition greatest (P : Z -> Prop) (x : Z) : Prop := P x /\ forall y, P y -> (y <= x)%Z.
Definition some_lon (x : Z) : Prop := exists i s lat, In (i, s) sites /\ lies_at s lat x.
Definition some_lat (x : Z) : Prop := exists i s lon, In (i, s) sites /\ lies_at s x lon.
(** the area of the sites; across the antimeridian its west end is the least eastern longitude *)
Definition crosses : Prop := (exists x, some_lon x /\ (175 * deg <= x)%Z) /\ (exists x, some_lon x /\ (x <= -175 * deg)%Z).
Definition area (am : bool) (left right bottom top : Z) : Prop :=
  (am = true <-> crosses)
  /\ least (fun x => some_lon x /\ (am = true -> 175 * deg <= x)%Z) left
  /\ greatest (fun x => some_lon x /\ (am = true -> x <= -175 * deg)%Z) right
  /\ least some_lat bottom /\ greatest some_lat top.
Definition grid_point (deltas : Z -> Z -> Q -> Z * Z) (spacing : Q) (lat lon : Z) : Prop :=
  exists am left right bottom top dx dy, area am left right bottom top /\ deltas left bottom spacing = (dx, dy)
    /\ grid_lon am (left - dx) dx (right + dx) lon /\ grid_lat (bottom - dy) dy (top + dy) lat.

(** the grid is laid out with positive steps, small against the globe, and does not reach beyond 180 degrees unless
    the area itself crosses the antimeridian *)
Definition roomy (deltas : Z -> Z -> Q -> Z * Z) (spacing : Q) : Prop :=
  (0 < deg)%Z /\ (forall x, some_lon x -> (-180 * deg <= x <= 180 * deg)%Z)
  /\ forall am left right bottom top dx dy, area am left right bottom top -> deltas left bottom spacing = (dx, dy) ->
    (0 < dx < 100 * deg /\ 0 < dy /\ (am = false -> right + 2 * dx <= 180 * deg))%Z.
(** its corners are valid coordinates *)
Definition on_globe (deltas : Z -> Z -> Q -> Z * Z) (spacing : Q) : Prop :=
  sites <> [] /\ forall am left right bottom top dx dy, area am left right bottom top -> deltas left bottom spacing = (dx, dy) ->
    (-90 * deg <= bottom - dy /\ top + dy <= 90 * deg /\ -180 * deg <= left - dx)%Z.

(** the demand sites that should exist, with the sites they are first connected to *)
Definition from_cn (p : dparams) (k : string) (lat lon : Z) (base : string -> Prop) : Prop :=
  p_cn p = true /\ k = did lat lon /\ (exists i, cn_at lat lon i) /\ base = cn_at lat lon.
Definition from_manual (p : dparams) (D0 : dict string dsite) (k : string) (lat lon : Z) (base : string -> Prop) : Prop :=
  p_manual p = true /\ (exists d, In (k, d) D0 /\ q_lat d = lat /\ q_lon d = lon) /\ base = within (p_radius p) lat lon.
Definition from_grid (p : dparams) (grid : Z -> Z -> Prop) (k : string) (lat lon : Z) (base : string -> Prop) : Prop :=
  p_uniform p = true /\ k = did lat lon /\ grid lat lon /\ (exists i, within (p_radius p) lat lon i) /\ base = within (p_radius p) lat lon.
Definition expected (p : dparams) (D0 : dict string dsite) (grid : Z -> Z -> Prop) (k : string) (lat lon : Z) (base : string -> Prop) : Prop :=
  from_cn p k lat lon base
  \/ ((forall a b bs, ~ from_cn p k a b bs) /\ (from_manual p D0 k lat lon base \/ from_grid p grid k lat lon base)).
(** the first CN, in the order of the sites, at a place *)
Definition first_cn (lat lon : Z) (i : string) : Prop :=
  exists pre s post, sites = pre ++ (i, s) :: post /\ s_type s = CN /\ lies_at s lat lon
    /\ forall i' s', In (i', s') pre -> s_type s' = CN -> ~ lies_at s' lat lon.
(** the number of subscribers of a demand site: that of the first CN; otherwise 1 for a grid point, and otherwise
    the number loaded with the site *)
Definition number (subscribers : string -> nat) (p : dparams) (D0 : dict string dsite) (grid : Z -> Z -> Prop) (k : string) (n : nat) : Prop :=
  (forall lat lon base, from_cn p k lat lon base -> exists f, first_cn lat lon f /\ n = subscribers f)
  /\ ((forall a b bs, ~ from_cn p k a b bs) ->
      (forall lat lon, p_uniform p = true -> grid lat lon -> k = did lat lon -> n = 1%nat)
      /\ ((forall a b, p_uniform p = true -> grid a b -> k <> did a b) -> forall d0, In (k, d0) D0 -> n = q_num d0)).
(** connected: a first site, or a DN / POP wired together with a first site that is a CN *)
Definition connected (base : string -> Prop) (j : string) : Prop := base j \/ exists i, base i /\ shares i j.

(** demand ids do not collide *)
Definition ids_ok (D0 : dict string dsite) : Prop :=
  dwf D0 /\ (forall a b a' b', did a b = did a' b' -> a = a' /\ b = b')
  /\ (forall k d a b, In (k, d) D0 -> k = did a b -> q_lat d = a /\ q_lon d = b).
End DemandSpec.
Inductive closure (m : string -> string -> Prop) (base : string -> Prop) : string -> Prop :=
| closure_base i : base i -> closure m base i
| closure_step i j : closure m base i -> m i j -> closure m base j.
