(** Geographic helpers (terragraph_planner/common/geos.py).  Floats are exact rationals.
    For the geohash this is exact: all cell borders are dyadic multiples of 45 with fewer
    than 53 bits.  For the other functions rounding of one addition is ignored. *)
From Coq Require Import QArith Qround.
From Verif Require Import Base.
Local Open Scope Q_scope.

(** geos.py 175-183 *)
Definition utm_zone (lon : Q) : Z := (Qfloor ((lon + 180) / 6) mod 60 + 1)%Z.
(** geos.py 186-197 *)
Definition angle_delta (a1 a2 : Q) : Q :=
  let dev := a1 - a2 in
  if negb (Qle_bool dev 180) then dev - 360
  else if Qle_bool dev (-(180)) then dev + 360
  else dev.
(** geos.py 200-205 *)
Definition utm_epsg (lat lon : Q) : Z :=
  let band := utm_zone lon in if Qle_bool 0 lat then (32600 + band)%Z else (32700 + band)%Z.

(** geos.py 25 *)
Definition seed : string := "0123456789abcdefghijklmnopqrstuv".
(** geos.py 222-248: [odd_bit], [lat_range], [lon_range] *)
Record gstate := mkG { g_odd : bool; g_lat : Q * Q; g_lon : Q * Q }.
(** 231-236 and 240-245: split a range at its centre; the bit is set for the upper half *)
Definition halve (x : Q) (r : Q * Q) : (Q * Q) * bool :=
  let center := (fst r + snd r) / 2 in
  if negb (Qle_bool center x) then ((fst r, center), false) else ((center, snd r), true).
Definition bit_step (lat lon : Q) (st : gstate) : gstate * bool :=
  if g_odd st
  then let '(r, b) := halve lat (g_lat st) in (mkG (negb (g_odd st)) r (g_lon st), b)
  else let '(r, b) := halve lon (g_lon st) in (mkG (negb (g_odd st)) (g_lat st) r, b).
(** 227-247: one character *)
Fixpoint char_loop (bitvals : list nat) (lat lon : Q) (st : gstate) (character_bits : nat) : gstate * nat :=
  match bitvals with
  | [] => (st, character_bits)
  | bit :: r =>
    let '(st', b) := bit_step lat lon st in
    char_loop r lat lon st' (if b then Nat.lor character_bits bit else character_bits)
  end.
Definition bitvals : list nat := [16; 8; 4; 2; 1]%nat.
(** 225-249 *)
Fixpoint hash_loop (n : nat) (lat lon : Q) (st : gstate) (acc : string) : result string :=
  match n with
  | O => Ok acc
  | S m =>
    let '(st', cb) := char_loop bitvals lat lon st 0 in
    match String.get cb seed with
    | None => Err PyIndexError
    | Some c => hash_loop m lat lon st' (acc ++ String c EmptyString)
    end
  end.
(** geos.py 208-251; LAT_LON_TO_GEO_HASH_PRECISION = 10 (constants.py 20) *)
Definition geo_hash (lat lon : Q) : result string :=
  if negb (Qle_bool (-(90)) lat && Qle_bool lat 90) then Err DataExn
  else if negb (Qle_bool (-(180)) lon && Qle_bool lon 180) then Err DataExn
  else hash_loop 10 lat lon (mkG false (-(90), 90) (-(180), 180)) "".

(** ** GeoLocation (geos.py 28-153).  The projections of pyproj are parameters. *)
Record geoloc := mkLoc { gl_lat : option Q; gl_lon : option Q; gl_x : option Q; gl_y : option Q;
                         gl_epsg : option Z; gl_alt : option Q }.
Definition lat_ok (lat : Q) : bool := Qle_bool (-(90)) lat && Qle_bool lat 90.
Definition lon_ok (lon : Q) : bool := Qle_bool (-(180)) lon && Qle_bool lon 180.
Definition epsg_ok (e : Z) : bool := ((32600 <? e)%Z && (e <=? 32660)%Z) || ((32700 <? e)%Z && (e <=? 32760)%Z).
(** geos.py 34-78 *)
Definition make_loc (lat lon x y : option Q) (e : option Z) (alt : option Q) : result geoloc :=
  match lat, lon, x, y, e with
  | Some la, Some lo, _, _, _ =>
    if negb (lat_ok la) then Err DataExn else if negb (lon_ok lo) then Err DataExn
    else Ok (mkLoc lat lon None None None alt)
  | _, _, Some _, Some _, Some ep =>
    if epsg_ok ep then Ok (mkLoc None None x y e alt) else Err DataExn
  | _, _, _, _, _ => Err DataExn
  end.
(** An override of [copy]: absent, or present with a value (possibly None). *)
Definition over {A} (o : option (option A)) (dflt : option A) : option A := match o with None => dflt | Some v => v end.
Record overrides := mkOver { o_lat : option (option Q); o_lon : option (option Q); o_x : option (option Q);
  o_y : option (option Q); o_epsg : option (option Z); o_alt : option (option Q) }.
Definition no_overrides := mkOver None None None None None None.
Definition only_altitude (a : option Q) := mkOver None None None None None (Some a).
Definition only_x (x : Q) := mkOver None None (Some (Some x)) None None None.
(** geos.py 109-129 *)
Definition copy_loc (g : geoloc) (o : overrides) : result geoloc :=
  make_loc (over (o_lat o) (gl_lat g)) (over (o_lon o) (gl_lon g)) (over (o_x o) (gl_x g)) (over (o_y o) (gl_y g))
           (over (o_epsg o) (gl_epsg g)) (over (o_alt o) (gl_alt g)).
Section Projections.
  Variable to_ll : Z -> Q -> Q -> Q * Q.     (* epsg, x, y -> longitude, latitude *)
  Variable to_utm : Z -> Q -> Q -> Q * Q.    (* epsg, longitude, latitude -> x, y *)
  (** reading [latitude]/[longitude]: geos.py 80-90, 131-137 *)
  Definition read_ll (g : geoloc) : result (Q * Q) * geoloc :=
    match gl_lat g, gl_lon g with
    | Some la, Some lo => (Ok (la, lo), g)
    | _, _ =>
      match gl_x g, gl_y g, gl_epsg g with
      | Some x, Some y, Some e =>
        let '(lo, la) := to_ll e x y in
        (Ok (la, lo), mkLoc (Some la) (Some lo) (gl_x g) (gl_y g) (gl_epsg g) (gl_alt g))
      | _, _, _ => (Err PyAssertion, g)
      end
    end.
  (** reading [utm_x]/[utm_y]/[utm_epsg]: geos.py 92-108, 143-150 *)
  Definition read_utm (g : geoloc) : result (Q * Q * Z) * geoloc :=
    match gl_x g, gl_y g, gl_epsg g with
    | Some x, Some y, Some e => (Ok (x, y, e), g)
    | _, _, _ =>
      match gl_lat g, gl_lon g with
      | Some la, Some lo =>
        let e := utm_epsg la lo in
        let '(x, y) := to_utm e lo la in
        (Ok (x, y, e), mkLoc (gl_lat g) (gl_lon g) (Some x) (Some y) (Some e) (gl_alt g))
      | _, _ => (Err PyAssertion, g)
      end
    end.
End Projections.
