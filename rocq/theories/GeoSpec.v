(** What C10-C12 mean. *)
From Coq Require Import QArith.
From Verif Require Import Base GeoModel.
Local Open Scope Q_scope.

(** [r] is the representative of [d] modulo 360 in (-180, 180]. *)
Definition signed_angle (d r : Q) : Prop := (exists z : Z, r == d + 360 * inject_Z z) /\ -(180) < r /\ r <= 180.

(** A decoder for geohashes: each character stands for five bits of its position in the
    alphabet, the bits go alternately to longitude and latitude. *)
Fixpoint index_in (c : ascii) (s : string) : option nat :=
  match s with
  | EmptyString => None
  | String d r => if Ascii.eqb c d then Some O else option_map S (index_in c r)
  end.
Definition five_bits (n : nat) : list bool :=
  [Nat.testbit n 4; Nat.testbit n 3; Nat.testbit n 2; Nat.testbit n 1; Nat.testbit n 0].
Fixpoint hash_bits (s : string) : option (list bool) :=
  match s with
  | EmptyString => Some []
  | String c r =>
    match index_in c seed, hash_bits r with
    | Some n, Some l => Some (five_bits n ++ l)
    | _, _ => None
    end
  end.
Definition bit (b : bool) : Z := if b then 1%Z else 0%Z.
Fixpoint deinterleave (to_lat : bool) (l : list bool) (kx ky : Z) : Z * Z :=
  match l with
  | [] => (kx, ky)
  | b :: r => if to_lat then deinterleave false r kx (2 * ky + bit b) else deinterleave true r (2 * kx + bit b) ky
  end.
(** column and row of the named cell *)
Definition decode (s : string) : option (Z * Z) :=
  option_map (fun l => deinterleave false l 0 0) (hash_bits s).

Definition divisions : Z := 33554432. (* 2^25 *)
(** [x] lies in part [k] of 2^25 equal parts of [lo, lo + size]; parts are half open,
    except that the last one includes the end of the range. *)
Definition in_part (lo size : Q) (k : Z) (x : Q) : Prop :=
  (0 <= k < divisions)%Z /\
  lo + size * inject_Z k / inject_Z divisions <= x /\
  (x < lo + size * (inject_Z k + 1) / inject_Z divisions \/ (k = divisions - 1)%Z /\ x == lo + size).
(** the point is in the cell named by [s] *)
Definition in_cell (s : string) (lat lon : Q) : Prop :=
  exists kx ky, decode s = Some (kx, ky) /\ in_part (-(180)) 360 kx lon /\ in_part (-(90)) 180 ky lat.
Definition valid_point (lat lon : Q) : Prop := -(90) <= lat /\ lat <= 90 /\ -(180) <= lon /\ lon <= 180.
