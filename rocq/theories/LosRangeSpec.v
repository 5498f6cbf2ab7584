(** What C20 and C21 mean. *)
From Coq Require Import QArith.
From Verif Require Import Base Dict RfModel LosRangeModel.
Local Open Scope Z_scope.

(** the link has some capacity at distance [d], or none *)
Definition closes_at (capacity : Z -> result Q) (d : Z) : Prop := exists c, capacity d = Ok c /\ (0 < c)%Q.
Definition dead_at (capacity : Z -> result Q) (d : Z) : Prop := exists c, capacity d = Ok c /\ (c <= 0)%Q.
Definition total_on (capacity : Z -> result Q) (lo hi : Z) : Prop := forall d, lo <= d <= hi -> exists c, capacity d = Ok c.
(** a link that is dead at some distance is dead at every larger one *)
Definition monotone_on (capacity : Z -> result Q) (lo hi : Z) : Prop :=
  forall d d', lo <= d -> d <= d' -> d' <= hi -> dead_at capacity d -> dead_at capacity d'.

Definition distinct_skus (l : list device) : Prop := NoDup (map dv_sku l).
(** the range of a pair of devices: between two DNs the larger of the two directions; never more
    than the bound *)
Definition limited (bound : option Z) (x : Z) : Z := match bound with None => x | Some b => Z.min x b end.
Definition pair_range (one_way : device -> device -> Z) (tx rx : device) : Z :=
  match dv_type rx with DevDN => Z.max (one_way tx rx) (one_way rx tx) | DevCN => one_way tx rx end.
