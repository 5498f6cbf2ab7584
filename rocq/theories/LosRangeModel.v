(** Line-of-sight ranges of devices (terragraph_planner/los/helper.py 310-488).  The capacity of a
    link of a given length (fspl_based_estimation) is a parameter. *)
From Coq Require Import QArith.
From Verif Require Import Base Dict RfModel.
Local Open Scope Z_scope.

Section Search.
(** [fspl_based_estimation(distance=d, ...).capacity]; it may raise *)
Variable capacity : Z -> result Q.
(** helper.py 452-488.  The loop 450-467 runs at most [hi - lo] times; running out of fuel is an
    explicit error. *)
Fixpoint search_loop (fuel : nat) (lo hi : Z) : result Z :=
  if lo <? hi then
    match fuel with
    | O => Err OutOfFuel
    | S fuel' =>
      let mid := (lo + hi) / 2 in
      do c <- capacity mid ;
      if negb (Qle_bool c 0) then search_loop fuel' (mid + 1) hi else search_loop fuel' lo mid
    end
  else Ok lo.
Definition search_max_los_dist_based_on_capacity (lo hi : Z) : result (option Z) :=
  do d <- search_loop (Z.to_nat (hi - lo)) lo hi ;
  do c <- capacity d ;
  Ok (if negb (Qle_bool c 0) then None else Some d).
End Search.

(** DeviceData (common/configuration/configs.py 286-334): SKU, type and table; the other sector
    parameters only enter the capacity, through the SKU. *)
Inductive device_type := DevDN | DevCN.
Record device := mkDevice { dv_sku : string; dv_type : device_type; dv_table : list mcsrow }.

(** common/constants.py 22, 26 *)
Definition LOWER_BOUND_FOR_LOS_DISTANCE : Z := 0.
Definition UPPER_BOUND_FOR_LOS_DISTANCE : Z := 10000.

Section Pairs.
(** capacity of a link from the first device to the second with the given table *)
Variable capacity : device -> device -> list mcsrow -> Z -> result Q.
Variable min_dn_dn min_dn_cn : option nat.
Variable bound : option Z.

(** 340-368 *)
Definition restrict (m : option nat) (t : list mcsrow) : result (list mcsrow) :=
  match m with
  | None => Ok t
  | Some m => match filter (fun r => (m <=? m_mcs r)%nat) t with [] => Err ConfigExn | t' => Ok t' end
  end.
Definition usable_table (rx : device) : result (list mcsrow) :=
  match dv_type rx with DevDN => restrict min_dn_dn (dv_table rx) | DevCN => restrict min_dn_cn (dv_table rx) end.
(** 340-383 *)
Definition range (tx rx : device) : result Z :=
  do t <- usable_table rx ;
  do r <- search_max_los_dist_based_on_capacity (capacity tx rx t) LOWER_BOUND_FOR_LOS_DISTANCE UPPER_BOUND_FOR_LOS_DISTANCE ;
  match r with None => Err LOSExn | Some d => Ok d end.
(** 339, 388-406 *)
Definition pair_step (tx : device) (d : dict (string * string) Z) (rx : device) : result (dict (string * string) Z) :=
  do r <- range tx rx ;
  Ok (match dget d (dv_sku rx, dv_sku tx) with
      | Some r' => dset (dset d (dv_sku rx, dv_sku tx) (Z.max r' r)) (dv_sku tx, dv_sku rx) (Z.max r' r)
      | None => dset d (dv_sku tx, dv_sku rx) r
      end).
(** 408-415; only values are replaced *)
Definition clamp (d : dict (string * string) Z) : dict (string * string) Z :=
  match bound with
  | None => d
  | Some b => map (fun p => (fst p, if b <? snd p then b else snd p)) d
  end.
Fixpoint foldM {A S} (f : S -> A -> result S) (s : S) (l : list A) : result S :=
  match l with [] => Ok s | a :: l' => do s' <- f s a ; foldM f s' l' end.
(** 336-415, with the receivers in the order of the whole list *)
Definition tx_step (all : list device) (d : dict (string * string) Z) (tx : device) : result (dict (string * string) Z) :=
  match dv_type tx with
  | DevCN => Ok d
  | DevDN => do d' <- foldM (pair_step tx) d all ; Ok (clamp d')
  end.
(** 310-417.  Computing the transmit power of every device (330-333) cannot fail and is part of
    the capacity. *)
Definition get_max_los_dist_for_device_pairs (all : list device) : result (dict (string * string) Z) :=
  foldM (tx_step all) [] all.
End Pairs.
