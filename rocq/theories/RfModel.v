(** Link budgets (terragraph_planner/common/rf/link_budget_calculator.py) and the MCS table
    loader (common/data_io/csv_library.py 363-496).  Floats are exact rationals; rounding of
    additions is ignored.  The net gain of a link is a parameter of [link_budget]. *)
From Coq Require Import QArith Qminmax Qround.
From Verif Require Import Base.
Local Open Scope Q_scope.

(** common/structs.py 32-36 *)
Record mcsrow := mkRow { m_mcs : nat; m_snr : Q; m_mbps : Q; m_backoff : Q }.

(** Python's [max(minimum, x)] with an optional minimum *)
Definition at_least (m : option Q) (x : Q) : Q :=
  match m with None => x | Some m => if Qle_bool x m then m else x end.
Definition qmin2 (a b : Q) : Q := if Qle_bool a b then a else b.
Definition qmax2 (a b : Q) : Q := if Qle_bool b a then a else b.

(** link_budget_calculator.py 360-386: maximum_tx_power, minimum_tx_power,
    antenna_boresight_gain and tx_diversity_gain of the sector parameters.  With no pattern the
    extracted gain is boresight + diversity (142-143). *)
Definition get_max_tx_power (maximum : Q) (minimum : option Q) (boresight diversity : Q) (eirp : option Q) : Q :=
  let p := match eirp with
           | None => maximum
           | Some e => qmin2 maximum (e - (boresight + diversity))
           end in
  at_least minimum p.

(** first row with the given class (394-397, 510-512) *)
Fixpoint first_row (m : nat) (t : list mcsrow) : option mcsrow :=
  match t with
  | [] => None
  | r :: t' => if (m_mcs r =? m)%nat then Some r else first_row m t'
  end.
(** 389-398 *)
Definition get_backoff_from_mcs (m : nat) (t : list mcsrow) : Q :=
  match first_row m t with Some r => m_backoff r | None => 0 end.
(** 504-513; mbps_to_gbps 36-37 *)
Definition get_link_capacity_from_mcs (m : nat) (t : list mcsrow) : Q :=
  match first_row m t with Some r => m_mbps r / 1000 | None => 0 end.

(** 464, the dictionary {mcs: snr}: a later row replaces the value of an earlier one *)
Fixpoint set_mcs (m : nat) (s : Q) (d : list (nat * Q)) : list (nat * Q) :=
  match d with
  | [] => [(m, s)]
  | (m', s') :: d' => if (m' =? m)%nat then (m', s) :: d' else (m', s') :: set_mcs m s d'
  end.
Definition mcs_snr_mapping (t : list mcsrow) : list (nat * Q) :=
  fold_left (fun d r => set_mcs (m_mcs r) (m_snr r) d) t [].
(** 482, the dictionary {snr: mcs} *)
Fixpoint set_snr (s : Q) (m : nat) (d : list (Q * nat)) : list (Q * nat) :=
  match d with
  | [] => [(s, m)]
  | (s', m') :: d' => if Qeq_bool s' s then (s', m) :: d' else (s', m') :: set_snr s m d'
  end.
Definition snr_mcs_mapping (t : list mcsrow) : list (Q * nat) :=
  fold_left (fun d r => set_snr (m_snr r) (m_mcs r) d) t [].

(** Python's min and max: ValueError on an empty iterable *)
Definition py_min_q (l : list Q) : result Q :=
  match l with [] => Err PyValueError | x :: r => Ok (fold_left qmin2 r x) end.
Definition py_max_q (l : list Q) : result Q :=
  match l with [] => Err PyValueError | x :: r => Ok (fold_left qmax2 r x) end.
Definition py_min_n (l : list nat) : result nat :=
  match l with [] => Err PyValueError | x :: r => Ok (fold_left Nat.min r x) end.
Definition py_max_n (l : list nat) : result nat :=
  match l with [] => Err PyValueError | x :: r => Ok (fold_left Nat.max r x) end.

(** 452-468; [None] is NaN *)
Definition get_mcs_from_snr (snr : option Q) (t : list mcsrow) : result nat :=
  let d := mcs_snr_mapping t in
  match snr with
  | None => Ok 0%nat
  | Some s =>
    do lo <- py_min_q (map snd d) ;
    if negb (Qle_bool lo s) then Ok 0%nat
    else py_max_n (map fst (filter (fun p => Qle_bool (snd p) s) d))
  end.

(** 471-487 *)
Definition get_snr_from_mcs (m : nat) (t : list mcsrow) : result Q :=
  let d := snr_mcs_mapping t in
  do lo <- py_min_n (map snd d) ;
  if (m <? lo)%nat then Ok 0
  else py_max_q (map fst (filter (fun p => (snd p <=? m)%nat) d)).

(** 401-426: the power needed for class [m] (417-421) and the descending loop; [None] is -inf *)
Definition power_for (minimum : option Q) (gain noise snr : Q) : Q :=
  at_least minimum (snr + noise - gain).
Fixpoint adjust_tx_power_with_backoff (m : nat) (t : list mcsrow) (minimum : option Q)
    (max_tx gain noise : Q) : result (nat * option Q) :=
  match m with
  | O => Ok (0%nat, None)
  | S m' =>
    do snr <- get_snr_from_mcs m t ;
    let p := power_for minimum gain noise snr in
    if Qle_bool p (max_tx - get_backoff_from_mcs m t) then Ok (m, Some p)
    else adjust_tx_power_with_backoff m' t minimum max_tx gain noise
  end.

(** LinkBudgetMeasurements *)
Record budget := mkBudget { b_mcs : nat; b_rsl : Q; b_snr : Q; b_capacity : Q; b_tx : Q }.
(** 516-602, after the net gain (556-566) and the noise power (567) have been computed *)
Definition link_budget (max_tx : Q) (minimum : option Q) (gain noise : Q) (t : list mcsrow) : result budget :=
  do m0 <- get_mcs_from_snr (Some (max_tx + gain - noise)) t ;
  do mp <- adjust_tx_power_with_backoff m0 t minimum max_tx gain noise ;
  let m := fst mp in
  let tx := max_tx - get_backoff_from_mcs m t in
  Ok (mkBudget m (tx + gain) (tx + gain - noise) (get_link_capacity_from_mcs m t) tx).

(** ** The MCS table loader, csv_library.py 363-496.  The csv reader, [casefold().strip()] and
    [float()] are parameters; [raw] is what the csv reader produced, [None] a reader error. *)
Fixpoint prefix_of (p s : string) : bool :=
  match p, s with
  | EmptyString, _ => true
  | String a p', String b s' => Ascii.eqb a b && prefix_of p' s'
  | _, _ => false
  end.
(** Python's [p in s] on strings *)
Fixpoint contains (p s : string) : bool :=
  prefix_of p s || match s with EmptyString => false | String _ s' => contains p s' end.

Fixpoint indices_from (k : nat) (f : string -> bool) (l : list string) : list nat :=
  match l with
  | [] => []
  | x :: r => if f x then k :: indices_from (S k) f r else indices_from (S k) f r
  end.
Definition expected_keys : list string := ["mcs"; "snr"; "mbps"; "tx_backoff"]%string.

Fixpoint all_ok {A B} (f : A -> result B) (l : list A) : result (list B) :=
  match l with
  | [] => Ok []
  | x :: r => do y <- f x ; do ys <- all_ok f r ; Ok (y :: ys)
  end.

(** 450-455: the stable sort of [enumerate(lst)] by value *)
Fixpoint insert_by (x : nat * Q) (l : list (nat * Q)) : list (nat * Q) :=
  match l with
  | [] => [x]
  | y :: r => if Qle_bool (snd x) (snd y) then x :: y :: r else y :: insert_by x r
  end.
Definition sort_by (l : list (nat * Q)) : list (nat * Q) := fold_right insert_by [] l.
Fixpoint enum_from {A} (k : nat) (l : list A) : list (nat * A) :=
  match l with [] => [] | x :: r => (k, x) :: enum_from (S k) r end.
Definition get_ordering (l : list Q) : list nat := map fst (sort_by (enum_from 0 l)).

Definition same_order (a b : list nat) : bool := if list_eq_dec Nat.eq_dec a b then true else false.

(** one data row, as four numbers: class, SNR, throughput, backoff *)
Record nrow := mkN { n_mcs : Q; n_snr : Q; n_mbps : Q; n_backoff : Q }.

(** Python's int(): truncation towards zero.  Classes are natural numbers in the model. *)
Definition trunc (q : Q) : nat := Z.to_nat (if Qle_bool 0 q then Qfloor q else Qceiling q).

Section Loader.
Variable norm : string -> string.          (* name.casefold().strip() *)
Variable to_float : string -> option Q.    (* float(text), None when it raises *)

Fixpoint set_nth_row (l : list (list string)) (v : string) : list (list string) :=
  match l with [] => [] | r :: l' => (r ++ [v])%list :: set_nth_row l' v end.

(** 396-403 *)
Definition with_backoff (header : list string) (rows : list (list string)) : list string * list (list string) :=
  let names := map norm header in
  if mem "tx_backoff"%string names then (names, rows)
  else ((names ++ ["tx_backoff"%string])%list, set_nth_row rows "0").

(** 417-436 *)
Definition find_columns (names : list string) : result (nat * nat * (nat * nat)) :=
  match indices_from 0 (contains "mcs") names, indices_from 0 (contains "snr") names,
        indices_from 0 (contains "mbps") names, indices_from 0 (contains "tx_backoff") names with
  | [a], [b], [c], [d] =>
    if beq a b || beq a c || beq a d || beq b c || beq b d || beq c d then Err DataExn else Ok (a, b, (c, d))
  | _, _, _, _ => Err DataExn
  end.

Definition cell (row : list string) (i : nat) : result Q :=
  match nth_error row i with
  | None => Err PyIndexError
  | Some s => match to_float s with Some q => Ok q | None => Err DataExn end
  end.
(** 439-453 *)
Definition parse_row (cols : nat * nat * (nat * nat)) (row : list string) : result nrow :=
  let '(a, b, (c, d)) := cols in
  do x <- cell row a ; do y <- cell row b ; do z <- cell row c ; do w <- cell row d ;
  Ok (mkN x y z w).

(** 455-496 on the parsed rows *)
Definition allowed_row (maximum : Q) (minimum : option Q) (min_mcs : option Q) (r : nrow) : bool :=
  match minimum with None => true | Some p => Qle_bool p (maximum - n_backoff r) end
  && match min_mcs with None => true | Some m => Qle_bool m (n_mcs r) end.
Definition to_row (r : nrow) : mcsrow := mkRow (trunc (n_mcs r)) (n_snr r) (n_mbps r) (n_backoff r).
Definition check_table (maximum : Q) (minimum : option Q) (min_mcs : option Q) (rows : list nrow)
  : result (list mcsrow) :=
  let o := get_ordering (map n_mcs rows) in
  if negb (same_order o (get_ordering (map n_snr rows)) && same_order o (get_ordering (map n_mbps rows))
           && same_order o (get_ordering (map n_backoff rows))) then Err DataExn
  else
    do _ <- match min_mcs with
            | None => Ok tt
            | Some m => do top <- py_max_q (map n_mcs rows) ; if Qle_bool m top then Ok tt else Err DataExn
            end ;
    Ok (map to_row (filter (allowed_row maximum minimum min_mcs) rows)).

(** 363-496 *)
Definition read_mcs_table (raw : option (list (list string))) (maximum : Q) (minimum min_mcs : option Q)
  : result (list mcsrow) :=
  match raw with
  | None => Err DataExn
  | Some [] => Err DataExn
  | Some (header :: rows) =>
    let '(names, rows') := with_backoff header rows in
    if negb (forallb (fun r => (List.length r =? 4)%nat) (names :: rows')) then Err DataExn
    else
      do cols <- find_columns names ;
      do nrows <- all_ok (parse_row cols) rows' ;
      check_table maximum minimum min_mcs nrows
  end.
End Loader.
