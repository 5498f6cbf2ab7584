(** Computing line-of-sight links in batches (terragraph_planner/los/core.py 238-355 and
    los/helper.py 491-579), and the choice of candidate links (helper.py 279-296).  The validator's
    [compute_confidence] is a parameter; floats are exact rationals. *)
From Coq Require Import QArith.
From Verif Require Import Base Dict.

(** LOSSite (common/structs.py): the position and what else the validator looks at (location type and
    building id) *)
Definition position := (Q * Q * Q)%type.
Definition q_beq (x y : Q) : bool := Z.eqb (Qnum x) (Qnum y) && Pos.eqb (Qden x) (Qden y).
Lemma q_beq_spec x y : reflect (x = y) (q_beq x y).
Proof.
  unfold q_beq. destruct x as [a b], y as [c d]; simpl. destruct (Z.eqb_spec a c); destruct (Pos.eqb_spec b d); simpl; constructor; congruence.
Qed.
(** Python compares floats by value; a float is represented by a rational in lowest terms, so that
    equal values are equal as terms *)
#[global] Instance EqB_Q : EqB Q := {| beq := q_beq; beq_spec := q_beq_spec |}.
Record lsite := mkLSite { ls_pos : position; ls_building : option Z; ls_rooftop : bool }.
(** CandidateLOS and ValidLOS *)
Record candidate := mkCand { c_first : nat; c_second : nat; c_both : bool }.
Record valid := mkValid { v_tx : nat; v_rx : nat; v_conf : Q }.

(** [l[i]] *)
Definition at_index {A} (l : list A) (i : nat) : result A := match nth_error l i with Some x => Ok x | None => Err PyIndexError end.

(** los/constants.py: BI_DIRECTIONAL_LINKS and DIRECTED_LINKS *)
Definition bi_directional (a b : site_type) : bool :=
  match a, b with POP, DN | DN, DN | DN, POP => true | _, _ => false end.
Definition directed (a b : site_type) : bool := match a, b with POP, CN | DN, CN => true | _, _ => false end.
(** helper.py 285-296: [types] are the types of all sites, the first [n] of them input or detected
    sites, the rest sites of the base topology *)
Definition pair_candidate (types : list site_type) (i j : nat) : list candidate :=
  match nth_error types i, nth_error types j with
  | Some a, Some b =>
    if bi_directional a b then [mkCand i j true]
    else if directed a b then [mkCand i j false]
    else if directed b a then [mkCand j i false] else []
  | _, _ => []
  end.
Definition candidate_links (types : list site_type) (n : nat) : list candidate :=
  flat_map (fun i => flat_map (fun j => pair_candidate types i j) (seq (S i) (List.length types - S i))) (seq 0 n).

Section Compute.
Variable confidence : lsite -> lsite -> Q.
Variable sites : list lsite.
(** helper.py 563-578: the links of one candidate *)
Definition found (c : candidate) (q : Q) : list valid :=
  if Qle_bool q 0 then []
  else mkValid (c_first c) (c_second c) q :: (if c_both c then [mkValid (c_second c) (c_first c) q] else []).
Notation memo := (dict (position * position) Q).
(** 551-578, one pass of the loop *)
Definition batch_step (acc : memo * list valid) (c : candidate) : result (memo * list valid) :=
  let (m, out) := acc in
  do s1 <- at_index sites (c_first c) ;
  do s2 <- at_index sites (c_second c) ;
  let k1 := ls_pos s1 in
  let k2 := ls_pos s2 in
  match dget m (k1, k2) with
  | Some q => Ok (m, out ++ found c q)
  | None =>
    match dget m (k2, k1) with
    | Some q => Ok (m, out ++ found c q)
    | None => let q := confidence s1 s2 in Ok (dset m (k1, k2) q, out ++ found c q)
    end
  end.
Fixpoint batch_loop (acc : memo * list valid) (l : list candidate) : result (list valid) :=
  match l with [] => Ok (snd acc) | c :: l' => do a <- batch_step acc c ; batch_loop a l' end.
(** 491-579 *)
Definition compute_los_batch (l : list candidate) : result (list valid) := batch_loop ([], []) l.

(** core.py 334-345: slice number [i] and all slices; [ceil(len / size)] *)
Definition slice (size : nat) (l : list candidate) (i : nat) : list candidate :=
  let hi := Nat.min ((i + 1) * size) (List.length l) in firstn (hi - i * size) (skipn (i * size) l).
Definition batches (size : nat) (l : list candidate) : list (list candidate) :=
  map (slice size l) (seq 0 ((List.length l + size - 1) / size)).
(** [Pool.map] (core.py 295-346): the workers finish in the order [finish]; each writes its result
    in its own slot, and the slots are read in order.  An exception in a worker is raised. *)
Fixpoint set_slot {A} (l : list A) (i : nat) (a : A) : list A :=
  match l, i with [] , _ => [] | _ :: l', O => a :: l' | x :: l', S i' => x :: set_slot l' i' a end.
Definition pool_run {A B} (f : A -> result B) (xs : list A) (finish : list nat) : list (option (result B)) :=
  fold_left (fun slots i => match nth_error xs i with Some x => set_slot slots i (Some (f x)) | None => slots end)
    finish (map (fun _ => None) xs).
Fixpoint read_slots {B} (l : list (option (result B))) : result (list B) :=
  match l with
  | [] => Ok []
  | None :: _ => Err OutOfFuel
  | Some r :: l' => do b <- r ; do bs <- read_slots l' ; Ok (b :: bs)
  end.
Definition compute_los (size : nat) (finish : list nat) (l : list candidate) : result (list valid) :=
  do rs <- read_slots (pool_run compute_los_batch (batches size l) finish) ;
  Ok (List.concat rs).
End Compute.
(** los/constants.py *)
Definition BATCH_SIZE : nat := 1000.
