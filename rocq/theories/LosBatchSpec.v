(** What C22 means: one evaluation per candidate, in order. *)
From Coq Require Import QArith.
From Verif Require Import Base LosBatchModel.

(** the candidates name existing sites *)
Definition in_range (sites : list lsite) (l : list candidate) : Prop :=
  forall c, In c l -> (c_first c < List.length sites)%nat /\ (c_second c < List.length sites)%nat.
Definition no_site : lsite := mkLSite (0%Q, 0%Q, 0%Q) None false.
Definition site_at (sites : list lsite) (i : nat) : lsite := nth i sites no_site.
(** the links a candidate stands for *)
Definition links_of (confidence : lsite -> lsite -> Q) (sites : list lsite) (c : candidate) : list valid :=
  let q := confidence (site_at sites (c_first c)) (site_at sites (c_second c)) in
  if Qlt_le_dec 0 q
  then mkValid (c_first c) (c_second c) q :: (if c_both c then [mkValid (c_second c) (c_first c) q] else [])
  else [].
Definition direct (confidence : lsite -> lsite -> Q) (sites : list lsite) (l : list candidate) : list valid :=
  flat_map (links_of confidence sites) l.
(** confidence does not depend on the direction, and only on the two positions *)
Definition symmetric (confidence : lsite -> lsite -> Q) : Prop := forall a b, confidence a b = confidence b a.
Definition positional (confidence : lsite -> lsite -> Q) (sites : list lsite) : Prop :=
  forall a b a' b', In a sites -> In b sites -> In a' sites -> In b' sites ->
    ls_pos a = ls_pos a' -> ls_pos b = ls_pos b' -> confidence a b = confidence a' b'.
(** every batch finishes, in any order and possibly more than once *)
Definition all_finish (n : nat) (finish : list nat) : Prop := forall i, (i < n)%nat -> In i finish.
