(** Examples for C26. *)
From Coq Require Import QArith Qabs.
From Verif Require Import Base Dict TopologyModel TopologySpec LosBatchModel LosPickModel LosPickSpec LosTopoModel LosTopoSpec.
Local Open Scope string_scope.
Local Open Scope list_scope.

Definition ex_site (i : string) (ty : site_type) (st : status) : site := mkSite i ty st (0, 0, 0)%Z UNASSIGNED false.
Definition ex_given (i : string) (ty : site_type) (st : status) : csite := Given (mkDSite (ex_site i ty st) "A").
(** a POP and a CN of the user, and a detected DN with two possible devices *)
Definition lt_sites : list csite := [ex_given "p" POP CANDIDATE; Found DN (fun sku => ex_site (append "d" sku) DN CANDIDATE); ex_given "c" CN CANDIDATE].
Definition lt_rx : list (list nat) := [[1]; [0; 2]; []]%nat.
Definition lt_conf : dict (nat * nat) Q := [((0, 1)%nat, 1%Q); ((1, 0)%nat, 1%Q); ((1, 2)%nat, 1%Q)].
Definition lt_picked : list nat := [0; 1; 2]%nat.
Definition lt_ranges : dict (string * string) Z := [(("A", "A")%string, 200%Z); (("A", "B")%string, 100%Z); (("B", "A")%string, 100%Z); (("B", "B")%string, 100%Z)].
Definition lt_distance (a b : site) : Q := 150.
Definition lt_elevation (a b : site) : Q := -3.
Definition lt_build (base : topo) (sites : list csite) (rx : list (list nat)) (picked : list nat) : result topo :=
  construct_topology_from_los_result ["A"; "B"] ["A"] lt_distance lt_elevation lt_ranges lt_conf 10 25 base sites rx picked.
