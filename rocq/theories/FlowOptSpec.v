(** What C53 means: the flow reported for a planned network. *)
From Coq Require Import QArith.
From Verif Require Import Base Dict TopologyModel SetupModel IlpModel IlpSpec FlowOptModel.
Local Open Scope Q_scope.

(** the flow reported on a link *)
Definition carried (o : flow_solution) (e : edge) : Q := match dget (fs_flow o) e with Some q => q | None => 0 end.
Definition in_network (st : status) : Prop := st = PROPOSED \/ st = EXISTING.
