(** Property theorems C15; vocabulary in PruneSpec.v. *)
From Coq Require Import QArith Lia.
From Verif Require Import Base Dict PruneModel PruneSpec PruneProofs.
Local Open Scope Q_scope.

(** Termination is part of the statement: the result is [Ok], never [OutOfFuel].  What is missing
    from C15 is the last clause for cycles carrying a positive flow of at most epsilon = 1e-5. *)
Theorem C15_prune_loops_partial : forall links locations flows, graph_ok links locations flows ->
  exists fl, prune_loops links locations flows = Ok fl /\ dwf fl /\ defined_on links fl /\
    (forall v, net fl v == net flows v) /\
    (forall e x, dget flows e = Some x -> exists y, dget fl e = Some y /\ y <= x /\ (0 <= x -> 0 <= y)) /\
    (forall e, dget flows e = None -> In e links -> dget fl e = Some 0) /\
    acyclic_above fl epsilon.
Proof. exact prune_loops_ok. Qed.
Print Assumptions C15_prune_loops_partial.

Definition triangle (x : Q) : dict edge Q :=
  [(("a", "b"), 5); (("b", "c"), 3); (("c", "a"), 3); (("c", "d"), x)]%string.
Example C15_example : graph_ok [("a", "b"); ("b", "c"); ("c", "a"); ("c", "d")]%string ["a"; "b"; "c"; "d"]%string (triangle 1) /\
  prune_loops [("a", "b"); ("b", "c"); ("c", "a"); ("c", "d")]%string ["a"; "b"; "c"; "d"]%string (triangle 1)
  = Ok [(("a", "b"), 5 - 3); (("b", "c"), 3 - 3); (("c", "a"), 3 - 3); (("c", "d"), 1)]%string /\ walk (triangle 1) epsilon "a" "a".
Proof.
  split; [|split].
  - split; [|split].
    + repeat constructor; cbn; intuition discriminate.
    + cbn. tauto.
    + cbn. intros e [<-|[<-|[<-|[<-|[]]]]]; cbn; repeat split; auto 10; discriminate.
  - vm_compute. reflexivity.
  - apply walk_cons with "b"%string 5; [reflexivity|reflexivity|].
    apply walk_cons with "c"%string 3; [reflexivity|reflexivity|]. apply walk_one with 3; reflexivity.
Qed.

(** a cycle of flows up to epsilon is left in place *)
Theorem C15_small_cycles_remain_refuted : exists links locations flows fl, graph_ok links locations flows /\
  prune_loops links locations flows = Ok fl /\ ~ acyclic_above fl 0.
Proof.
  exists [("a", "b"); ("b", "a")]%string, ["a"; "b"]%string,
    [(("a", "b"), epsilon); (("b", "a"), epsilon)]%string, [(("a", "b"), epsilon); (("b", "a"), epsilon)]%string.
  split; [|split].
  - split; [|split].
    + repeat constructor; cbn; intuition discriminate.
    + cbn. tauto.
    + cbn. intros e [<-|[<-|[]]]; cbn; repeat split; auto; discriminate.
  - vm_compute. reflexivity.
  - intro A. apply (A "a"%string). apply walk_cons with "b"%string epsilon; [reflexivity|reflexivity|].
    apply walk_one with epsilon; reflexivity.
Qed.
Print Assumptions C15_small_cycles_remain_refuted.

(** The hypothesis that no link joins a location to itself is needed: such a link is reduced twice
    and ends with a negative flow.  The optimisers never reach this case, because
    optimization_setup.py 311 rejects such a link. *)
Theorem C15_self_loop_would_become_negative : exists links locations flows fl x,
  (forall e, In e links -> In (fst e) locations /\ In (snd e) locations) /\
  (forall e y, dget flows e = Some y -> 0 <= y) /\
  prune_loops links locations flows = Ok fl /\ dget fl ("a", "a")%string = Some x /\ x < 0.
Proof.
  exists [("a", "a")]%string, ["a"]%string, [(("a", "a"), 1)]%string. eexists. eexists.
  split; [cbn; intros e [<-|[]]; cbn; auto|]. split.
  - intros e y H. apply dget_In in H. destruct H as [H|[]]. injection H as _ <-. discriminate.
  - split; [vm_compute; reflexivity|]. split; reflexivity.
Qed.
Print Assumptions C15_self_loop_would_become_negative.
