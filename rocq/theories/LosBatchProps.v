(** Property theorems C22; vocabulary in LosBatchSpec.v. *)
From Coq Require Import QArith.
From Verif Require Import Base LosBatchModel LosBatchSpec LosBatchProofs.

Theorem C22_batches_give_the_direct_answer : forall confidence sites size finish l, (0 < size)%nat ->
  symmetric confidence -> positional confidence sites -> in_range sites l -> all_finish (List.length (batches size l)) finish ->
  compute_los confidence sites size finish l = Ok (direct confidence sites l).
Proof. exact compute_los_direct. Qed.
Print Assumptions C22_batches_give_the_direct_answer.
Theorem C22_batches_split_the_candidates : forall size l, (0 < size)%nat -> List.concat (batches size l) = l.
Proof. exact batches_concat. Qed.
Print Assumptions C22_batches_split_the_candidates.
(** the candidates of a site list are within it, and the links found are exactly those from a POP or DN
    to another site, POP to POP excepted, with an input or detected site at one end and positive
    confidence *)
Theorem C22_links_found : forall confidence sites types n finish, List.length types = List.length sites ->
  symmetric confidence -> positional confidence sites -> all_finish (List.length (batches BATCH_SIZE (candidate_links types n))) finish ->
  exists out, compute_los confidence sites BATCH_SIZE finish (candidate_links types n) = Ok out /\
  forall tx rx q, In (mkValid tx rx q) out <->
    (exists a b, nth_error types tx = Some a /\ nth_error types rx = Some b /\ a <> CN /\ ~ (a = POP /\ b = POP)) /\
    tx <> rx /\ (Nat.min tx rx < n)%nat /\ q = confidence (site_at sites tx) (site_at sites rx) /\ (0 < q)%Q.
Proof.
  intros. eexists. split; [eapply compute_los_direct; eauto using candidates_in_range; exact (Nat.lt_0_succ _)|]. intros. eapply found_links_iff; eauto.
Qed.
Print Assumptions C22_links_found.
(** four sites, two of them at the same place; the second batch finishes first; batches of two *)
Example C22_hypotheses_met :
  let sites := [mkLSite (0, 0, 0)%Q None false; mkLSite (1, 0, 0)%Q None false; mkLSite (1, 0, 0)%Q None false; mkLSite (0, 0, 0)%Q None false] in
  let conf := fun a b => if beq (ls_pos a) (ls_pos b) then 0%Q else 1%Q in
  let l := candidate_links [POP; DN; CN; DN] 4 in
  symmetric conf /\ positional conf sites /\ in_range sites l /\ all_finish (List.length (batches 2 l)) [2; 1; 0]%nat /\
  List.length l = 6%nat /\ compute_los conf sites 2 [2; 1; 0]%nat l =
    Ok [mkValid 0 1 1; mkValid 1 0 1; mkValid 0 2 1; mkValid 1 3 1; mkValid 3 1 1; mkValid 3 2 1].
Proof.
  intros sites conf l. split; [intros a b; unfold conf; now rewrite beq_sym|]. split; [intros a b a' b' _ _ _ _ E1 E2; unfold conf; now rewrite E1, E2|].
  split; [now apply candidates_in_range|]. split; [intros i Hi; change (List.length (batches 2 l)) with 3%nat in Hi; cbn; lia|]. split; vm_compute; reflexivity.
Qed.
(** the positions are the whole key of the memo: were the confidence to differ for two sites at the same
    place, for instance because only one of them is on the building of the other end, the first answer
    would be used for both *)
Example C22_memo_key_is_the_position :
  let sites := [mkLSite (0, 0, 0)%Q (Some 1%Z) true; mkLSite (1, 0, 0)%Q (Some 1%Z) true; mkLSite (1, 0, 0)%Q (Some 2%Z) true] in
  let conf := fun a b => if beq (ls_building a) (ls_building b) then 0%Q else 1%Q in
  let l := [mkCand 0 1 false; mkCand 0 2 false] in
  direct conf sites l = [mkValid 0 2 1] /\ compute_los conf sites 1000 [0%nat] l = Ok [].
Proof. split; vm_compute; reflexivity. Qed.
