(** Property theorems C76 (proposing extra POPs); vocabulary in PopSpec.v. *)
From Coq Require Import QArith.
From Verif Require Import Base Dict TopologyModel TopologySpec GraphSpec SetupModel IlpModel IlpSpec IlpExamples PopModel PopSpec PopProofs PopMainProofs PopExamples.
Local Open Scope Q_scope.

(** The access network: eligible DNs are POPs, only links into CNs are left, and what no POP reaches is
    marked.  It fails exactly when an immutable status is in the way of the marking. *)
Theorem C76_access_network : forall t, reachable t -> exists t0, access_view t t0 /\ well_formed t0 /\
  ((exists ta, access_topology t = Ok ta /\ marked_exactly None t0 ta /\ markable None t0) \/
   (access_topology t = Err TopologyExn /\ ~ markable None t0)).
Proof. exact access_ok. Qed.
Print Assumptions C76_access_network.

(** Every answer chooses as many POPs as asked for, or all that are possible. *)
Theorem C76_number_of_pops : forall ps at_ extra t I P v, reachable t -> names_ok at_ t -> propose_problem ps at_ extra t = Ok (I, P) -> feasible P v ->
  (0 < extra)%nat -> forall ins pos, lists ins (input_pop t) -> lists pos (possible_pop t) ->
  exists sel, lists sel (fun i => selected v i /\ possible_pop t i) /\ List.length sel = Nat.min (extra + List.length ins) (List.length pos).
Proof. exact chosen_number. Qed.
Print Assumptions C76_number_of_pops.

(** At the place of each POP of the input a POP of the input is chosen. *)
Theorem C76_input_pops_are_kept : forall ps at_ extra t I P v, reachable t -> names_ok at_ t -> propose_problem ps at_ extra t = Ok (I, P) -> feasible P v ->
  forall i s, dget (t_sites t) i = Some s -> input_pop t i ->
  exists j sj, dget (t_sites t) j = Some sj /\ same_place sj s /\ input_pop t j /\ selected v j.
Proof. exact inputs_kept. Qed.
Print Assumptions C76_input_pops_are_kept.

(** With the POPs of the input apart from each other, exactly as many new POPs as asked for are chosen,
    or all that are possible.  Without that more may be chosen, see the refutation. *)
Theorem C76_number_of_new_pops_partial : forall ps at_ extra t I P v, reachable t -> names_ok at_ t -> propose_problem ps at_ extra t = Ok (I, P) -> feasible P v ->
  (0 < extra)%nat -> pops_apart t -> forall new pos, lists new (fun i => selected v i /\ eligible t i) -> lists pos (usable_dn t) ->
  List.length new = Nat.min extra (List.length pos).
Proof. exact new_number. Qed.
Print Assumptions C76_number_of_new_pops_partial.

Theorem C76_one_site_per_place : forall ps at_ extra t I P v, reachable t -> names_ok at_ t -> propose_problem ps at_ extra t = Ok (I, P) -> feasible P v ->
  forall i j si sj, selected v i -> selected v j -> dget (t_sites t) i = Some si -> dget (t_sites t) j = Some sj -> same_place si sj -> i = j.
Proof. exact one_per_place. Qed.
Print Assumptions C76_one_site_per_place.

(** DNs already in use, alone at their places, are all chosen; so there is an answer only if they are
    at most as many as the extra POPs. *)
Theorem C76_sites_in_use_are_chosen : forall ps at_ extra t I P v, reachable t -> names_ok at_ t -> propose_problem ps at_ extra t = Ok (I, P) -> feasible P v ->
  forall i, usable_dn t i -> proposed_or_existing t i -> lone t i -> selected v i.
Proof. exact in_use_chosen. Qed.
Print Assumptions C76_sites_in_use_are_chosen.
Theorem C76_sites_in_use_limit : forall ps at_ extra t I P v, reachable t -> names_ok at_ t -> propose_problem ps at_ extra t = Ok (I, P) -> feasible P v ->
  (0 < extra)%nat -> pops_apart t -> forall l, NoDup l -> (forall i, In i l -> usable_dn t i /\ proposed_or_existing t i /\ lone t i) -> (List.length l <= extra)%nat.
Proof. exact in_use_number. Qed.
Print Assumptions C76_sites_in_use_limit.

(** A network that meets the hypotheses: DN d becomes a POP beside POP p. *)
Example C76_hypotheses_met : reachable (pe_topo s_good) /\ names_ok ex_attrs (pe_topo s_good) /\
  propose_problem ex_params ex_attrs 1 (pe_topo s_good) = Ok (pe_problem 1 s_good) /\ feasible (snd (pe_problem 1 s_good)) (pe_v ["p"; "d"; "c"]%string) /\
  usable_pops (pe_topo s_good) = ["p"]%string /\ usable_dns (pe_topo s_good) = ["e"; "d"]%string /\ pops_apart (pe_topo s_good).
Proof. split; [apply pe_reachable; now left|]. split; [apply pe_names; now left|exact pe_good]. Qed.

(** The call fails exactly when some POP of the input is existing. *)
Theorem C76_fails_exactly_on_existing_pops : forall ps at_ extra t ta I, reachable t -> access_topology t = Ok ta -> network (pop_params ps) at_ ta = Ok I ->
  (propose_setup ps at_ extra t = Err TopologyExn <-> exists i s, dget (t_sites t) i = Some s /\ s_type s = POP /\ s_status s = EXISTING) /\
  (propose_setup ps at_ extra t <> Err TopologyExn <-> exists r, propose_setup ps at_ extra t = Ok r).
Proof. exact propose_returns. Qed.
Print Assumptions C76_fails_exactly_on_existing_pops.

(** What a user may expect and does not get: an existing POP makes the proposal raise; two POPs of
    different devices at one place make it choose more new POPs than asked for; DNs in use, or DNs of
    different devices at one place, leave it without an answer although extra POPs are possible. *)
Theorem C76_existing_pop_refuted : exists ps at_ t, reachable t /\ names_ok at_ t /\ propose_problem ps at_ 1 t = Err TopologyExn.
Proof. exists ex_params, ex_attrs, (pe_topo s_existing). split; [apply pe_reachable; cbn [In]; tauto|]. split; [apply pe_names; cbn [In]; tauto|exact pe_existing]. Qed.
Print Assumptions C76_existing_pop_refuted.
Theorem C76_more_than_asked_for_refuted : exists ps at_ t I P v new, reachable t /\ names_ok at_ t /\ propose_problem ps at_ 1 t = Ok (I, P) /\ feasible P v /\
  lists new (fun i => selected v i /\ eligible t i) /\ (1 < List.length new)%nat.
Proof.
  exists ex_params, ex_attrs, (pe_topo s_twins), (fst (pe_problem 1 s_twins)), (snd (pe_problem 1 s_twins)), (pe_v ["p"; "d"; "e"; "c"]%string), ["e"; "d"]%string.
  split; [apply pe_reachable; cbn [In]; tauto|]. split; [apply pe_names; cbn [In]; tauto|]. split; [exact pe_twins|]. split; [exact pe_twins_feasible|]. split; [exact pe_twins_new|]. apply le_n.
Qed.
Print Assumptions C76_more_than_asked_for_refuted.
Theorem C76_no_answer_beside_sites_in_use_refuted : exists ps at_ t I P, reachable t /\ names_ok at_ t /\ propose_problem ps at_ 1 t = Ok (I, P) /\
  (forall v, ~ feasible P v) /\ exists i, usable_dn t i /\ ~ proposed_or_existing t i.
Proof.
  exists ex_params, ex_attrs, (pe_topo s_in_use), (fst (pe_problem 1 s_in_use)), (snd (pe_problem 1 s_in_use)).
  split; [apply pe_reachable; cbn [In]; tauto|]. split; [apply pe_names; cbn [In]; tauto|]. split; [exact pe_in_use|]. split; [exact pe_in_use_none|]. exists "d"%string. exact pe_in_use_some.
Qed.
Print Assumptions C76_no_answer_beside_sites_in_use_refuted.
Theorem C76_no_answer_for_shared_places_refuted : exists ps at_ t I P, reachable t /\ names_ok at_ t /\ propose_problem ps at_ 2 t = Ok (I, P) /\
  (forall v, ~ feasible P v) /\ exists i, usable_dn t i.
Proof.
  exists ex_params, ex_attrs, (pe_topo s_same), (fst (pe_problem 2 s_same)), (snd (pe_problem 2 s_same)).
  split; [apply pe_reachable; cbn [In]; tauto|]. split; [apply pe_names; cbn [In]; tauto|]. split; [exact pe_same|]. split; [exact pe_same_none|]. exists "d"%string. exact pe_same_some.
Qed.
Print Assumptions C76_no_answer_for_shared_places_refuted.
