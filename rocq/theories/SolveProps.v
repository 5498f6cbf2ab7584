(** C78: a planning problem can always be posed, and when maximising coverage has an answer. *)
From Coq Require Import QArith.
From Verif Require Import Base Dict TopologyModel TopologySpec GraphSpec SetupModel IlpModel IlpSpec ExtractSpec IlpExamples SolveSpec SolveMainProofs SolveExamples.
Local Open Scope Q_scope.

(** No lookup fails while the problem is built. *)
Theorem C78_problem_is_posed ps at_ t I : well_formed t -> names_ok at_ t -> network ps at_ t = Ok I ->
  forall g adversarial, exists P, site_problem g adversarial I = Ok P.
Proof. exact (problem_posed ps at_ t I). Qed.
Print Assumptions C78_problem_is_posed.
(** Whatever the goal, an answer chooses sites that may be chosen. *)
Theorem C78_answer_is_a_choice ps at_ t I g adversarial P v : well_formed t -> names_ok at_ t -> network ps at_ t = Ok I -> active_links_sound t ->
  site_problem g adversarial I = Ok P -> feasible P v ->
  exists chosen, (forall i, In i chosen <-> site_stored t i /\ selected v i) /\ valid_choice ps t chosen.
Proof. intros Hw Hn HI Ha HP Hv. exists (choice_of t v). split; [exact (choice_In t v)|exact (plan_choice ps at_ t I Hw Hn HI g adversarial P v Ha HP Hv)]. Qed.
Print Assumptions C78_answer_is_a_choice.
(** Maximum coverage within a budget. *)
Theorem C78_budget_answer ps at_ t I adversarial P : well_formed t -> names_ok at_ t -> network ps at_ t = Ok I -> sane ps at_ t -> active_links_sound t ->
  site_problem CoverageUnderCost adversarial I = Ok P ->
  ((exists v, feasible P v) <-> exists chosen q, valid_choice ps t chosen /\ costs ps at_ t chosen q /\ q <= p_budget ps).
Proof. intros Hw Hn HI. exact (budget_answer ps at_ t I Hw Hn HI adversarial P). Qed.
Print Assumptions C78_budget_answer.
(** Maximum coverage with a given number of POPs, 0 meaning any. *)
Theorem C78_pops_answer ps at_ t I n adversarial P : well_formed t -> names_ok at_ t -> network ps at_ t = Ok I -> sane ps at_ t -> active_links_sound t ->
  site_problem (CoverageUnderPops n) adversarial I = Ok P ->
  ((exists v, feasible P v) <-> exists chosen, valid_choice ps t chosen /\ (n = 0%nat \/ pop_count t chosen n)).
Proof. intros Hw Hn HI. exact (pops_answer ps at_ t I Hw Hn HI n adversarial P). Qed.
Print Assumptions C78_pops_answer.
(** Cables have no polarity, but active cables in a triangle leave no answer. *)
Theorem C78_cables_have_no_polarity_refuted : exists ps at_ t I P, reachable t /\ names_ok at_ t /\ network ps at_ t = Ok I /\ sane ps at_ t /\ active_links_sound t /\
  site_problem CoverageUnderCost [] I = Ok P /\
  (forall k l, link_stored t k l -> l_wireless l = false) /\
  (exists chosen, NoDup chosen /\ (forall i, In i chosen -> site_stored t i) /\ site_choice ps t (fun i => In i chosen) /\ costs ps at_ t chosen 0) /\ 0 <= p_budget ps /\
  ~ exists v, feasible P v.
Proof. exact wired_triangle. Qed.
Print Assumptions C78_cables_have_no_polarity_refuted.

(** The hypotheses are met, with answers. *)
Example C78_met : (exists P, site_problem (CoverageUnderPops 3) [] ex_inst = Ok P) /\
  (exists chosen q, valid_choice ex_params ex_topo chosen /\ costs ex_params ex_attrs ex_topo chosen q /\ q <= 1000) /\
  (exists chosen, valid_choice ex_params ex_topo chosen /\ pop_count ex_topo chosen 1).
Proof.
  split; [exact (C78_problem_is_posed _ _ _ _ ex_wf ex_names ex_network _ _)|]. split.
  - apply (proj1 (C78_budget_answer _ _ _ _ [] _ ex_wf ex_names ex_network (ex_sane _) ex_sound (ex_site_problem CoverageUnderCost (or_intror (or_introl eq_refl))))).
    exists ex_v. exact (ex_feasible CoverageUnderCost (or_intror (or_introl eq_refl))).
  - destruct (proj1 (C78_pops_answer _ _ _ _ 1 [] _ ex_wf ex_names ex_network (ex_sane _) ex_sound (ex_site_problem (CoverageUnderPops 1) (or_intror (or_intror (or_introl eq_refl)))))) as (chosen & H1 & [H2|H2]).
    + exists ex_v. exact (ex_feasible (CoverageUnderPops 1) (or_intror (or_intror (or_introl eq_refl)))).
    + discriminate.
    + eauto.
Qed.
