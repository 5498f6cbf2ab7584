(** C78: networks that meet the hypotheses, and three sites in a wired triangle. *)
From Coq Require Import QArith Lqa Lia.
From Verif Require Import Base Dict TopologyModel TopologySpec TopologyLemmas GraphSpec GraphProofs SetupModel IlpModel IlpSpec QLib MonadLib SetupProofs IlpExamples SolveSpec SolveMainProofs.
Local Open Scope Q_scope.

Definition active_st (st : status) : bool := beq st PROPOSED || beq st EXISTING.
Lemma active_st_iff st : active_st st = true <-> st = PROPOSED \/ st = EXISTING.
Proof. destruct st; vm_compute; split; auto; try discriminate; intros [H|H]; discriminate. Qed.
Definition soundb (t : topo) : bool :=
  forallb (fun p => negb (active_st (l_status (snd p))) ||
    forallb (fun q => negb (beq (fst q) (l_tx (snd p)) || beq (fst q) (l_rx (snd p))) || active_st (s_status (snd q))) (t_sites t)) (t_links t).
Lemma soundb_sound t : soundb t = true -> active_links_sound t.
Proof.
  intros H k l i s El Al T Es. unfold soundb in H. rewrite forallb_forall in H. specialize (H _ (dget_In _ _ _ El)). cbn [snd] in H. apply active_st_iff in Al. rewrite Al in H. cbn [negb orb] in H.
  rewrite forallb_forall in H. specialize (H _ (dget_In _ _ _ Es)). cbn [fst snd] in H. apply active_st_iff. apply orb_true_iff in H. destruct H as [H|H]; [|exact H]. apply negb_true_iff, orb_false_iff in H. destruct H as (H1 & H2). apply beq_false in H1. apply beq_false in H2.
  destruct T as [T|T]; congruence.
Qed.
Definition joinedb (t : topo) (a b : string) : bool := existsb (fun p => beq (l_tx (snd p)) a && beq (l_rx (snd p)) b && active_st (l_status (snd p))) (t_links t).
Definition backb (t : topo) (i : string) : bool := match dget (t_sites t) i with Some s => negb (beq (s_type s) CN) | None => false end.
Lemma backb_sound t i : backb t i = true -> backhaul_site t i.
Proof. unfold backb, backhaul_site. destruct (dget (t_sites t) i) as [s|]; [|discriminate]. intros H. exists s. split; [reflexivity|]. destruct (s_type s); auto. discriminate. Qed.
Lemma joined_differ t (odd : string -> bool) a b : well_formed t ->
  (forall k l, link_stored t k l -> active_link l -> backhaul_site t (l_tx l) -> backhaul_site t (l_rx l) -> odd (l_tx l) <> odd (l_rx l)) ->
  joinedb t a b = true -> backb t a = true -> backb t b = true -> odd a <> odd b.
Proof.
  intros Hw H J A B. unfold joinedb in J. apply existsb_exists in J. destruct J as ((k & l) & Hin & J). cbn [snd] in J. apply andb_true_iff in J. destruct J as (J & S1). apply andb_true_iff in J. destruct J as (J1 & J2). apply beq_true in J1. apply beq_true in J2. apply active_st_iff in S1.
  rewrite <- J1, <- J2. apply (H k l); [apply In_dget; [apply Hw|exact Hin]|exact S1|rewrite J1|rewrite J2]; now apply backb_sound.
Qed.
Lemma triangle t a b c : well_formed t -> joinedb t a b && joinedb t b c && joinedb t a c && backb t a && backb t b && backb t c = true -> ~ polarisable t.
Proof.
  intros Hw H (odd & Ho). rewrite !andb_true_iff in H. destruct H as (((((H1 & H2) & H3) & A) & B) & C).
  assert (X := joined_differ t odd a b Hw Ho H1 A B). assert (Y := joined_differ t odd b c Hw Ho H2 B C). assert (Z := joined_differ t odd a c Hw Ho H3 A C). destruct (odd a), (odd b), (odd c); congruence.
Qed.
(** all sites exist, at different places *)
Definition all_existb (t : topo) : bool :=
  forallb (fun p => beq (s_status (snd p)) EXISTING && forallb (fun q => beq (fst p) (fst q) || negb (beq (s_loc (snd p)) (s_loc (snd q)))) (t_sites t)) (t_sites t).
Lemma all_exist ps at_ t : well_formed t -> all_existb t = true ->
  NoDup (dkeys (t_sites t)) /\ (forall i, In i (dkeys (t_sites t)) -> site_stored t i) /\ site_choice ps t (fun i => In i (dkeys (t_sites t))) /\ costs ps at_ t (dkeys (t_sites t)) 0.
Proof.
  intros Hw H. unfold all_existb in H. rewrite forallb_forall in H.
  assert (Ex : forall i s, dget (t_sites t) i = Some s -> s_status s = EXISTING). { intros i s Es. specialize (H _ (dget_In _ _ _ Es)). cbn [snd] in H. apply andb_true_iff in H. destruct H as (H & _). now apply beq_true in H. }
  split; [apply Hw|]. split; [intros i Hi; now apply In_dkeys|]. split; [split; [|split]|].
  - intros i s _ Es ([X|X] & _); rewrite (Ex i s Es) in X; discriminate.
  - intros i j si sj _ _ Ei Ej L. specialize (H _ (dget_In _ _ _ Ei)). cbn [fst snd] in H. apply andb_true_iff in H. destruct H as (_ & H). rewrite forallb_forall in H. specialize (H _ (dget_In _ _ _ Ej)). cbn [fst snd] in H.
    apply orb_true_iff in H. destruct H as [H|H]; [now apply beq_true in H|]. apply negb_true_iff, beq_false in H. contradiction.
  - intros i s Es U. exists i, s. split; [exact Es|]. split; [reflexivity|]. split; [apply In_dkeys; now exists s|]. split; [apply le_n|]. auto.
  - exists [], []. split; [|split; [|reflexivity]]; (split; [constructor|]); intros x; (split; [intros []|]).
    + intros (_ & s & Es & N). apply N. eauto.
    + intros (k & y & _ & _ & _ & s & Es & N). apply N. eauto.
Qed.

(** POP [p] and the DNs [d] and [e], all existing, each joined to the others by cable *)
Definition cable (a b : string) : link := mkLink a b false false None EXISTING.
Definition tri_ops : list op :=
  [AddSite (x_site_ "p" POP EXISTING 0); AddSite (x_site_ "d" DN EXISTING 1); AddSite (x_site_ "e" DN EXISTING 2);
   AddLink (cable "p" "d"); AddLink (cable "d" "p"); AddLink (cable "d" "e"); AddLink (cable "e" "d"); AddLink (cable "p" "e"); AddLink (cable "e" "p");
   AddDemand (mkDemand "z" ["e"]%string)].
Definition tri_topo : topo := run tri_ops empty_topo.
Definition tri_inst : inst := match network ex_params ex_attrs tri_topo with Ok x => x | Err _ => ex_inst end.
Definition tri_problem : problem := match site_problem CoverageUnderCost [] tri_inst with Ok P => P | Err _ => mkProblem [] [] end.
Lemma tri_reachable : reachable tri_topo.
Proof. exists tri_ops. split; [|reflexivity]. unfold tri_ops. repeat (constructor; [first [exact I | split; reflexivity | unfold op_ok, no_dash; simpl; intuition discriminate]|]). constructor. Qed.
Lemma tri_names : names_ok ex_attrs tri_topo. Proof. apply names_okb_sound. vm_compute. reflexivity. Qed.
Lemma tri_network : network ex_params ex_attrs tri_topo = Ok tri_inst. Proof. vm_compute. reflexivity. Qed.
Lemma tri_posed : site_problem CoverageUnderCost [] tri_inst = Ok tri_problem. Proof. vm_compute. reflexivity. Qed.
Lemma ex_sane t : sane ex_params ex_attrs t.
Proof. split; [apply Qle_bool_iff; reflexivity|]. split; [reflexivity|]. intros k l _. apply Qle_bool_iff. reflexivity. Qed.
Lemma tri_sound : active_links_sound tri_topo. Proof. apply soundb_sound. vm_compute. reflexivity. Qed.
Lemma ex_sound : active_links_sound ex_topo. Proof. apply soundb_sound. vm_compute. reflexivity. Qed.
Lemma tri_wired : forallb (fun p => negb (l_wireless (snd p))) (t_links tri_topo) = true. Proof. vm_compute. reflexivity. Qed.
Lemma all_wired t : forallb (fun p => negb (l_wireless (snd p))) (t_links t) = true -> forall k l, link_stored t k l -> l_wireless l = false.
Proof. intros H k l El. rewrite forallb_forall in H. specialize (H _ (dget_In _ _ _ El)). now apply negb_true_iff in H. Qed.
Lemma wired_triangle : exists ps at_ t I P, reachable t /\ names_ok at_ t /\ network ps at_ t = Ok I /\ sane ps at_ t /\ active_links_sound t /\ site_problem CoverageUnderCost [] I = Ok P /\
  (forall k l, link_stored t k l -> l_wireless l = false) /\
  (exists chosen, NoDup chosen /\ (forall i, In i chosen -> site_stored t i) /\ site_choice ps t (fun i => In i chosen) /\ costs ps at_ t chosen 0) /\ 0 <= p_budget ps /\
  ~ exists v, feasible P v.
Proof.
  exists ex_params, ex_attrs, tri_topo, tri_inst, tri_problem. pose proof (wf_reachable _ tri_reachable) as W. split; [exact tri_reachable|]. split; [exact tri_names|]. split; [exact tri_network|]. split; [apply ex_sane|]. split; [exact tri_sound|]. split; [exact tri_posed|].
  split; [apply all_wired; exact tri_wired|]. split; [exists (dkeys (t_sites tri_topo)); apply (all_exist ex_params ex_attrs tri_topo W); vm_compute; reflexivity|]. split; [apply Qle_bool_iff; reflexivity|].
  intros H. apply (budget_answer ex_params ex_attrs tri_topo tri_inst W tri_names tri_network [] tri_problem (ex_sane _) tri_sound tri_posed) in H. destruct H as (chosen & q & (_ & _ & _ & Pol) & _).
  apply (triangle tri_topo "p" "d" "e" W); [vm_compute; reflexivity|]. apply Pol. reflexivity.
Qed.
