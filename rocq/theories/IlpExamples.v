(** A small network used as a witness that the hypotheses of C16-C19 can be met. *)
From Coq Require Import QArith Lia.
From Verif Require Import Base Dict TopologyModel TopologySpec TopologyLemmas GraphSpec GraphProofs SetupModel IlpModel IlpSpec QLib MonadLib SetupProofs.
Local Open Scope Q_scope.

(** deciding feasibility and the conditions on names *)
Definition satb (v : var -> Q) (c : constr) : bool :=
  match c with Le x y => Qle_bool (eval v x) (eval v y) | Eq x y => Qeq_bool (eval v x) (eval v y) end.
Definition in_kindb (q : Q) (k : kind) : bool :=
  match k with
  | Binary => Qeq_bool q 0 || Qeq_bool q 1
  | Continuous lb ub => Qle_bool lb q && match ub with Some u => Qle_bool q u | None => true end
  end.
Definition feasibleb (P : problem) (v : var -> Q) : bool :=
  forallb (fun d => in_kindb (v (fst d)) (snd d)) (decls P) && forallb (satb v) (constraints P).
Lemma feasibleb_sound P v : feasibleb P v = true -> feasible P v.
Proof.
  unfold feasibleb. rewrite andb_true_iff, !forallb_forall. intros (H1 & H2). split.
  - intros d Hd. specialize (H1 d Hd). destruct (snd d) as [|lb ub]; cbn in *.
    + apply orb_true_iff in H1. rewrite !qeq_true in H1. exact H1.
    + apply andb_true_iff in H1. destruct H1 as (A & B). apply qle_true in A. split; [exact A|]. destruct ub; [now apply qle_true in B|auto].
  - intros c Hc. specialize (H2 c Hc). destruct c; cbn in *; [now apply qle_true|now apply qeq_true].
Qed.
Definition names_okb (at_ : attrs) (t : topo) : bool :=
  negb (dmem (t_sites t) SUPERSOURCE) &&
  forallb (fun p => forallb (fun n => negb (beq n SUPERSOURCE) && negb (dmem (t_sites t) n)) (demand_ids at_ (snd p))) (t_demands t) &&
  forallb (fun p => forallb (fun q => beq (fst p) (fst q) || forallb (fun n => negb (mem n (demand_ids at_ (snd q)))) (demand_ids at_ (snd p))) (t_demands t)) (t_demands t) &&
  forallb (fun p => forallb (fun s => dmem (t_sites t) s) (d_sites (snd p))) (t_demands t).
Lemma names_okb_sound at_ t : names_okb at_ t = true -> names_ok at_ t.
Proof.
  unfold names_okb. rewrite !andb_true_iff, !forallb_forall. intros (((A & B) & C) & D). unfold names_ok, consumer.
  assert (B' : forall i d n, dget (t_demands t) i = Some d -> consumer_of at_ d n -> n <> SUPERSOURCE /\ ~ site_stored t n).
  { intros i d n Ed Hc. apply dget_In in Ed. specialize (B _ Ed). cbn in B. rewrite forallb_forall in B. apply demand_ids_iff in Hc. specialize (B _ Hc).
    apply andb_true_iff in B. rewrite !negb_true_iff in B. destruct B as (B1 & B2). split; [now apply beq_false|]. intros Hs. apply stored_dmem in Hs. congruence. }
  split; [|split; [|split; [|split]]].
  - intros Hs. apply stored_dmem in Hs. rewrite Hs in A. discriminate.
  - intros (i & d & Ed & Hc). destruct (B' i d _ Ed Hc). contradiction.
  - intros n (i & d & Ed & Hc). now destruct (B' i d _ Ed Hc).
  - intros i d i' d' n Ed Ed' Hc Hc'. apply dget_In in Ed, Ed'. specialize (C _ Ed). rewrite forallb_forall in C. specialize (C _ Ed'). cbn in C.
    apply orb_true_iff in C. destruct C as [C|C]; [now apply beq_true in C|]. rewrite forallb_forall in C. apply demand_ids_iff in Hc, Hc'.
    specialize (C _ Hc). apply negb_true_iff, mem_not_In in C. contradiction.
  - intros i d s Ed Hin. apply dget_In in Ed. specialize (D _ Ed). rewrite forallb_forall in D. apply stored_dmem. now apply D.
Qed.

(** POP [p] and DN [d], one link each way; CN [c] and DN [e] at the same place, both fed by [d];
    demand [z] at [c] and [e] *)
Definition x_site_ (i : string) (ty : site_type) (st : status) (c : Z) : site := mkSite i ty st (c, 0%Z, 0%Z) UNASSIGNED false.
Definition x_key_ (i : string) (cn : bool) : seckey := mkSecKey i 0 0 cn.
Definition x_link (a b : string) (cn : bool) (st : status) : link := mkLink a b true cn (Some (x_key_ a false, x_key_ b cn)) st.
Definition ex_ops : list op :=
  [AddSite (x_site_ "p" POP EXISTING 0); AddSite (x_site_ "d" DN CANDIDATE 1); AddSite (x_site_ "c" CN PROPOSED 2); AddSite (x_site_ "e" DN CANDIDATE 2);
   AddSector (mkSector (x_key_ "p" false) CANDIDATE); AddSector (mkSector (x_key_ "d" false) CANDIDATE);
   AddSector (mkSector (x_key_ "c" true) CANDIDATE); AddSector (mkSector (x_key_ "e" false) CANDIDATE);
   AddLink (x_link "p" "d" false CANDIDATE); AddLink (x_link "d" "p" false CANDIDATE);
   AddLink (x_link "d" "c" true CANDIDATE); AddLink (x_link "d" "e" false CANDIDATE); AddLink (x_link "e" "d" false CANDIDATE);
   AddDemand (mkDemand "z" ["c"; "e"]%string)].
Definition ex_topo : topo := run ex_ops empty_topo.
Definition ex_params : params := mkParams 2 1 1 false true 1000 (1 # 2) false (fun _ => 10).
Definition ex_attrs : attrs := mkAttrs (fun _ => 2) (fun _ => 5) (fun _ => Some 1) (fun _ => 1%nat).
Definition ex_inst : inst := match network ex_params ex_attrs ex_topo with Ok x => x | Err _ => mkInst ex_params [] [] (fun _ => []) [] [] [] [] [] [] [] [] [] [] [] [] [] [] [] [] [] 0 end.
Definition ex_problem (g : goal) : problem := match site_problem g [] ex_inst with Ok P => P | Err _ => mkProblem [] [] end.
(** one unit of demand served through [e] rather than [c] *)
Definition ex_v (x : var) : Q :=
  match x with
  | VSite i => if mem i ["p"; "d"; "e"]%string then 1 else 0
  | VFlow i j => if mem (i, j) [("SUPERSOURCE", "p"); ("p", "d"); ("d", "e"); ("e", "z")]%string then 1 else 0
  | VTdm i j _ => if mem (i, j) [("p", "d"); ("d", "e")]%string then 1 # 2 else 0
  | VOdd i => if beq i "d"%string then 1 else 0
  | _ => 0
  end.
Lemma ex_reachable : reachable ex_topo.
Proof. exists ex_ops. split; [|reflexivity]. unfold ex_ops. repeat (constructor; [first [exact I | split; reflexivity | unfold op_ok, no_dash; simpl; intuition discriminate]|]). constructor. Qed.
Lemma ex_wf : well_formed ex_topo. Proof. apply wf_reachable, ex_reachable. Qed.
Lemma ex_names : names_ok ex_attrs ex_topo. Proof. apply names_okb_sound. vm_compute. reflexivity. Qed.
Lemma ex_network : network ex_params ex_attrs ex_topo = Ok ex_inst.
Proof. vm_compute. reflexivity. Qed.
Definition ex_goals : list goal := [CostUnderCoverage; CoverageUnderCost; CoverageUnderPops 1].
Lemma ex_site_problem g : In g ex_goals -> site_problem g [] ex_inst = Ok (ex_problem g).
Proof. intros [<-|[<-|[<-|[]]]]; vm_compute; reflexivity. Qed.
Lemma ex_feasible g : In g ex_goals -> feasible (ex_problem g) ex_v.
Proof. intros H. apply feasibleb_sound. destruct H as [<-|[<-|[<-|[]]]]; vm_compute; reflexivity. Qed.
