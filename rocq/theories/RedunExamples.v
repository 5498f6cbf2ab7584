(** Witnesses for C75: two POPs [p] and [q], the DN [d] fed by [p], a free DN [f], a CN [c] where [f] stands. *)
From Coq Require Import QArith.
From Verif Require Import Base Dict TopologyModel TopologySpec TopologyLemmas GraphSpec GraphProofs SetupModel IlpModel IlpSpec QLib ExtractModel ExtractSpec IlpExamples ExtractExamples RedunModel RedunSpec.
Local Open Scope Q_scope.

Definition rsatb (v : rvar -> Q) (c : rconstr) : bool :=
  match c with RLe x y => Qle_bool (reval v x) (reval v y) | REq x y => Qeq_bool (reval v x) (reval v y) end.
Definition rfeasibleb (P : rproblem) (v : rvar -> Q) : bool :=
  forallb (fun d => in_kindb (v (fst d)) (snd d)) (r_decls P) && forallb (rsatb v) (r_constraints P).
Lemma rfeasibleb_sound P v : rfeasibleb P v = true -> rfeasible P v.
Proof.
  unfold rfeasibleb. rewrite andb_true_iff, !forallb_forall. intros (H1 & H2). split.
  - intros d Hd. specialize (H1 d Hd). destruct (snd d) as [|lb ub]; cbn in *.
    + apply orb_true_iff in H1. rewrite !qeq_true in H1. exact H1.
    + apply andb_true_iff in H1. destruct H1 as (A & B). apply qle_true in A. split; [exact A|]. destruct ub; [now apply qle_true in B|auto].
  - intros c Hc. specialize (H2 c Hc). destruct c; cbn in *; [now apply qle_true|now apply qeq_true].
Qed.
Definition rx_site (i : string) (ty : site_type) (st : status) (c : Z) (p : polarity) : site := mkSite i ty st (c, 0%Z, 0%Z) p false.
Definition rx_ops : list op :=
  [AddSite (rx_site "p" POP EXISTING 0 ODD); AddSite (rx_site "q" POP EXISTING 1 ODD); AddSite (rx_site "d" DN PROPOSED 2 EVEN);
   AddSite (rx_site "f" DN CANDIDATE 3 UNASSIGNED); AddSite (rx_site "c" CN PROPOSED 3 UNASSIGNED);
   AddSector (mkSector (x_key_ "p" false) EXISTING); AddSector (mkSector (x_key_ "q" false) EXISTING);
   AddSector (mkSector (x_key_ "d" false) PROPOSED); AddSector (mkSector (x_key_ "f" false) CANDIDATE); AddSector (mkSector (x_key_ "c" true) PROPOSED);
   AddLink (x_link "p" "d" false PROPOSED); AddLink (x_link "d" "p" false PROPOSED); AddLink (x_link "q" "d" false CANDIDATE); AddLink (x_link "d" "q" false CANDIDATE);
   AddLink (x_link "q" "f" false CANDIDATE); AddLink (x_link "f" "q" false CANDIDATE); AddLink (x_link "d" "c" true PROPOSED);
   AddDemand (mkDemand "z" ["c"]%string)].
Definition rx_topo : topo := run rx_ops empty_topo.
Definition rx_caps : caps := mkCaps 1 1 2.
Definition no_net : rnet := mkRnet ex_inst [] rx_caps [] [] [].
Definition rx_net : rnet := match redundant_network ex_params ex_attrs rx_topo rx_caps None with Ok R => R | Err _ => no_net end.
(** one unit for [d] from each POP, and the DN [f] put where the CN was *)
Definition rx_v (x : rvar) : Q :=
  match x with
  | RSite i => 1
  | ROdd i => if mem i ["p"; "q"]%string then 1 else 0
  | RFlow i j d => if mem (i, j) [("SUPERSOURCE", "p"); ("SUPERSOURCE", "q"); ("p", "d"); ("q", "d")]%string then 1 else 0
  | RShort _ => 0
  end.
Definition rx_short : dict string Q := [("d"%string, 0)].
Definition rx_problem : rproblem := match skeleton rx_net (Some rx_short) with Ok P => P | Err _ => mkRproblem [] [] end.
Definition rx_first : rproblem := match skeleton rx_net None with Ok P => P | Err _ => mkRproblem [] [] end.
Definition rx_plan : rsolution := match extract_redundancy rx_net rx_short rx_v with Ok o => o | Err _ => mkRsolution [] [] [] [] [] [] [] [] 0 end.
Lemma rx_reachable : reachable rx_topo.
Proof. exists rx_ops. split; [|reflexivity]. unfold rx_ops. repeat (constructor; [first [exact I | split; reflexivity | unfold op_ok, no_dash; simpl; intuition discriminate]|]). constructor. Qed.
Lemma rx_wf : well_formed rx_topo. Proof. apply wf_reachable, rx_reachable. Qed.
Lemma rx_names : names_ok ex_attrs rx_topo. Proof. apply names_okb_sound. vm_compute. reflexivity. Qed.
Lemma rx_sectors : sectors_present rx_topo. Proof. apply sectors_presentb_sound. vm_compute. reflexivity. Qed.
Lemma rx_level : level_caps LevelMedium (active_pops rx_topo) = Some rx_caps. Proof. vm_compute. reflexivity. Qed.
Lemma rx_net_ok : redundant_network ex_params ex_attrs rx_topo rx_caps None = Ok rx_net. Proof. vm_compute. reflexivity. Qed.
Lemma rx_problem_ok : skeleton rx_net (Some rx_short) = Ok rx_problem. Proof. vm_compute. reflexivity. Qed.
Lemma rx_first_ok : skeleton rx_net None = Ok rx_first. Proof. vm_compute. reflexivity. Qed.
Lemma rx_feasible : rfeasible rx_problem rx_v. Proof. apply rfeasibleb_sound. vm_compute. reflexivity. Qed.
Lemma rx_first_feasible : rfeasible rx_first rx_v. Proof. apply rfeasibleb_sound. vm_compute. reflexivity. Qed.
Lemma rx_plan_ok : extract_redundancy rx_net rx_short rx_v = Ok rx_plan. Proof. vm_compute. reflexivity. Qed.
Lemma rx_protected : protected rx_topo "d".
Proof.
  assert (E : dget (t_sites rx_topo) "d"%string = Some (rx_site "d" DN PROPOSED 2 EVEN)) by (vm_compute; reflexivity).
  split; exists (rx_site "d" DN PROPOSED 2 EVEN); (split; [exact E|]); [reflexivity|left; reflexivity].
Qed.
Lemma rx_pop : is_pop rx_topo "p".
Proof. exists (rx_site "p" POP EXISTING 0 ODD). split; [vm_compute; reflexivity|reflexivity]. Qed.
Lemma rx_several : several_pops rx_topo.
Proof.
  assert (E : dget (t_sites rx_topo) "p"%string = Some (rx_site "p" POP EXISTING 0 ODD)) by (vm_compute; reflexivity).
  assert (F : dget (t_sites rx_topo) "q"%string = Some (rx_site "q" POP EXISTING 1 ODD)) by (vm_compute; reflexivity).
  exists "p"%string, "q"%string. split; [discriminate|]. split; [eexists; split; [exact E|reflexivity]|]. split; [eexists; split; [exact F|reflexivity]|].
  split; eexists; (split; [first [exact E|exact F]|right; reflexivity]).
Qed.
(** deciding whether the base network is in order *)
Definition in_serviceb (s : status) : bool := match s with PROPOSED | EXISTING => true | _ => false end.
Definition active_nowb (t : topo) (i : string) : bool := match dget (t_sites t) i with Some s => in_serviceb (s_status s) | None => false end.
Lemma in_serviceb_iff s : in_serviceb s = true <-> in_service s.
Proof. unfold in_service. destruct s; cbn; intuition discriminate. Qed.
Lemma active_nowb_iff t i : active_nowb t i = true <-> active_now t i.
Proof.
  unfold active_nowb, active_now. destruct (dget (t_sites t) i) as [s|].
  - rewrite in_serviceb_iff. split; [eauto|intros (s' & E & H); congruence].
  - split; [discriminate|intros (s' & E & _); discriminate].
Qed.
Definition endsb (t : topo) : bool :=
  forallb (fun p => negb (in_serviceb (l_status (snd p))) || (active_nowb t (l_tx (snd p)) && active_nowb t (l_rx (snd p)))) (t_links t).
Lemma endsb_sound t : endsb t = true -> active_ends t.
Proof.
  unfold endsb. intros H. rewrite forallb_forall in H. intros k l El Ha. apply dget_In in El. specialize (H _ El). cbn [snd] in H. apply in_serviceb_iff in Ha. rewrite Ha in H. cbn in H.
  apply andb_true_iff in H. rewrite !active_nowb_iff in H. exact H.
Qed.
Lemma rx_ends : active_ends rx_topo. Proof. apply endsb_sound. vm_compute. reflexivity. Qed.
Definition colocatedb (t : topo) (i j : string) : bool :=
  match dget (t_sites t) i, dget (t_sites t) j with Some s, Some s' => beq (s_loc s) (s_loc s') | _, _ => false end.
Definition backhaulb (t : topo) (i : string) : bool := match dget (t_sites t) i with Some s => negb (beq (s_type s) CN) | None => false end.
Lemma backhaulb_iff t i : backhaulb t i = true <-> backhaul_site t i.
Proof.
  unfold backhaulb, backhaul_site. destruct (dget (t_sites t) i) as [s|].
  - split.
    + intros H. exists s. split; [auto|]. destruct (s_type s); [discriminate|auto|auto].
    + intros (s' & E & H). injection E as <-. destruct H as [-> | ->]; reflexivity.
  - split; [discriminate|intros (s' & E & _); discriminate].
Qed.
Definition placesb (t : topo) : bool :=
  forallb (fun i => forallb (fun j => negb (backhaulb t i && backhaulb t j && active_nowb t i && active_nowb t j && colocatedb t i j) || beq i j)
     (dkeys (t_sites t))) (dkeys (t_sites t)).
Lemma placesb_sound t : placesb t = true -> one_per_place t.
Proof.
  unfold placesb. intros H.
  rewrite forallb_forall in H. intros i j B1 B2 A1 A2 (s & s' & E1 & E2 & Ec).
  assert (K1 : In i (dkeys (t_sites t))) by (apply In_dkeys; eauto). assert (K2 : In j (dkeys (t_sites t))) by (apply In_dkeys; eauto).
  specialize (H i K1). rewrite forallb_forall in H. specialize (H j K2). apply backhaulb_iff in B1, B2. apply active_nowb_iff in A1, A2. rewrite B1, B2, A1, A2 in H.
  unfold colocatedb in H. rewrite E1, E2, Ec, beq_refl in H. cbn in H. now apply beq_true in H.
Qed.
Lemma rx_places : one_per_place rx_topo. Proof. apply placesb_sound. vm_compute. reflexivity. Qed.
Definition oddb (t : topo) (i : string) : bool := match dget (t_sites t) i with Some s => beq (s_polarity s) ODD | None => false end.
Lemma oddb_iff t i : oddb t i = true <-> site_odd t i.
Proof.
  unfold oddb, site_odd. destruct (dget (t_sites t) i) as [s|].
  - split; [intros H; apply beq_true in H; eauto|intros (s' & E & H); injection E as <-; rewrite H; apply beq_refl].
  - split; [discriminate|intros (s' & E & _); discriminate].
Qed.
Definition alternatingb (t : topo) : bool :=
  forallb (fun p => let l := snd p in
    negb (in_serviceb (l_status l) && l_wireless l && backhaulb t (l_tx l) && backhaulb t (l_rx l)) || xorb (oddb t (l_tx l)) (oddb t (l_rx l))) (t_links t).
Lemma alternatingb_sound t : alternatingb t = true -> alternating t.
Proof.
  unfold alternatingb. intros H.
  rewrite forallb_forall in H. intros k l El Ha Hwl B1 B2. apply dget_In in El. specialize (H _ El). cbn [snd] in H. cbv zeta in H. apply in_serviceb_iff in Ha. apply backhaulb_iff in B1, B2. rewrite Ha, Hwl, B1, B2 in H. cbn [andb negb orb] in H.
  rewrite <- !oddb_iff. destruct (oddb t (l_tx l)), (oddb t (l_rx l)); try discriminate; [left|right]; split; auto; discriminate.
Qed.
Lemma rx_alternating : alternating rx_topo. Proof. apply alternatingb_sound. vm_compute. reflexivity. Qed.
(** a DN in service without any link *)
Definition cut_topo : topo := run (rx_ops ++ [AddSite (rx_site "g" DN EXISTING 9 ODD)])%list empty_topo.
