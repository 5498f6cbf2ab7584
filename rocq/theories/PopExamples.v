(** Networks that meet, and networks that defeat, the claims of C76. *)
From Coq Require Import QArith Lia.
From Verif Require Import Base Dict TopologyModel TopologySpec GraphModel GraphSpec GraphProofs SetupModel IlpModel IlpSpec MonadLib IlpExamples.
From Verif Require Import PopModel PopSpec PopProofs PopMainProofs.
Local Open Scope Q_scope.

(** POP [p], DN [d], DN [e] and CN [c] with the demand; [p], [d], [e] are given *)
Definition pe_ops (sites : list site) : list op :=
  (map AddSite sites ++
  [AddSite (x_site_ "d" DN CANDIDATE 1); AddSite (x_site_ "c" CN CANDIDATE 3);
   AddSector (mkSector (x_key_ "p" false) CANDIDATE); AddSector (mkSector (x_key_ "d" false) CANDIDATE);
   AddSector (mkSector (x_key_ "e" false) CANDIDATE); AddSector (mkSector (x_key_ "c" true) CANDIDATE);
   AddLink (x_link "p" "d" false CANDIDATE); AddLink (x_link "d" "p" false CANDIDATE);
   AddLink (x_link "d" "e" false CANDIDATE); AddLink (x_link "e" "d" false CANDIDATE);
   AddLink (x_link "d" "c" true CANDIDATE); AddLink (x_link "e" "c" true CANDIDATE); AddLink (x_link "p" "c" true CANDIDATE);
   AddDemand (mkDemand "z" ["c"]%string)])%list.
Definition pe_topo (sites : list site) : topo := run (pe_ops sites) empty_topo.
Definition pe_v (on : list string) (x : var) : Q :=
  match x with
  | VSite i => if mem i on then 1 else 0
  | VFlow i j => if mem (i, j) [("SUPERSOURCE", "d"); ("d", "c"); ("c", "z")]%string then 1 else 0
  | VTdm i j _ => if mem (i, j) [("d", "c")]%string then 1 # 2 else 0
  | _ => 0
  end.
Definition no_inst : inst := mkInst ex_params [] [] (fun _ => []) [] [] [] [] [] [] [] [] [] [] [] [] [] [] [] [] [] 0.
Definition pe_problem (extra : nat) (sites : list site) : inst * problem :=
  match propose_problem ex_params ex_attrs extra (pe_topo sites) with Ok r => r | Err _ => (no_inst, mkProblem [] []) end.

(** the cases *)
Definition s_good : list site := [x_site_ "p" POP CANDIDATE 0; x_site_ "e" DN CANDIDATE 2].
Definition s_existing : list site := [x_site_ "p" POP EXISTING 0; x_site_ "e" DN CANDIDATE 2].
Definition s_twins : list site := [x_site_ "p" POP CANDIDATE 0; x_site_ "q" POP CANDIDATE 0; x_site_ "e" DN CANDIDATE 2].
Definition s_in_use : list site := [x_site_ "p" POP CANDIDATE 0; x_site_ "e" DN PROPOSED 2; x_site_ "f" DN PROPOSED 4].
Definition s_same : list site := [x_site_ "p" POP CANDIDATE 0; x_site_ "e" DN CANDIDATE 1].

Lemma pe_reachable sites : In sites [s_good; s_existing; s_twins; s_in_use; s_same] -> reachable (pe_topo sites).
Proof.
  intros H. exists (pe_ops sites). split; [|reflexivity]. unfold pe_ops.
  repeat destruct H as [<-|H]; try destruct H; cbn [map app s_good s_existing s_twins s_in_use s_same];
    repeat (constructor; [first [exact Logic.I | split; reflexivity | unfold op_ok, no_dash; simpl; intuition discriminate]|]); constructor.
Qed.
Lemma pe_names sites : In sites [s_good; s_existing; s_twins; s_in_use; s_same] -> names_ok ex_attrs (pe_topo sites).
Proof. intros H. apply names_okb_sound. repeat destruct H as [<-|H]; try destruct H; vm_compute; reflexivity. Qed.

Definition locb (t : topo) (i j : string) : bool :=
  match dget (t_sites t) i, dget (t_sites t) j with Some a, Some b => beq (s_loc a) (s_loc b) | _, _ => false end.
Definition pops_apartb (t : topo) : bool :=
  forallb (fun i => forallb (fun j => beq i j || negb (locb t i j)) (usable_pops t)) (usable_pops t).
Lemma pops_apartb_sound t : well_formed t -> pops_apartb t = true -> pops_apart t.
Proof.
  intros W H i j si sj Hi Hj Ei Ej L. apply (usable_pops_lists t W) in Hi, Hj. unfold pops_apartb in H. rewrite forallb_forall in H. specialize (H i Hi). rewrite forallb_forall in H. specialize (H j Hj).
  apply orb_true_iff in H. destruct H as [H|H]; [now apply beq_true|]. exfalso. unfold locb in H. rewrite Ei, Ej in H. unfold same_place in L. rewrite L, beq_refl in H. discriminate.
Qed.
Definition loneb (t : topo) (i : string) : bool := forallb (fun j => beq j i || negb (locb t j i)) (dkeys (t_sites t)).
Lemma loneb_sound t i : loneb t i = true -> lone t i.
Proof.
  intros H s j sj Es Ej L. unfold loneb in H. rewrite forallb_forall in H. assert (X : In j (dkeys (t_sites t))) by (apply In_dkeys; eauto). specialize (H j X).
  apply orb_true_iff in H. destruct H as [H|H]; [now apply beq_true|]. exfalso. unfold locb in H. rewrite Es, Ej in H. unfold same_place in L. rewrite L, beq_refl in H. discriminate.
Qed.
Definition in_useb (t : topo) (i : string) : bool := match dget (t_sites t) i with Some s => beq (s_status s) PROPOSED || beq (s_status s) EXISTING | None => false end.
Lemma in_useb_sound t i : in_useb t i = true -> proposed_or_existing t i.
Proof.
  unfold in_useb, proposed_or_existing. destruct (dget (t_sites t) i) as [s|]; [|discriminate]. intros H. exists s. split; [reflexivity|]. apply orb_true_iff in H. destruct H as [H|H]; apply beq_true in H; auto.
Qed.

Lemma pe_good : propose_problem ex_params ex_attrs 1 (pe_topo s_good) = Ok (pe_problem 1 s_good) /\ feasible (snd (pe_problem 1 s_good)) (pe_v ["p"; "d"; "c"]%string) /\
  usable_pops (pe_topo s_good) = ["p"]%string /\ usable_dns (pe_topo s_good) = ["e"; "d"]%string /\ pops_apart (pe_topo s_good).
Proof.
  split; [vm_compute; reflexivity|]. split; [apply feasibleb_sound; vm_compute; reflexivity|]. split; [vm_compute; reflexivity|]. split; [vm_compute; reflexivity|].
  apply pops_apartb_sound; [apply wf_reachable, pe_reachable; now left|vm_compute; reflexivity].
Qed.

(** Facts about any network, so that the cases below only need computed lists. *)
Lemma chosen_new t v l : well_formed t -> eligibles t = l -> (forall i, In i l -> selected v i) -> lists l (fun i => selected v i /\ eligible t i).
Proof. intros W <- H. pose proof (eligibles_lists _ W) as (N & L). split; [exact N|]. intros i. rewrite <- L. split; [|tauto]. auto. Qed.
Lemma too_many_in_use ps at_ extra t I P l : reachable t -> names_ok at_ t -> propose_problem ps at_ extra t = Ok (I, P) -> (0 < extra)%nat -> pops_apartb t = true ->
  NoDup l -> forallb (fun i => mem i (usable_dns t) && in_useb t i && loneb t i) l = true -> (extra < List.length l)%nat -> forall v, ~ feasible P v.
Proof.
  intros R NM HP He A N F Lt v Hv. pose proof (wf_reachable _ R) as W. rewrite forallb_forall in F.
  assert (X := in_use_number _ _ _ _ _ _ v R NM HP Hv He (pops_apartb_sound _ W A) l N). cut ((List.length l <= extra)%nat); [lia|]. apply X. intros i Hi. specialize (F i Hi).
  rewrite !andb_true_iff in F. destruct F as ((F1 & F2) & F3). split; [apply (usable_dns_lists _ W), mem_In, F1|]. split; [now apply in_useb_sound|now apply loneb_sound].
Qed.
Lemma too_few_places ps at_ extra t I P i j : reachable t -> names_ok at_ t -> propose_problem ps at_ extra t = Ok (I, P) -> (0 < extra)%nat -> pops_apartb t = true ->
  List.length (eligibles t) = List.length (usable_dns t) -> (List.length (usable_dns t) <= extra)%nat -> In i (eligibles t) -> In j (eligibles t) -> locb t i j = true -> i <> j -> forall v, ~ feasible P v.
Proof.
  intros R NM HP He A E1 E2 Hi Hj Lc Ne v Hv. pose proof (wf_reachable _ R) as W. pose proof (usable_dns_lists _ W) as Lp. pose proof (eligibles_lists _ W) as Le.
  set (new := filter (fun i => Qeq_bool (v (VSite i)) 1) (eligibles t)).
  assert (Ln : lists new (fun i => selected v i /\ eligible t i)).
  { split; [apply NoDup_filter, Le|]. intros k. unfold new. rewrite filter_In, Qeq_bool_iff, (proj2 Le k). unfold selected. tauto. }
  assert (E := new_number _ _ _ _ _ _ v R NM HP Hv He (pops_apartb_sound _ W A) new _ Ln Lp).
  assert (Inc : incl (eligibles t) new).
  { apply NoDup_length_incl; [apply Ln|lia|]. intros k Hk. apply Ln in Hk. now apply Le. }
  unfold locb in Lc. destruct (dget (t_sites t) i) as [si|] eqn:Ei; [|discriminate]. destruct (dget (t_sites t) j) as [sj|] eqn:Ej; [|discriminate]. apply beq_true in Lc.
  apply Ne. apply (one_per_place _ _ _ _ _ _ v R NM HP Hv _ _ si sj); [apply (proj2 Ln), Inc, Hi|apply (proj2 Ln), Inc, Hj|exact Ei|exact Ej|exact Lc].
Qed.
(** two POPs at one place: two DNs are chosen although one extra POP is asked for *)
Lemma pe_twins : propose_problem ex_params ex_attrs 1 (pe_topo s_twins) = Ok (fst (pe_problem 1 s_twins), snd (pe_problem 1 s_twins)).
Proof. vm_compute. reflexivity. Qed.
Lemma pe_twins_feasible : feasible (snd (pe_problem 1 s_twins)) (pe_v ["p"; "d"; "e"; "c"]%string).
Proof. apply feasibleb_sound. vm_compute. reflexivity. Qed.
Lemma pe_twins_new : lists ["e"; "d"]%string (fun i => selected (pe_v ["p"; "d"; "e"; "c"]%string) i /\ eligible (pe_topo s_twins) i).
Proof.
  apply chosen_new; [apply wf_reachable, pe_reachable; cbn [In]; tauto|vm_compute; reflexivity|]. intros i [<-|[<-|[]]]; reflexivity.
Qed.
(** two DNs in use, one extra POP: no answer *)
Lemma pe_in_use : propose_problem ex_params ex_attrs 1 (pe_topo s_in_use) = Ok (fst (pe_problem 1 s_in_use), snd (pe_problem 1 s_in_use)).
Proof. vm_compute. reflexivity. Qed.
Lemma pe_in_use_none : forall v, ~ feasible (snd (pe_problem 1 s_in_use)) v.
Proof.
  apply (too_many_in_use ex_params ex_attrs 1 (pe_topo s_in_use) (fst (pe_problem 1 s_in_use)) _ ["e"; "f"]%string);
    [apply pe_reachable; cbn [In]; tauto|apply pe_names; cbn [In]; tauto|exact pe_in_use|apply le_n|vm_compute; reflexivity| |vm_compute; reflexivity|apply le_n].
  constructor; [intros [H|[]]; discriminate|]. constructor; [intros []|constructor].
Qed.
Lemma pe_in_use_dns : usable_dns (pe_topo s_in_use) = ["e"; "f"; "d"]%string.
Proof. vm_compute. reflexivity. Qed.
Lemma pe_in_use_d : in_useb (pe_topo s_in_use) "d"%string = false.
Proof. vm_compute. reflexivity. Qed.
Lemma in_useb_false t i : in_useb t i = false -> ~ proposed_or_existing t i.
Proof.
  intros H (s & Es & Hs). unfold in_useb in H. rewrite Es in H. apply orb_false_iff in H. destruct H as (H1 & H2). destruct Hs as [Hs|Hs]; rewrite Hs in H1, H2; discriminate.
Qed.
(** two DNs at one place, two extra POPs: no answer *)
Lemma pe_same : propose_problem ex_params ex_attrs 2 (pe_topo s_same) = Ok (fst (pe_problem 2 s_same), snd (pe_problem 2 s_same)).
Proof. vm_compute. reflexivity. Qed.
Lemma pe_same_dns : usable_dns (pe_topo s_same) = ["e"; "d"]%string /\ eligibles (pe_topo s_same) = ["e"; "d"]%string.
Proof. split; vm_compute; reflexivity. Qed.
Lemma pe_same_none : forall v, ~ feasible (snd (pe_problem 2 s_same)) v.
Proof.
  apply (too_few_places ex_params ex_attrs 2 (pe_topo s_same) (fst (pe_problem 2 s_same)) _ "d"%string "e"%string);
    [apply pe_reachable; cbn [In]; tauto|apply pe_names; cbn [In]; tauto|exact pe_same|do 2 constructor|vm_compute; reflexivity|vm_compute; reflexivity| | | |vm_compute; reflexivity|discriminate].
  - rewrite (proj1 pe_same_dns). apply le_n.
  - rewrite (proj2 pe_same_dns). right. now left.
  - rewrite (proj2 pe_same_dns). now left.
Qed.
Lemma pe_existing : propose_problem ex_params ex_attrs 1 (pe_topo s_existing) = Err TopologyExn.
Proof. vm_compute. reflexivity. Qed.
Lemma usable_dn_listed t l i : reachable t -> usable_dns t = l -> In i l -> usable_dn t i.
Proof. intros R <- H. now apply (usable_dns_lists _ (wf_reachable _ R)). Qed.
Lemma pe_in_use_some : usable_dn (pe_topo s_in_use) "d"%string /\ ~ proposed_or_existing (pe_topo s_in_use) "d"%string.
Proof. split; [|exact (in_useb_false _ _ pe_in_use_d)]. refine (usable_dn_listed _ _ _ _ pe_in_use_dns _); [apply pe_reachable; cbn [In]; tauto|cbn [In]; tauto]. Qed.
Lemma pe_same_some : usable_dn (pe_topo s_same) "d"%string.
Proof. refine (usable_dn_listed _ _ _ _ (proj1 pe_same_dns) _); [apply pe_reachable; cbn [In]; tauto|cbn [In]; tauto]. Qed.
