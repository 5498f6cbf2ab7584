(** A small network with two channels as a witness for C80. *)
From Coq Require Import QArith Lia.
From Verif Require Import Base Dict TopologyModel TopologySpec TopologyLemmas GraphSpec GraphProofs SetupModel IlpModel IlpSpec QLib MonadLib SetupProofs IlpExamples
  DeploySpec ChanModel ChanSpec.
Local Open Scope Q_scope.

Definition same_keyb (a b : seckey) : bool := beq (k_site a) (k_site b) && Nat.eqb (k_node a) (k_node b) && Nat.eqb (k_pos a) (k_pos b) && Bool.eqb (k_cn a) (k_cn b).
Lemma same_keyb_sound a b : same_keyb a b = true -> a = b.
Proof.
  unfold same_keyb. rewrite !andb_true_iff. intros (((H1 & H2) & H3) & H4). apply beq_true in H1. apply Nat.eqb_eq in H2, H3. apply Bool.eqb_prop in H4. destruct a, b. cbn in *. congruence.
Qed.
Definition stored_keyb (t : topo) (a : seckey) : bool := match dget (t_sectors t) (key_id a) with Some x => same_keyb (x_key x) a | None => false end.
Definition sectors_storedb (t : topo) : bool :=
  forallb (fun p => match l_sectors (snd p) with
                    | Some (a, b) => beq (k_site a) (l_tx (snd p)) && beq (k_site b) (l_rx (snd p)) && stored_keyb t a && stored_keyb t b
                    | None => true end) (t_links t).
Lemma stored_keyb_sound t a : stored_keyb t a = true -> exists x, sector_stored t (key_id a) x /\ x_key x = a.
Proof. unfold stored_keyb. destruct (dget (t_sectors t) (key_id a)) as [x|] eqn:E; [|discriminate]. intros B. apply same_keyb_sound in B. now exists x. Qed.
Lemma sectors_storedb_sound t : sectors_storedb t = true -> sectors_stored t.
Proof.
  unfold sectors_storedb. rewrite forallb_forall. intros H k l a b El Es. specialize (H (k, l) (dget_In _ _ _ El)). cbn [snd] in H. rewrite Es in H.
  apply andb_true_iff in H. destruct H as (H & H4). apply andb_true_iff in H. destruct H as (H & H3). apply andb_true_iff in H. destruct H as (H1 & H2).
  apply beq_true in H1, H2. repeat split; auto using stored_keyb_sound.
Qed.
Definition sector_kindsb (t : topo) : bool :=
  forallb (fun p => match dget (t_sites t) (x_site (snd p)) with
                    | Some s => Bool.eqb (k_cn (x_key (snd p))) (beq (s_type s) CN) | None => true end) (t_sectors t).
Lemma sector_kindsb_sound t : sector_kindsb t = true -> sector_kinds t.
Proof.
  unfold sector_kindsb. rewrite forallb_forall. intros H k x s Hx Hs. specialize (H (k, x) (dget_In _ _ _ Hx)). cbn [snd] in H. rewrite Hs in H. apply Bool.eqb_prop in H. rewrite H.
  split; [apply beq_true|intros ->; apply beq_refl].
Qed.

(** POP [p] with two sectors in one node, DN [d] with two sectors, DN [e], client [c] *)
Definition dx_key (i : string) (n pos : nat) (cn : bool) : seckey := mkSecKey i n pos cn.
Definition dx_link (a : seckey) (b : seckey) (st : status) : link := mkLink (k_site a) (k_site b) true (k_cn b) (Some (a, b)) st.
Definition p0 := dx_key "p" 0 0 false. Definition p1 := dx_key "p" 0 1 false.
Definition d0 := dx_key "d" 0 0 false. Definition d1 := dx_key "d" 0 1 false.
Definition e0 := dx_key "e" 0 0 false. Definition c0 := dx_key "c" 0 0 true.
Definition dx_ops : list op :=
  [AddSite (x_site_ "p" POP EXISTING 0); AddSite (x_site_ "d" DN PROPOSED 1); AddSite (x_site_ "c" CN PROPOSED 2); AddSite (x_site_ "e" DN PROPOSED 3);
   AddSector (mkSector p0 CANDIDATE); AddSector (mkSector p1 CANDIDATE); AddSector (mkSector d0 CANDIDATE); AddSector (mkSector d1 CANDIDATE);
   AddSector (mkSector c0 CANDIDATE); AddSector (mkSector e0 CANDIDATE);
   AddLink (dx_link p0 d0 CANDIDATE); AddLink (dx_link d0 p0 CANDIDATE);
   AddLink (dx_link d1 c0 CANDIDATE); AddLink (dx_link d1 e0 CANDIDATE); AddLink (dx_link e0 d1 CANDIDATE);
   AddDemand (mkDemand "z" ["c"; "e"]%string)].
Definition dx_topo : topo := run dx_ops empty_topo.
Definition dx_params : params := mkParams 2 1 2 false true 1000 (1 # 2) false (fun _ => 10).
Definition no_inst : inst := mkInst ex_params [] [] (fun _ => []) [] [] [] [] [] [] [] [] [] [] [] [] [] [] [] [] [] 0.
Definition dx_inst : inst := match network dx_params ex_attrs dx_topo with Ok x => x | Err _ => no_inst end.
Definition dx_bad : list (string * string * string) := [("d", "e", "p")]%string.
Definition dx_problem : problem := match deploy_problem 2 15 dx_bad dx_inst with Ok P => P | Err _ => mkProblem [] [] end.
(** [p-d] on channel 0, [d-e] and [d-c] on channel 1; one unit to [e] *)
Definition dx_v (x : var) : Q :=
  match x with
  | VFlow i j => if mem (i, j) [("SUPERSOURCE", "p"); ("p", "d"); ("d", "e"); ("e", "z")]%string then 1 else 0
  | VActive i j => 1
  | VDeploy i j c => if beq (i, j, c) ("d", "p", 0%nat)%string || beq (i, j, c) ("d", "e", 1%nat)%string then 1 else 0
  | VSector i s c => if mem (s, c) [(key_id p0, 0%nat); (key_id d0, 0%nat); (key_id d1, 1%nat); (key_id e0, 1%nat); (key_id c0, 0%nat)] then 1 else 0
  | VTdm i j c => if beq (i, j, c) ("p", "d", 0%nat)%string || beq (i, j, c) ("d", "e", 1%nat)%string then 1 # 2 else 0
  | VOdd i => if beq i "d"%string then 1 else 0
  | _ => 0
  end.
Lemma dx_reachable : reachable dx_topo.
Proof. exists dx_ops. split; [|reflexivity]. unfold dx_ops. repeat (constructor; [first [exact I | split; reflexivity | unfold op_ok, no_dash; simpl; intuition discriminate]|]). constructor. Qed.
Lemma dx_wf : well_formed dx_topo. Proof. apply wf_reachable, dx_reachable. Qed.
Lemma dx_names : names_ok ex_attrs dx_topo. Proof. apply names_okb_sound. vm_compute. reflexivity. Qed.
Lemma dx_stored : sectors_stored dx_topo. Proof. apply sectors_storedb_sound. vm_compute. reflexivity. Qed.
Lemma dx_kinds : sector_kinds dx_topo. Proof. apply sector_kindsb_sound. vm_compute. reflexivity. Qed.
Lemma dx_network : network dx_params ex_attrs dx_topo = Ok dx_inst. Proof. vm_compute. reflexivity. Qed.
Lemma dx_posed : deploy_problem 2 15 dx_bad dx_inst = Ok dx_problem. Proof. vm_compute. reflexivity. Qed.
Lemma dx_feasible : feasible dx_problem dx_v. Proof. apply feasibleb_sound. vm_compute. reflexivity. Qed.
(** of the two sectors of the one node of [p], one is on and the other is off *)
Lemma dx_node : exists ps at_ t I0 P v k x k' x', reachable t /\ names_ok at_ t /\ sectors_stored t /\ sector_kinds t /\ network ps at_ t = Ok I0 /\
  deploy_problem 2 15 [] I0 = Ok P /\ feasible P v /\ sector_stored t k x /\ sector_stored t k' x' /\ x_site x = x_site x' /\ k_node (x_key x) = k_node (x_key x') /\
  tuned v (x_site x) k 0 /\ forall c, ~ tuned v (x_site x') k' c.
Proof.
  exists dx_params, ex_attrs, dx_topo, dx_inst, (match deploy_problem 2 15 [] dx_inst with Ok P => P | Err _ => mkProblem [] [] end), dx_v,
    (key_id p0), (mkSector p0 CANDIDATE), (key_id p1), (mkSector p1 CANDIDATE).
  split; [exact dx_reachable|]. split; [exact dx_names|]. split; [exact dx_stored|]. split; [exact dx_kinds|]. split; [exact dx_network|]. split; [vm_compute; reflexivity|].
  split; [apply feasibleb_sound; vm_compute; reflexivity|]. split; [vm_compute; reflexivity|]. split; [vm_compute; reflexivity|]. split; [reflexivity|]. split; [reflexivity|].
  split; [vm_compute; reflexivity|]. intros c. unfold tuned, dx_v. replace (mem (key_id p1, c) _) with false; [intros H; discriminate H|].
  symmetry. apply mem_not_In. intros Hin. repeat (destruct Hin as [Hin|Hin]; [vm_compute in Hin; discriminate Hin|]). exact Hin.
Qed.
