(** Witnesses for C82: the networks of C80 and C81, and one with a link without sectors. *)
From Coq Require Import QArith Lia.
From Verif Require Import Base Dict TopologyModel TopologySpec TopologyLemmas GraphSpec GraphProofs SetupModel IlpModel IlpSpec QLib MonadLib SetupProofs IlpExamples
  DeploySpec ChanModel ChanSpec ChanExamples SinrModel SinrSpec SinrExamples TuneModel TuneSpec.
Local Open Scope Q_scope.

Definition no_plan : plan := mkPlan [] [] [] [] [] [] [] [].
Definition dx_plan : plan := match deployment None dx_bad dx_inst dx_v with Ok (Some o) => o | _ => no_plan end.
Lemma dx_read : deployment None dx_bad dx_inst dx_v = Ok (Some dx_plan). Proof. vm_compute. reflexivity. Qed.

(** one sector of the node of [p] is on in the plan, the other is off *)
Definition sx_plan : plan := match deployment None [] sx_inst sx_v with Ok (Some o) => o | _ => no_plan end.
Lemma sx_node_plan : exists R ps at_ t I0 PC w sol k x k' x', radio_ok R /\ reachable t /\ names_ok at_ t /\ sectors_stored t /\ sector_kinds t /\ network ps at_ t = Ok I0 /\
  full_problem R 2 15 [] I0 = Ok PC /\ answers PC w /\ deployment None [] I0 (w_net w) = Ok (Some sol) /\
  sector_stored t k x /\ sector_stored t k' x' /\ x_site x = x_site x' /\ k_node (x_key x) = k_node (x_key x') /\
  yes (pl_sector sol) (x_site x, k) /\ no (pl_sector sol) (x_site x', k').
Proof.
  exists sx_radio, sx_params, ex_attrs, sx_topo, sx_inst, sx_full, sx_w, sx_plan, (key_id p0), (mkSector p0 CANDIDATE), (key_id p1), (mkSector p1 CANDIDATE).
  split; [exact sx_radio_ok|]. split; [exact sx_reachable|]. split; [exact sx_names|]. split; [exact sx_stored|]. split; [exact sx_kinds|]. split; [exact sx_network|]. split; [exact sx_posed|].
  split; [exact sx_answers|]. split; [vm_compute; reflexivity|]. split; [vm_compute; reflexivity|]. split; [vm_compute; reflexivity|]. split; [reflexivity|]. split; [reflexivity|].
  split; vm_compute; reflexivity.
Qed.

(** the network of C81 with a second channel and a wireless link [p-e] without sectors, which has
    airtime on both channels *)
Definition fx_ops : list op := (sx_ops ++ [AddLink (mkLink "p" "e" true false None CANDIDATE)])%list.
Definition fx_topo : topo := run fx_ops empty_topo.
Definition fx_params : params := mkParams 2 1 2 false true 1000 (1 # 2) false (fun _ => 10).
Definition fx_inst : inst := match network fx_params ex_attrs fx_topo with Ok x => x | Err _ => no_inst end.
Definition fx_full : problem * dproblem :=
  match full_problem sx_radio 2 15 [] fx_inst with Ok x => x | Err _ => (mkProblem [] [], mkDproblem [] [] []) end.
Definition fx_v (x : var) : Q :=
  match x with
  | VSector i s c => if beq s (key_id p1) then 0 else if Nat.eqb c 0 then 1 else 0
  | VTdm i j c => if beq (i, j) ("p", "e")%string then 1 # 2 else if mem (i, j) [("p", "d"); ("q", "e")]%string && Nat.eqb c 0 then 1 # 2 else 0
  | _ => sx_v x
  end.
Definition fx_w : answer :=
  mkAnswer fx_v (fun i e c => if Nat.eqb c 0 then w_pol sx_w i e c else 0)
    (fun e c n => if Nat.eqb c 0 then w_class sx_w e c n else if Nat.eqb n 2 then 1 else 0).
Lemma fx_reachable : reachable fx_topo.
Proof. exists fx_ops. split; [|reflexivity]. unfold fx_ops, sx_ops. cbn [app]. repeat (constructor; [first [exact I | split; reflexivity | unfold op_ok, no_dash; simpl; intuition discriminate]|]). constructor. Qed.
Lemma fx_fails : exists R ps at_ t I0 PC w, radio_ok R /\ reachable t /\ names_ok at_ t /\ sectors_stored t /\ sector_kinds t /\ network ps at_ t = Ok I0 /\
  full_problem R 2 15 [] I0 = Ok PC /\ answers PC w /\ deployment None [] I0 (w_net w) = Err OptExn.
Proof.
  exists sx_radio, fx_params, ex_attrs, fx_topo, fx_inst, fx_full, fx_w.
  split; [exact sx_radio_ok|]. split; [exact fx_reachable|]. split; [apply names_okb_sound; vm_compute; reflexivity|]. split; [apply sectors_storedb_sound; vm_compute; reflexivity|].
  split; [apply sector_kindsb_sound; vm_compute; reflexivity|]. split; [vm_compute; reflexivity|]. split; [vm_compute; reflexivity|].
  split; [split; [apply feasibleb_sound; vm_compute; reflexivity|apply dfeasibleb_sound; vm_compute; reflexivity]|]. vm_compute. reflexivity.
Qed.
