(** The network of C81 with a second channel: its answer is read. *)
From Coq Require Import QArith Lia.
From Verif Require Import Base Dict TopologyModel TopologySpec TopologyLemmas GraphSpec GraphProofs SetupModel IlpModel IlpSpec QLib MonadLib SetupProofs IlpExamples
  DeploySpec ChanModel ChanSpec ChanExamples SinrModel SinrSpec SinrExamples TuneModel TuneSpec TuneExamples.
Local Open Scope Q_scope.

Definition gx_inst : inst := match network fx_params ex_attrs sx_topo with Ok x => x | Err _ => no_inst end.
Definition gx_full : problem * dproblem :=
  match full_problem sx_radio 2 15 [] gx_inst with Ok x => x | Err _ => (mkProblem [] [], mkDproblem [] [] []) end.
Lemma gx_network : network fx_params ex_attrs sx_topo = Ok gx_inst. Proof. vm_compute. reflexivity. Qed.
Lemma gx_posed : full_problem sx_radio 2 15 [] gx_inst = Ok gx_full. Proof. vm_compute. reflexivity. Qed.
Lemma gx_answers : answers gx_full fx_w.
Proof. split; [apply feasibleb_sound; vm_compute; reflexivity|apply dfeasibleb_sound; vm_compute; reflexivity]. Qed.
Lemma all_links (t : topo) (p : link -> bool) : forallb p (map snd (t_links t)) = true -> forall k l, link_stored t k l -> p l = true.
Proof. intros H k l El. rewrite forallb_forall in H. apply H, in_map_iff. exists (k, l). split; [reflexivity|]. now apply dget_In. Qed.
Lemma gx_eligible k l : link_stored sx_topo k l -> l_wireless l = true -> eligible ex_attrs l.
Proof.
  intros El W. split; [exact W|].
  assert (H := all_links sx_topo (fun l => match l_sectors l with Some _ => negb (Qle_bool (a_cap ex_attrs (l_tx l, l_rx l)) 0) | None => false end)). specialize (H ltac:(vm_compute; reflexivity) k l El). cbv beta in H.
  destruct (l_sectors l) as [[a b]|]; [|discriminate]. split; [eauto|]. apply Qnot_le_lt. intros Hle. apply Qle_bool_iff in Hle. rewrite Hle in H. discriminate.
Qed.
Lemma gx_clients k l : link_stored sx_topo k l -> type_is sx_topo (l_tx l) CN -> ~ type_is sx_topo (l_rx l) CN.
Proof.
  intros El (s & Hs & Ts) (s' & Hs' & Ts').
  assert (H := all_links sx_topo (fun l => match dget (t_sites sx_topo) (l_tx l), dget (t_sites sx_topo) (l_rx l) with Some a, Some b => negb (beq (s_type a) CN && beq (s_type b) CN) | _, _ => false end)).
  specialize (H ltac:(vm_compute; reflexivity) k l El). cbv beta in H. rewrite Hs, Hs', Ts, Ts' in H. discriminate.
Qed.
