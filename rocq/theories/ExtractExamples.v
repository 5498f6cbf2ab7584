(** The witness network of IlpExamples.v, read back as a plan. *)
From Coq Require Import QArith.
From Verif Require Import Base Dict TopologyModel TopologySpec GraphSpec SetupModel IlpModel IlpSpec ExtractModel ExtractSpec IlpExamples.
Local Open Scope Q_scope.

Definition sectors_presentb (t : topo) : bool :=
  forallb (fun p => match l_sectors (snd p) with
    | None => true
    | Some (a, b) =>
      match dget (t_sectors t) (key_id a) with Some x => String.eqb (x_site x) (l_tx (snd p)) | None => false end &&
      match dget (t_sectors t) (key_id b) with Some x => String.eqb (x_site x) (l_rx (snd p)) | None => false end
    end) (t_links t).
Lemma sectors_presentb_sound t : sectors_presentb t = true -> sectors_present t.
Proof.
  unfold sectors_presentb. rewrite forallb_forall. intros H k l a b El Es. apply dget_In in El. specialize (H _ El). cbn [snd] in H. rewrite Es in H.
  apply andb_true_iff in H. destruct H as (Ha & Hb). split.
  - destruct (dget (t_sectors t) (key_id a)) as [x|] eqn:E; [|discriminate]. exists x. split; [exact E|now apply String.eqb_eq].
  - destruct (dget (t_sectors t) (key_id b)) as [x|] eqn:E; [|discriminate]. exists x. split; [exact E|now apply String.eqb_eq].
Qed.
Lemma ex_sectors : sectors_present ex_topo. Proof. apply sectors_presentb_sound. vm_compute. reflexivity. Qed.
Definition ex_plan : solution := match extract None ex_inst ex_v with Ok (Some o) => o | _ => mkSolution [] [] [] [] [] [] [] [] [] 0 end.
Lemma ex_extract : extract None ex_inst ex_v = Ok (Some ex_plan).
Proof. vm_compute. reflexivity. Qed.
