(** Instances for C42, C58 and C59. *)
From Coq Require Import QArith Qround Qabs Qminmax Lqa.
From Verif Require Import Base QLib MonadLib TopologyModel SetupModel GeoModel SecLinkSpec SecLinkProofs SecPlaceModel SecPlaceSpec SecDpProofs SecPlaceProofs SecPlaceMainProofs SecPlaceFinalProofs SecEquidModel SecEquidProofs.
Local Open Scope Q_scope.
Local Open Scope string_scope.
Local Open Scope list_scope.

Definition three : list neighbor := [mkNb 315 1 true; mkNb 45 1 true; mkNb 100 2 false].
Definition two : list neighbor := [mkNb 315 1 true; mkNb 45 1 true].
Lemma three_wf : wf_site three 2 1 120 (Some 8).
Proof. constructor; try (intros x [<-|[<-|[<-|[]]]]; cbn; unfold direction; lra); try discriminate; try lia; try reflexivity. cbn. split; [reflexivity|discriminate]. Qed.
Lemma two_wf : wf_site two 1 2 90 (Some 8).
Proof. constructor; try (intros x [<-|[<-|[]]]; cbn; unfold direction; lra); try discriminate; try lia; try reflexivity. cbn. split; [reflexivity|discriminate]. Qed.
Example C42_instance : find_best_sectors three 2 1 120 None None (Some 8) (fun _ _ => false) None = Ok [[63]; [303]] /\ seen three 120 [63; 303] = 3%nat.
Proof. vm_compute. split; reflexivity. Qed.

(** a node at 0 with sectors at 315 and 45 sees both links, on different sectors *)
Lemma two_placed : placement two 2 90 None None 1 [0] [[315; 45]].
Proof.
  split; [reflexivity|]. split; [split; [exact I|vm_compute; discriminate]|]. split.
  - constructor; [|constructor]. split; [exists O; split; [lia|reflexivity]|]. intros l s _ _. split; exact I.
  - constructor; [|constructor]. split; [reflexivity|]. intros [|[|i]] s H; cbn in H; [| |destruct i; discriminate].
    + injection H as <-. split; [unfold direction; lra|]. exists 1%Z. vm_compute. reflexivity.
    + injection H as <-. split; [unfold direction; lra|]. exists 0%Z. vm_compute. reflexivity.
Qed.
Lemma two_lost : find_best_sectors two 1 2 90 None None (Some 8) (fun _ _ => false) (Some [("A", 1%Z); ("B", 2%Z)]) = Ok [] /\ seen two 90 [315; 45] = 2%nat.
Proof. vm_compute. split; reflexivity. Qed.

(** nine nodes of 40 degrees: every position is a multiple of 3, so each takes 42 *)
Definition one : list neighbor := [mkNb 10 1 true].
Lemma one_wf : wf_site one 9 1 40 None.
Proof. constructor; try (intros x [<-|[]]; cbn; unfold direction; lra); try discriminate; try lia; try reflexivity; try exact I. Qed.
Lemma nine_fails : find_best_sectors one 9 1 40 None None None (fun _ _ => false) None = Err OptExn.
Proof. eapply (fbs_fails one 9 1 40 None None None (fun _ _ => false) None one_wf 14); try reflexivity; lia. Qed.
Example C58_instance : 40 * qnat 1 <= 3 * qnat 14 /\ (8 * 14 <= 120)%nat.
Proof. split; [discriminate|cbn; lia]. Qed.

(** two links either side of north, 40 degrees apart, and a scan range of 70 *)
Lemma north : find_best_equidistant_sectors [340; 20] 1 1 70 = Ok [[2520 # 120]] /\ sees 70 21 (mkNb 340 1 true) = false /\
  sees 70 0 (mkNb 340 1 true) = true /\ sees 70 0 (mkNb 20 1 true) = true /\ client_cost 70 [340; 20] 0 < client_cost 70 [340; 20] 21.
Proof. vm_compute. repeat split. Qed.
Example C59_instance : find_best_equidistant_sectors [100; 150] 1 1 70 = Ok [[15120 # 120]].
Proof. vm_compute. reflexivity. Qed.
Lemma channels_lost : exists nbs number_of_nodes nspn hsr weight channels nodes sectors,
  wf_site nbs number_of_nodes nspn hsr weight /\ List.length channels = List.length nbs /\
  find_best_sectors nbs number_of_nodes nspn hsr None None weight (fun _ _ => false) (Some channels) = Ok [] /\
  placement nbs nspn hsr None None number_of_nodes nodes sectors /\ seen nbs hsr (List.concat sectors) = List.length nbs /\
  forall s, In s (List.concat sectors) -> List.length (filter (sees hsr s) nbs) = 1%nat.
Proof.
  exists two, 1%nat, 2%nat, 90, (Some 8), [("A", 1%Z); ("B", 2%Z)], [0], [[315; 45]]. split; [exact two_wf|]. split; [reflexivity|]. split; [exact (proj1 two_lost)|]. split; [exact two_placed|]. split; [exact (proj2 two_lost)|].
  intros s [<-|[<-|[]]]; vm_compute; reflexivity.
Qed.
Lemma north_missed : exists angles hsr c d l, 0 < hsr /\ hsr <= 360 /\ (forall a, In a angles -> direction a) /\
  find_best_equidistant_sectors angles 1 1 hsr = Ok [[l]] /\ l == c /\ position c /\ position d /\
  (exists a, In a angles /\ hsr / 2 < between c a) /\ (forall a, In a angles -> between d a < hsr / 2) /\
  client_cost hsr angles d < client_cost hsr angles c.
Proof.
  exists [340; 20], 70, 21, 0, (2520 # 120). repeat match goal with |- _ /\ _ => split end; try reflexivity; try discriminate.
  - intros a [<-|[<-|[]]]; unfold direction; lra.
  - exists 7%nat. split; [lia|reflexivity].
  - exists 0%nat. split; [lia|reflexivity].
  - exists 340. split; [now left|vm_compute; reflexivity].
  - intros a [<-|[<-|[]]]; vm_compute; reflexivity.
Qed.
