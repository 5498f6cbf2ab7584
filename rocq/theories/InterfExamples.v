(** Concrete cases for C38. *)
From Coq Require Import QArith ZArith Lqa.
From Verif Require Import Base Dict TopologyModel TopologySpec DeploySpec InterfModel InterfSpec InterfProofs InterfMainProofs InterfFinalProofs.
Local Open Scope string_scope.
Local Open Scope list_scope.

Definition ns i ty (z : Z) p := mkSite i ty PROPOSED (z, 0, 0)%Z p false.
Definition nk i := mkSecKey i 0 0 false.
Definition ck i := mkSecKey i 0 0 true.
Definition nl a b ka kb cn st := mkLink a b true cn (Some (ka, kb)) st.
Ltac ops_ok := repeat (constructor; [first [exact I | unfold op_ok, no_dash, link_args_ok; simpl; intuition (discriminate || reflexivity)]|]); constructor.
(** a talks to b, c and the CN n; d talks to c *)
Definition n_ops := [AddSite (ns "a" POP 1 ODD); AddSite (ns "b" DN 2 EVEN); AddSite (ns "c" DN 3 EVEN); AddSite (ns "d" DN 4 ODD); AddSite (ns "n" CN 5 UNASSIGNED);
  AddSector (mkSector (nk "a") PROPOSED); AddSector (mkSector (nk "b") PROPOSED); AddSector (mkSector (nk "c") PROPOSED); AddSector (mkSector (nk "d") PROPOSED); AddSector (mkSector (ck "n") PROPOSED);
  AddLink (nl "a" "b" (nk "a") (nk "b") false PROPOSED); AddLink (nl "b" "a" (nk "b") (nk "a") false PROPOSED);
  AddLink (nl "a" "c" (nk "a") (nk "c") false CANDIDATE); AddLink (nl "c" "a" (nk "c") (nk "a") false CANDIDATE);
  AddLink (nl "d" "c" (nk "d") (nk "c") false PROPOSED); AddLink (nl "c" "d" (nk "c") (nk "d") false PROPOSED);
  AddLink (nl "a" "n" (nk "a") (ck "n") true PROPOSED)].
Definition nt := run n_ops empty_topo.
Definition nchan (k : string) : Z := 0.
Definition nred (k : string) : bool := false.
Definition ngain (p v i : string) : Q := (-70#1).
Definition npower (i : string) (g : Q) : Q := 1#10.
Example nt_reachable : reachable nt. Proof. exists n_ops. split; [|reflexivity]. unfold n_ops. ops_ok. Qed.
Example nt_sectors : sectors_stored nt.
Proof.
  intros k l a b E S. apply dget_In in E. vm_compute in E.
  repeat (destruct E as [E|E]; [inversion E; subst; cbn in S; try discriminate; inversion S; subst; (split; [reflexivity|]); (split; [reflexivity|]); split; eexists; (split; [vm_compute; reflexivity|reflexivity])|]). destruct E.
Qed.
Example nt_served : cns_served nt.
Proof.
  intros i s E C _. apply dget_In in E. vm_compute in E.
  repeat (destruct E as [E|E]; [inversion E; subst; try (vm_compute in C; discriminate)|]); [|destruct E].
  exists EVEN, "a-n", (nl "a" "n" (nk "a") (ck "n") true PROPOSED), (ns "a" POP 1 ODD).
  repeat match goal with |- _ /\ _ => split end; try reflexivity; first [left; reflexivity | left; split; reflexivity].
Qed.
(** the inactive link a-c is the path along which the signals sent to b and n disturb c listening to d *)
Example nt_gains : net_gain_map nchan nred ngain nt = Ok [("a-c", [("d-c", [("a-b", (-70#1)%Q); ("a-n", (-70#1)%Q)])]); ("c-a", [("b-a", [("c-d", (-70#1)%Q)])])].
Proof. vm_compute. reflexivity. Qed.
Example nt_interferes : interferes nt nchan nred "a-c" "d-c" "a-b".
Proof. pose proof (gains_exact nchan nred ngain nt _ nt_reachable nt_sectors nt_gains "a-c" "d-c" "a-b" (-70#1)) as H. apply H. do 2 eexists. repeat split; vm_compute; reflexivity. Qed.
Example nt_cn : cn_polarities nt = Ok [("n", EVEN)]. Proof. vm_compute. reflexivity. Qed.
Example nt_sinr : exists R, analyze_interference nchan nred ngain nt npower (fun _ => Some (-(50#1))%Q) (fun _ => (1#5)%Q) (fun x => x) = Ok R
  /\ map fst R = ["a-b"; "b-a"; "d-c"; "c-d"; "a-n"] /\ exists x, In ("d-c", Some x) R /\ (x == - (50#1) - (3#10))%Q.
Proof. eexists. split; [vm_compute; reflexivity|]. split; [reflexivity|]. eexists. split; [right; right; left; reflexivity|]. reflexivity. Qed.
Example nt_list : lists_interferers nt nchan nred "d-c" (fun p => if beq p "a-c" then ["a-b"; "a-n"] else []).
Proof.
  intros p. split; [destruct (beq p "a-c"); repeat constructor; cbn; intuition discriminate|]. intros i.
  pose proof (gains_exact nchan nred ngain nt _ nt_reachable nt_sectors nt_gains p "d-c" i) as H. split.
  - destruct (beq_spec p "a-c") as [->|]; [|intros []]. intros [<-|[<-|[]]]; apply (H (-70#1)%Q); do 2 eexists; repeat split; vm_compute; reflexivity.
  - intros Hi. destruct (proj2 (H (ngain p "d-c" i)) (conj Hi eq_refl)) as (r & r' & E1 & E2 & E3). apply dget_In in E1. apply dget_In in E2. apply dget_In in E3.
    cbn [In] in E1. destruct E1 as [E1|[E1|[]]]; inversion E1; subst; cbn [In] in E2; destruct E2 as [E2|[]]; inversion E2; subst.
    rewrite beq_refl. cbn [In] in E3 |- *. destruct E3 as [E3|[E3|[]]]; inversion E3; auto.
Qed.
Example n_power_pos : forall i g, (0 <= npower i g)%Q. Proof. intros i g. unfold npower. lra. Qed.
(** a CN that is in the plan while the only link to it is not *)
Definition u_ops := [AddSite (ns "a" POP 1 ODD); AddSite (ns "n" CN 5 UNASSIGNED); AddSector (mkSector (nk "a") PROPOSED); AddSector (mkSector (ck "n") PROPOSED);
  AddLink (nl "a" "n" (nk "a") (ck "n") true CANDIDATE)].
Lemma unserved_cn_raises : exists t channel redundant gain power rsl noise lg, reachable t /\ sectors_stored t /\
  (forall i s, dget (t_sites t) i = Some s -> is_active (s_status s)) /\ (forall k x, dget (t_sectors t) k = Some x -> is_active (x_status x)) /\
  analyze_interference channel redundant gain t power rsl noise lg = Err PyKeyError.
Proof.
  exists (run u_ops empty_topo), nchan, nred, ngain, npower, (fun _ => None), (fun _ => 0%Q), (fun x => x). split; [exists u_ops; split; [unfold u_ops; ops_ok|reflexivity]|]. split.
  { intros k l a b E S. apply dget_In in E. vm_compute in E.
    repeat (destruct E as [E|E]; [inversion E; subst; cbn in S; try discriminate; inversion S; subst; (split; [reflexivity|]); (split; [reflexivity|]); split; eexists; (split; [vm_compute; reflexivity|reflexivity])|]). destruct E. }
  split.
  { intros i s E. apply dget_In in E. vm_compute in E. repeat (destruct E as [E|E]; [inversion E; subst; now left|]). destruct E. }
  split.
  { intros i s E. apply dget_In in E. vm_compute in E. repeat (destruct E as [E|E]; [inversion E; subst; now left|]). destruct E. }
  vm_compute. reflexivity.
Qed.
