(** Concrete cases for C33. *)
From Coq Require Import ZArith QArith Lqa Lia.
From Verif Require Import Base Dict QLib MonadLib SetupModel LosRangeModel TopologyModel TopologySpec TopologyLemmas TopologyProofs GraphSpec GraphProofs NxModel NxSpec NxProofs NxFailProofs NxBuildProofs NxFinalProofs NxExamples AvailModel AvailSpec AvailProofs AvailSimProofs AvailFinalProofs AvailTopoProofs.
Local Open Scope string_scope.
Local Open Scope list_scope.

(** the ring p, a, b of C40; the link between a and p fails more often than the others *)
Definition dr (k : string * string) (n : nat) : Q * Q := if beq k ("a", "p") then (1, 1)%Q else (3, 1)%Q.
Definition never (n : nat) : bool := false.
Example dr_drawn k n : (0 < fst (dr k n))%Q /\ (0 <= snd (dr k n))%Q. Proof. unfold dr. destruct (beq k _); cbn [fst snd]; lra. Qed.
Lemma dr_starts k : forall n, (inject_Z (Z.of_nat n) <= starts dr (50 / 100) (1 - 50 / 100) k n)%Q.
Proof.
  induction n as [|n IH]; [vm_compute; discriminate|]. cbn [starts]. rewrite Nat2Z.inj_succ. unfold Z.succ. rewrite inject_Z_plus. change (inject_Z 1) with 1%Q. change (50 / 100)%Q with (50#100)%Q. change (50 / 100)%Q with (50#100)%Q in IH. revert IH. generalize (starts dr (50#100) (1 - (50#100)) k n). intros q IH. unfold dr. destruct (beq k _); cbn [fst snd]; lra.
Qed.
Example dr_enough k : exists n, (4 <= starts dr (50 / 100) (1 - 50 / 100) k n)%Q.
Proof. exists 4%nat. exact (dr_starts k 4%nat). Qed.
Example xt_both : forall u v, carries xt act u v -> carries xt act v u.
Proof.
  intros u v (k & l & H & H1 & H2 & H3 & H4 & H5 & H6). apply dget_In in H. vm_compute in H.
  assert (forall k l, link_stored xt k l -> l_type l = WIRELESS_BACKHAUL -> In (l_status l) act -> site_with xt act (fun _ => True) (l_tx l) -> site_with xt act (fun _ => True) (l_rx l) -> carries xt act (l_tx l) (l_rx l)) as C by (intros k' l' X1 X2 X3 X4 X5; exists k', l'; auto 10).
  repeat (destruct H as [H|H]; [injection H as <- <-; cbn in H1, H2; subst; try discriminate H3|]); [..|destruct H].
  all: match goal with |- carries _ _ ?a ?b => refine (C (a ++ "-" ++ b)%string (mkLink a b true false None PROPOSED) _ _ _ _ _); [vm_compute; reflexivity|reflexivity|now left|assumption|assumption] end.
Qed.
Example x_runs : exists A LA, compute_availability dr never 20 xg 50 4 = Ok (A, LA) /\ map (fun q => (fst q, Qred (snd q))) A = [("x", 3#4); ("y", 3#4); ("z", 1)]%Q
  /\ map (fun q => (fst q, Qred (snd q))) LA = [(("a", "p"), 1#2); (("b", "p"), 3#4); (("a", "b"), 3#4)]%Q.
Proof. eexists. eexists. split; [vm_compute; reflexivity|]. split; vm_compute; reflexivity. Qed.
Example x_all (over : nat -> bool) : exists N, forall fuel, (N <= fuel)%nat -> exists A LA, compute_availability dr over fuel xg 50 4 = Ok (A, LA) /\ lists_all (dkeys A) (served xt act).
Proof.
  destruct (topo_exact dr over m0 xt act 50 4 xt_reachable xt_apart xt_pop xt_no_self xt_both) as [N H]; [lra|split; lra|intros k n _; apply dr_drawn|intros k _; apply dr_enough|]. exists N. intros fuel L. destruct (H fuel L) as (A & LA & T & E & _ & _ & _ & K & _). exists A, LA. auto.
Qed.
Example xg_ok : graph_ok xg /\ no_loops xg /\ source_ok xg /\ two_way xg.
Proof.
  split; [exact (build_graph_ok m0 xt act xt_reachable xt_apart)|]. split; [exact (no_self m0 xt act xt_reachable xt_apart xt_no_self)|]. split; [exact (source_in m0 xt act xt_reachable xt_apart xt_pop)|].
  intros u v H. apply (typed_carries m0 xt act xt_reachable xt_apart) in H. apply xt_both in H. apply (typed_carries m0 xt act xt_reachable xt_apart) in H. apply arc_typed. eauto.
Qed.
Example x_joined : joined xg ("a", "p").
Proof. exists "p", "a". split; [apply (typed_carries m0 xt act xt_reachable xt_apart), x_carries|]. split; [right; reflexivity|reflexivity]. Qed.
Example x_perfect : exists A LA, compute_availability dr never 20 xg 100 4 = Ok (A, LA) /\ map (fun q => (fst q, Qred (snd q))) A = [("x", 1); ("y", 1); ("z", 1)]%Q.
Proof. eexists. eexists. split; vm_compute; reflexivity. Qed.
Example x_one_way : compute_availability dr never 20 (build_digraph m0 (run o_ops empty_topo) act) 50 4 = Err OptExn. Proof. vm_compute. reflexivity. Qed.

(** an availability of 0 passes the check, but the link is repaired and fails again at the same time, and failures come first *)
Lemma zero_fails : exists draw mcs t f, reachable t /\ ids_apart t /\ (exists i, site_with t f (fun s => s_type s = POP) i) /\ (forall k l, link_stored t k l -> l_tx l <> l_rx l) /\ (forall u v, carries t f u v -> carries t f v u) /\
  (forall k n, 0 < fst (draw k n) /\ 0 < snd (draw k n))%Q /\ (forall k, exists n, 4 <= starts draw (0 / 100) (1 - 0 / 100) k n)%Q /\
  exists N, forall fuel, (N <= fuel)%nat -> compute_availability draw (fun _ => false) fuel (build_digraph mcs t f) 0 4 = Err NetworkXExn.
Proof.
  exists (fun _ _ => (1, 1)%Q), m0, xt, act. split; [exact xt_reachable|]. split; [exact xt_apart|]. split; [exact xt_pop|]. split; [exact xt_no_self|]. split; [exact xt_both|]. split; [cbn; split; lra|]. split.
  - intros k. exists 4%nat. vm_compute. discriminate.
  - exists 10%nat. intros fuel L. do 10 (destruct fuel as [|fuel]; [lia|]). vm_compute. reflexivity.
Qed.
(** when the time limit is reached the availability of sites is related to the time simulated, that of links is not *)
Lemma links_not_rescaled : exists draw over g A LA k v T, graph_ok g /\ no_loops g /\ source_ok g /\ (forall u v, arc_type g u v (Some (ELink WIRELESS_BACKHAUL)) -> arc g v u) /\
  compute_availability draw over 20 g 50 4 = Ok (A, LA) /\ (0 < T)%Q /\ (T < 4)%Q /\
  (forall d w, dget A d = Some w -> holds_for (fun s => linked (works draw (50 / 100) (1 - 50 / 100) g s) d) 0 T (w * T)) /\
  dget LA k = Some v /\ ~ holds_for (fun s => ~ down draw (50 / 100) (1 - 50 / 100) k s) 0 T (v * T) /\ holds_for (fun s => ~ down draw (50 / 100) (1 - 50 / 100) k s) 0 T (v * 4).
Proof.
  assert (forall k s, 0 <= s -> s < 1#2 -> ~ down dr (50 / 100) (1 - 50 / 100) k s)%Q as Early.
  { intros k s L1 L2. apply (not_down dr (50 / 100) (1 - 50 / 100) k) with (n := 0%nat).
    - intros n. destruct (dr_drawn k n) as [L _]. change (50 / 100)%Q with (50#100)%Q. lra.
    - intros n. destruct (dr_drawn k n) as [_ L]. change (50 / 100)%Q with (50#100)%Q. lra.
    - exact L1.
    - unfold fails_at, dr. cbn [starts]. change (50 / 100)%Q with (50#100)%Q. destruct (beq k _); cbn [fst]; lra. }
  assert (forall P : Q -> Prop, (forall s, 0 <= s -> s < 1#2 -> P s)%Q -> forall m, (m == 1#2)%Q -> holds_for P 0 (1#2) m) as Half.
  { intros P H m E. apply (holds_on P 0 (1#2) (1#2) 0 m); [lra|exact H|constructor; reflexivity|lra]. }
  destruct xg_ok as (Hg & Hl & Hs & Hb). exists dr, (fun _ => true), xg. do 2 eexists. exists ("a", "p"). eexists. exists (1#2)%Q. split; [exact Hg|]. split; [exact Hl|]. split; [exact Hs|]. split; [exact Hb|]. split; [vm_compute; reflexivity|]. split; [lra|]. split; [lra|]. split; [|split; [vm_compute; reflexivity|split]].
  - destruct (connected_ok xg Hg Hs) as (l & E & _ & Hc). rewrite x_connected in E. injection E as <-. intros d w H.
    apply dget_In in H. assert (In d ["x"; "y"; "z"] /\ w == 1)%Q as [Hd Ew].
    { cbn [In] in H. repeat (destruct H as [H|H]; [injection H as <- <-; split; [cbn [In]; auto|vm_compute; reflexivity]|]). destruct H. }
    apply Half; [|rewrite Ew; reflexivity]. intros s L1 L2. apply Hc in Hd. destruct Hd as [_ Hd]. eapply linked_ext; [|exact Hd]. intros x y Ha. split; [exact Ha|]. intros k _ _. now apply Early.
  - intros H. pose proof (holds_unique _ _ _ _ (Half (fun s => ~ down dr (50 / 100) (1 - 50 / 100) ("a", "p") s) (Early _) (1#2)%Q (Qeq_refl _)) _ H) as E. vm_compute in E. discriminate.
  - apply Half; [apply Early|vm_compute; reflexivity].
Qed.
