(** Concrete cases for C65. *)
From Coq Require Import ZArith QArith Lqa.
From Verif Require OpsSpec.
From Verif Require Import Base Dict TopologyModel TopologySpec GraphSpec OpsModel NxModel NxSpec NxExamples AdvModel AdvSpec AdvProofs.
Local Open Scope string_scope.
Local Open Scope list_scope.

Definition c1 (k : string) : Q := 1.
(** p serves a in the plan, q could *)
Example d_adversarial : get_adversarial_links m0 c1 (1#2) dt = Ok [("a", "p"); ("p", "a")]. Proof. vm_compute. reflexivity. Qed.
Example d_count : backhaul_count dt 2. Proof. exact (count_ok dt dt_reachable). Qed.
Example d_alone i s : dget (t_sites dt) i = Some s -> ~ OpsSpec.excluded dt s.
Proof.
  intros E X. apply dget_In in E. vm_compute in E.
  assert (A : forall loc ty, OpsSpec.active_here dt loc ty -> exists i' s', In (i', s') (t_sites dt) /\ s_loc s' = loc /\ s_type s' = ty) by (intros loc ty (i' & s' & E' & H1 & H2 & _); exists i', s'; split; [now apply dget_In|auto]).
  assert (Ac : OpsSpec.active_status (s_status s)) by (destruct E as [E|[E|[E|[]]]]; injection E as <- <-; left; reflexivity).
  assert (Same : forall ty, OpsSpec.active_here dt (s_loc s) ty -> s_type s = ty).
  { intros ty Hh. destruct (A _ _ Hh) as (i' & s' & E' & H1 & H2). vm_compute in E'. destruct E as [E|[E|[E|[]]]]; injection E as <- <-; destruct E' as [E'|[E'|[E'|[]]]]; injection E' as <- <-; cbn in H1, H2 |- *; congruence. }
  destruct X as [(X1 & X2)|[(_ & X1 & X2)|(_ & _ & _ & _ & X)]]; [| |contradiction]; apply X2; split; auto.
Qed.
Example d_usable u v : carries dt in_plan u v -> carries dt in_plan v u /\ usable_arc dt c1 u v /\ usable_arc dt c1 v u.
Proof.
  assert (S : forall f i s, dget (t_sites dt) i = Some s -> In (s_status s) f -> site_with dt f (fun _ => True) i) by (intros f i s E H; exists s; auto).
  assert (L : forall f a b k l, link_stored dt k l -> l_tx l = a -> l_rx l = b -> In (l_status l) f -> site_with dt f (fun _ => True) a -> site_with dt f (fun _ => True) b -> exists e, arc_of dt f a b e) by (intros f a b k l H1 H2 H3 H4 H5 H6; exists (ELink (l_type l)); right; left; exists k, l; auto 8).
  assert (U : forall a b k l, link_stored dt k l -> l_tx l = a -> l_rx l = b -> In (l_status l) in_reach -> site_with dt in_reach (fun _ => True) a -> site_with dt in_reach (fun _ => True) b -> usable_arc dt c1 a b).
  { intros a b k l H1 H2 H3 H4 H5 H6. split; [now apply (L in_reach a b k l)|]. split; [intros; unfold c1; lra|]. split; intros (s & E & X); exact (d_alone _ _ E X). }
  intros (k & l & E & <- & <- & Ht & Hs & _). apply dget_In in E. vm_compute in E. repeat (destruct E as [E|E]; [inversion E; subst; clear E|]); try destruct E; cbn in Hs; try (destruct Hs as [Hs|[Hs|[]]]; discriminate); cbn [l_tx l_rx].
  - split; [|split].
    + exists "a-p". eexists. split; [vm_compute; reflexivity|]. repeat match goal with |- _ /\ _ => split end; try reflexivity; try (now left); eapply S; try (vm_compute; reflexivity); now left.
    + eapply (U _ _ "p-a"); try (vm_compute; reflexivity); try (now left); eapply S; try (vm_compute; reflexivity); now left.
    + eapply (U _ _ "a-p"); try (vm_compute; reflexivity); try (now left); eapply S; try (vm_compute; reflexivity); now left.
  - split; [|split].
    + exists "p-a". eexists. split; [vm_compute; reflexivity|]. repeat match goal with |- _ /\ _ => split end; try reflexivity; try (now left); eapply S; try (vm_compute; reflexivity); now left.
    + eapply (U _ _ "a-p"); try (vm_compute; reflexivity); try (now left); eapply S; try (vm_compute; reflexivity); now left.
    + eapply (U _ _ "p-a"); try (vm_compute; reflexivity); try (now left); eapply S; try (vm_compute; reflexivity); now left.
Qed.
(** an active link without capacity *)
Lemma dead_link_raises : exists mcs cap ratio t, reachable t /\ ids_apart t /\ (forall k l, link_stored t k l -> l_tx l <> l_rx l) /\ (exists i, site_with t in_plan (fun s => s_type s = POP) i) /\
  (forall u v, carries t in_plan u v -> carries t in_plan v u) /\ (forall k, 0 <= cap k)%Q /\ (0 < ratio <= 1)%Q /\ get_adversarial_links mcs cap ratio t = Err NetworkXExn.
Proof.
  exists m0, (fun k => if beq k "a-p" then 0%Q else 1%Q), 1%Q, dt. split; [exact dt_reachable|]. split; [exact dt_apart|]. split; [exact dt_no_self|]. split; [apply dt_pop; now left|]. split; [intros u v H; now apply d_usable in H|].
  split; [intros k; destruct (beq k "a-p"); lra|]. split; [lra|]. vm_compute. reflexivity.
Qed.
