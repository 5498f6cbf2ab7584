(** Comparing configuration objects. *)
From Coq Require Import ZArith QArith Lqa Ascii Lia Permutation.
From Verif Require TopologyProofs.
From Verif Require Import Base Dict QLib TopologyModel SetupModel LosRangeModel MonadLib ConfModel ConfSpec ConfProofs.
Local Open Scope string_scope.
Local Open Scope list_scope.

Lemma scalar_eq_refl v : scalar v = true -> scalar_eq v v = true.
Proof. destruct v; try discriminate; intros _; cbn; try (destruct b); try apply Qeq_bool_iff; try reflexivity. apply beq_refl. Qed.
Section Go.
Variable n : nat.
Variable y : list (string * val).
Definition items_eq : list val -> list val -> result bool :=
  fix items (l r : list val) : result bool :=
    match l, r with
    | [], _ => Ok true
    | _ :: _, [] => Err PyIndexError
    | p :: l, q :: r => do e <- eq_ n p q ; match e with Some false => Ok false | _ => items l r end
    end.
Definition go_eq : list (string * val) -> result (option bool) :=
  fix go (x : list (string * val)) : result (option bool) :=
    match x with
    | [] => Ok (Some true)
    | (k, v) :: x =>
      match dget y k with
      | None => Err PyKeyError
      | Some w =>
        if scalar v then if scalar_eq v w then go x else Ok (Some false)
        else
          match v with
          | VList l =>
            match w with
            | VList r =>
              let r := sorted_list r in
              do same <- items_eq (sorted_list l) r ;
              if same then go x else Ok (Some false)
            | _ => Err PyTypeError
            end
          | _ => eq_ n v w
          end
      end
    end.
End Go.
Lemma eq_unfold n c x c' y : eq_ (S n) (VObj c x) (VObj c' y) = if beq c c' then if config_class c then go_eq n y x else Ok None else Ok None.
Proof. reflexivity. Qed.
Lemma items_self n l : (forall p, In p l -> eq_ n p p = Ok (Some true)) -> items_eq n l l = Ok true.
Proof. induction l as [|p l IH]; intros H; [reflexivity|]. cbn [items_eq]. rewrite (H p (or_introl eq_refl)). cbn [rbind]. apply IH. intros q Hq. apply H. now right. Qed.
Lemma config_class_names c : In c ["SectorParams"; "DeviceData"; "SiteDetectionParams"; "GISDataParams"; "LOSParams"; "OptimizerParams"; "SystemParams"] -> config_class c = true.
Proof. intros H. unfold config_class. now apply mem_In. Qed.
Lemma sorted_In l p : In p (sorted_list l) <-> In p l.
Proof. unfold sorted_list. pose proof (TopologyProofs.sort_by_perm (fun a b => str_ltb (sku_of a) (sku_of b)) l) as P. split; apply Permutation_in; [exact P|now symmetry]. Qed.
Lemma eq_self n : forall v, nested n v -> eq_ n v v = Ok (Some true).
Proof.
  induction n as [|n IH]; intros v Hv; [contradiction|]. destruct v as [|b|q|s|l|d|c m|c a|i]; try contradiction.
  - reflexivity.
  - destruct b; reflexivity.
  - cbn. now rewrite (proj2 (Qeq_bool_iff q q) (Qeq_refl q)).
  - cbn [eq_]. now rewrite beq_refl.
  - cbn [eq_]. now rewrite !beq_refl.
  - destruct Hv as (Hc & Hn & Ha). rewrite eq_unfold, beq_refl, (config_class_names c Hc). assert (G : forall x, incl x a -> go_eq n a x = Ok (Some true)); [|apply G, incl_refl].
    induction x as [|[k v] x IHx]; intros Hi; [reflexivity|]. cbn [go_eq]. assert (Hin : In (k, v) a) by (apply Hi; now left). rewrite (In_dget a k v Hn Hin). destruct (scalar v) eqn:Es.
    + rewrite (scalar_eq_refl v Es). apply IHx. intros q Hq. apply Hi. now right.
    + specialize (Ha k v Hin). destruct v as [| | | |l|d| | |]; try (apply IH; exact Ha).
      cbv zeta. rewrite (items_self n (sorted_list l)). { cbn [rbind]. apply IHx. intros q Hq. apply Hi. now right. }
      intros p Hp. apply IH, Ha. now apply sorted_In.
  - cbn [eq_]. now rewrite beq_refl.
Qed.
Lemma simple_scalar v : simple v <-> scalar v = true.
Proof.
  split.
  - intros [[x [->|[[-> _]|[-> _]]]]|[s ->]]; reflexivity.
  - destruct v as [|b|q|s| | | | |]; try discriminate; intros _; [left|left|right]; [destruct b; [exists 1%Q|exists 0%Q]; unfold number; auto|exists q; now left|now exists s].
Qed.
Lemma scalar_same v w : scalar_eq v w = true -> simple v -> same_value v w.
Proof.
  intros H Hv. destruct Hv as [[x Hx]|[s ->]].
  - left. assert (G : exists y, num w = Ok y /\ Qeq_bool x y = true /\ number w y).
    { destruct Hx as [->|[[-> ->]|[-> ->]]]; destruct w as [|b|q|s| | | | |]; try discriminate; cbn in H; try (destruct b); eexists; split; try reflexivity; (split; [exact H|]); unfold number; auto. }
    destruct G as (y & _ & E & Hy). exists x, y. split; [exact Hx|]. split; [exact Hy|]. now apply Qeq_bool_iff.
  - right. exists s. split; [reflexivity|]. destruct w; cbn in H; try discriminate. apply beq_true in H. now subst.
Qed.
(** what equality guarantees: the simple attributes in front of the first one that is neither simple nor a list *)
Lemma eq_leading n c x y pre k v post : eq_ n (VObj c x) (VObj c y) = Ok (Some true) -> x = pre ++ (k, v) :: post -> (forall k' v', In (k', v') pre -> simple v' \/ exists l, v' = VList l) -> simple v ->
  exists w, dget y k = Some w /\ same_value v w.
Proof.
  intros E -> Hpre Hv. destruct n as [|n]; [discriminate|]. rewrite eq_unfold, beq_refl in E. destruct (config_class c); [|discriminate]. induction pre as [|[k1 v1] pre IH].
  - cbn [app go_eq] in E. destruct (dget y k) as [w|]; [|discriminate]. exists w. split; [reflexivity|]. rewrite (proj1 (simple_scalar v) Hv) in E. destruct (scalar_eq v w) eqn:Es; [|discriminate]. now apply scalar_same.
  - cbn [app go_eq] in E. destruct (dget y k1) as [w1|]; [|discriminate]. assert (Hpre' : forall k' v', In (k', v') pre -> simple v' \/ exists l, v' = VList l) by (intros k' v' Hin; apply (Hpre k'); now right).
    destruct (scalar v1) eqn:Es1; [destruct (scalar_eq v1 w1); [now apply IH|discriminate]|]. destruct (Hpre k1 v1 (or_introl eq_refl)) as [S1|[l ->]]; [apply simple_scalar in S1; congruence|].
    destruct w1 as [| | | |r| | | |]; try discriminate. cbv zeta in E. destruct (items_eq n (sorted_list l) (sorted_list r)) as [[|]|]; cbn [rbind] in E; try discriminate. now apply IH.
Qed.
