(** Proofs for C74: angles. *)
From Coq Require Import QArith Qabs Qminmax Permutation Lqa Sorting.Sorted.
From Verif Require Import Base Dict QLib MonadLib TopologyModel SetupModel GeoModel SecLinkSpec SecLinkProofs SecPlaceSpec SiteSecModel SiteSecSpec SiteSecProofs.
From Verif Require TopologyProofs MetricMainProofs.
Local Open Scope Q_scope.
Local Open Scope list_scope.

Lemma spacing_iff hsr l : Forall direction l -> spacing hsr l = Ok tt <-> in_a_row hsr l.
Proof.
  induction l as [|a [|b t] IH]; intros D; [cbn; tauto|cbn; tauto|]. inversion D as [|? ? Da Dt]; subst. inversion Dt as [|? ? Db _]; subst.
  change (spacing hsr (a :: b :: t)) with (rbind (guard (qless (Qabs (Qabs (angle_delta a b) - hsr)) ANGLE_TOLERANCE) OptExn) (fun _ => spacing hsr (b :: t))).
  change (in_a_row hsr (a :: b :: t)) with (Qabs (between a b - hsr) < 1 # 100 /\ in_a_row hsr (b :: t)).
  rewrite guard_bind, <- (IH Dt). destruct (qless _ _) eqn:E; [apply qless_true in E|apply qless_false in E]; rewrite (angle_delta_between a b Da Db) in E; unfold ANGLE_TOLERANCE in E.
  - tauto.
  - split; [discriminate|]. intros [H _]. lra.
Qed.
Lemma inside_iff p s e : inside p s e = true <-> on_arc p s e.
Proof.
  unfold inside, on_arc. destruct (Qle_bool s e) eqn:E; [apply qle_true in E|apply qle_false in E].
  - rewrite andb_true_iff. rewrite !qle_true. split; [intros [H1 H2]; left; auto|]. intros [H|[H _]]; [tauto|lra].
  - rewrite orb_true_iff, !qle_true. split; [intros H; right; split; [exact E|exact H]|]. intros [[H _]|[_ H]]; [lra|exact H].
Qed.
Lemma qmin_le x a b : x <= qmin a b <-> x <= a /\ x <= b.
Proof. unfold qmin. destruct (qless b a) eqn:E; [apply qless_true in E|apply qless_false in E]; split; intros; try split; try lra; tauto. Qed.
Lemma ends_of_iff l a b : ends_of l = Ok (a, b) <-> ends l a b.
Proof.
  unfold ends. destruct l as [|x t]; cbn [ends_of hd_error]; [split; [discriminate|intros [H _]; discriminate]|].
  assert (E : hd_error (rev (x :: t)) = Some (List.last t x)).
  { cbn [rev]. induction t as [|y t IH] using rev_ind; [reflexivity|]. rewrite rev_app_distr, last_last. reflexivity. }
  rewrite E. split; [intros H; injection H as <- <-; auto|]. intros [H1 H2]. congruence.
Qed.
Lemma ends_In l a b : ends l a b -> In a l /\ In b l.
Proof.
  intros [H1 H2]. split; [destruct l; [discriminate|injection H1 as <-; now left]|]. apply in_rev. destruct (rev l); [discriminate|injection H2 as <-; now left].
Qed.
Lemma ends_some l : l <> [] -> exists a b, ends l a b.
Proof. intros H. destruct (ends_of_ok l H) as [[a b] E]. exists a, b. now apply ends_of_iff. Qed.
Lemma pair_iff hsr x y : x <> [] -> y <> [] -> Forall direction x -> Forall direction y -> check_pair hsr x y = Ok tt <-> clear_of hsr x y.
Proof.
  intros Nx Ny Dx Dy. destruct (ends_some x Nx) as (a & b & E), (ends_some y Ny) as (c & d & F).
  assert (U : clear_of hsr x y <-> (hsr <= between a c /\ hsr <= between b c /\ hsr <= between a d /\ hsr <= between b d) /\ (~ on_arc c a b /\ ~ on_arc d a b /\ ~ on_arc a c d /\ ~ on_arc b c d)).
  { split; [intros H; now apply H|]. intros H a' b' c' d' [E1 E2] [F1 F2]. destruct E as [E1' E2'], F as [F1' F2'].
    assert (a' = a) by congruence. assert (b' = b) by congruence. assert (c' = c) by congruence. assert (d' = d) by congruence. subst. exact H. }
  rewrite U. clear U. rewrite Forall_forall in Dx, Dy. destruct (ends_In _ _ _ E) as [Ia Ib], (ends_In _ _ _ F) as [Ic Id].
  unfold check_pair. rewrite (proj2 (ends_of_iff _ _ _) E), (proj2 (ends_of_iff _ _ _) F). cbn [rbind fst snd]. cbv zeta. rewrite guard_bind.
  assert (Q1 : Qle_bool hsr (qmin (qmin (qmin (Qabs (angle_delta a c)) (Qabs (angle_delta b c))) (Qabs (angle_delta a d))) (Qabs (angle_delta b d))) = true <-> hsr <= between a c /\ hsr <= between b c /\ hsr <= between a d /\ hsr <= between b d).
  { rewrite qle_true, !qmin_le, !angle_delta_between by auto. tauto. }
  destruct (Qle_bool _ _).
  - rewrite guard_ok, negb_true_iff, !orb_false_iff, <- !not_true_iff_false, !inside_iff. tauto.
  - split; [discriminate|]. intros [H _]. exfalso. enough (false = true) by discriminate. now apply Q1.
Qed.

Lemma azimuths_In l n a : In a (azimuths l n) <-> exists s, In s l /\ v_node s = n /\ v_az s = a.
Proof.
  unfold azimuths. rewrite in_map_iff. split.
  - intros (s & <- & H). apply filter_In in H as [H E]. apply Z.eqb_eq in E. eauto.
  - intros (s & H & E & <-). exists s. split; [reflexivity|]. apply filter_In. split; [exact H|now apply Z.eqb_eq].
Qed.
Lemma azimuths_nonempty l s : In s l -> azimuths l (v_node s) <> [].
Proof. intros H E. assert (In (v_az s) []) as []. rewrite <- E. apply azimuths_In. eauto. Qed.
Section Meaning.
Variables (number_of_nodes nspn : nat) (hsr : Q) (mean : list Q -> Q) (l : list vsector).
Hypothesis D : forall s, In s l -> direction (v_az s).
Lemma arr_dir n : Forall direction (arrange mean (azimuths l n)).
Proof.
  apply Forall_forall. intros a H. apply (Permutation_in _ (arrange_perm _ _)) in H. apply azimuths_In in H as (s & Hs & _ & <-). now apply D.
Qed.
Lemma arr_nonempty s : In s l -> arrange mean (azimuths l (v_node s)) <> [].
Proof. intros H E. apply (azimuths_nonempty l s H). assert (P := arrange_perm mean (azimuths l (v_node s))). rewrite E in P. now apply Permutation_nil in P. Qed.
Lemma row_one x : (List.length x <= 1)%nat -> in_a_row hsr x.
Proof. destruct x as [|a [|b t]]; cbn; try exact (fun _ => Logic.I). intros H. exfalso. lia. Qed.
Lemma passes_iff : passes number_of_nodes nspn hsr mean l <-> suitable number_of_nodes nspn hsr l (fun n => arrange mean (azimuths l n)).
Proof.
  unfold passes, suitable. split; intros (H1 & H2 & H3 & H); (split; [exact H1|split; [exact H2|split; [exact H3|]]]); intros s Hs; destruct (H s Hs) as (A & B).
  - destruct B as [B C]. split; [exact A|]. split; [apply arrange_perm|]. split.
    + destruct (le_lt_dec nspn 1) as [K|K].
      * apply row_one. rewrite (Permutation_length (arrange_perm _ _)), A. exact K.
      * apply spacing_iff; [apply arr_dir|]. now apply B.
    + intros s' Hs' N. apply pair_iff; try apply arr_dir; try (apply arr_nonempty; assumption). now apply C.
  - destruct B as (B & C & E). split; [exact A|]. split.
    + intros _. apply spacing_iff; [apply arr_dir|exact C].
    + intros s' Hs' N. apply pair_iff; try apply arr_dir; try (apply arr_nonempty; assumption). now apply E.
Qed.
Lemma accepted_suits : validate_site_sectors number_of_nodes nspn hsr mean l = Ok tt -> exists row, suitable number_of_nodes nspn hsr l row.
Proof.
  intros H. apply validate_iff in H as [->|H].
  - exists (fun _ => []). split; [intros ? ? []|]. split; [constructor|]. split; [|intros ? []]. intros [|n ns] _ K; [cbn; lia|]. destruct (K n (or_introl eq_refl)) as (? & [] & _).
  - eexists. apply passes_iff. exact H.
Qed.
End Meaning.
