(** Proofs: enum members by name. *)
From Coq Require Import ZArith Ascii Lia.
From Verif Require Import Base Dict TopologyModel SetupModel LosRangeModel ConfModel ConfSpec.
Local Open Scope string_scope.
Local Open Scope list_scope.

Lemma enum_names_eq c : map fst (members c) = enum_names c.
Proof.
  unfold members, enum_names.
  change (beq c "DeviceType") with (String.eqb c "DeviceType"). change (beq c "RedundancyLevel") with (String.eqb c "RedundancyLevel").
  change (beq c "TopologyRouting") with (String.eqb c "TopologyRouting"). change (beq c "LoggerLevel") with (String.eqb c "LoggerLevel").
  destruct (String.eqb c "DeviceType"); [reflexivity|]. destruct (String.eqb c "RedundancyLevel"); [reflexivity|].
  destruct (String.eqb c "TopologyRouting"); [reflexivity|]. destruct (String.eqb c "LoggerLevel"); reflexivity.
Qed.
Definition capital (c : ascii) : bool := let n := nat_of_ascii c in negb ((97 <=? n)%nat && (n <=? 122)%nat).
Fixpoint capitals (s : string) : bool := match s with EmptyString => true | String c r => capital c && capitals r end.
Lemma enum_capitals c m : In m (enum_names c) -> capitals m = true.
Proof.
  unfold enum_names. intros H. repeat match type of H with context[if ?b then _ else _] => destruct b end;
  repeat match type of H with In _ (_ :: _) => destruct H as [<-|H]; [reflexivity|] end; destruct H.
Qed.
Lemma spells_upper a b : capital b = true -> (spells a b <-> upper_char a = b).
Proof.
  unfold capital, spells, upper_char. intros H. apply negb_true_iff in H. destruct ((97 <=? nat_of_ascii a) && (nat_of_ascii a <=? 122))%nat eqn:E.
  - apply andb_prop in E. destruct E as [E1 E2]. apply Nat.leb_le in E1, E2. split.
    + intros [->|[_ L]].
      * exfalso. apply andb_false_iff in H. rewrite !Nat.leb_gt in H. lia.
      * rewrite L. replace (nat_of_ascii b + 32 - 32)%nat with (nat_of_ascii b) by lia. apply ascii_nat_embedding.
    + intros <-. right. split; [lia|]. rewrite nat_ascii_embedding by lia. lia.
  - split.
    + intros [->|[L1 L2]]; [reflexivity|]. exfalso. apply andb_false_iff in E. rewrite !Nat.leb_gt in E. lia.
    + intros ->. now left.
Qed.
Lemma spelling_upper s : forall m, capitals m = true -> (spelling s m <-> upper s = m).
Proof.
  induction s as [|a s IH]; intros [|b m] H; cbn; try (split; [tauto|discriminate]); try tauto. cbn in H. apply andb_prop in H. destruct H as [H1 H2].
  rewrite (spells_upper _ _ H1). change (smap upper_char s) with (upper s). rewrite (IH m H2). split; [intros [<- <-]; reflexivity|intros E; injection E as <- <-; auto].
Qed.
Lemma enum_by_name c s m : from_string c (VStr s) = Ok (VEnum c m) <-> In m (enum_names c) /\ spelling s m.
Proof.
  unfold from_string. rewrite enum_names_eq. split.
  - destruct (mem (upper s) (enum_names c)) eqn:E; [|discriminate]. intros H. injection H as <-. apply mem_In in E. split; [exact E|].
    apply spelling_upper; [eapply enum_capitals, E|reflexivity].
  - intros [H1 H2]. apply spelling_upper in H2; [|eapply enum_capitals, H1]. subst m. apply mem_In in H1. now rewrite H1.
Qed.
Lemma enum_unknown c s : (forall m, In m (enum_names c) -> ~ spelling s m) -> from_string c (VStr s) = Err PyKeyError.
Proof.
  intros H. unfold from_string. rewrite enum_names_eq. destruct (mem (upper s) (enum_names c)) eqn:E; [|reflexivity].
  apply mem_In in E. exfalso. apply (H _ E). apply spelling_upper; [eapply enum_capitals, E|reflexivity].
Qed.
