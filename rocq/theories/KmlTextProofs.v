(** Proofs: texts written and read back. *)
From Coq Require Import ZArith QArith Ascii Lia DecimalString DecimalN DecimalFacts.
From Verif Require Import Base TopologyModel ConfModel KmlModel KmlSpec.
Local Open Scope string_scope.

Definition esc1 (c : ascii) : string :=
  if Ascii.eqb c "&" then "&amp;" else if Ascii.eqb c ">" then "&gt;" else if Ascii.eqb c "<" then "&lt;" else String c "".
Lemma replace_app c b x y : replace_char c b (x ++ y) = replace_char c b x ++ replace_char c b y.
Proof.
  induction x as [|a x IH]; [reflexivity|]. cbn [replace_char append]. rewrite IH. destruct (Ascii.eqb a c); [|reflexivity].
  generalize (replace_char c b x) (replace_char c b y). clear. intros u v. induction b as [|z b IH]; [reflexivity|]. cbn [append]. now rewrite IH.
Qed.
Lemma escape_cons c s : escape (String c s) = esc1 c ++ escape s.
Proof.
  unfold escape, esc1. change (String c s) with (String c "" ++ s). rewrite !replace_app. f_equal.
  cbn [replace_char]. destruct (Ascii.eqb c "&") eqn:E1; [reflexivity|]. cbn [replace_char].
  destruct (Ascii.eqb c ">") eqn:E2; [reflexivity|]. cbn [replace_char]. destruct (Ascii.eqb c "<") eqn:E3; reflexivity.
Qed.
Lemma xml_esc1 c r : ordinary c -> xml_text (esc1 c ++ r) = option_map (String c) (xml_text r).
Proof.
  unfold ordinary, code. intros H. destruct c as [[|] [|] [|] [|] [|] [|] [|] [|]]; cbn in H; try (exfalso; lia); reflexivity.
Qed.
Lemma text_recovered s : readable s -> xml_text (escape s) = Some s.
Proof.
  induction s as [|c s IH]; [reflexivity|]. intros [H1 H2]. rewrite escape_cons, xml_esc1 by exact H1.
  change (every ordinary s) with (readable s) in H2. now rewrite (IH H2).
Qed.
Lemma every_app P a b : every P (a ++ b) <-> every P a /\ every P b.
Proof. induction a as [|c a IH]; cbn; [tauto|]. rewrite IH. tauto. Qed.
Lemma every_imp (P Q' : ascii -> Prop) s : (forall c, P c -> Q' c) -> every P s -> every Q' s.
Proof. intros H. induction s as [|c s IH]; cbn; [auto|]. intros [A B]. auto. Qed.
Lemma escape_closed s : every (fun c => c <> "<"%char /\ c <> ">"%char) (escape s).
Proof.
  induction s as [|c s IH]; [exact Logic.I|]. rewrite escape_cons. apply every_app. split; [|exact IH]. unfold esc1.
  destruct (Ascii.eqb_spec c "&") as [_|_]; [cbn; repeat split; discriminate|].
  destruct (Ascii.eqb_spec c ">") as [_|N2]; [cbn; repeat split; discriminate|].
  destruct (Ascii.eqb_spec c "<") as [_|N3]; [cbn; repeat split; discriminate|]. cbn. auto.
Qed.
Lemma word_ordinary c : word_char c -> ordinary c.
Proof. unfold word_char, ordinary. intros H. lia. Qed.
Lemma word_readable s : word s -> readable s.
Proof. apply every_imp, word_ordinary. Qed.
Lemma plain_text s : readable s -> no_markup s -> xml_text s = Some s.
Proof.
  induction s as [|c s IH]; [reflexivity|]. intros [H1 H2] [[M1 M2] M3]. change (every ordinary s) with (readable s) in H2.
  specialize (IH H2 M3). unfold ordinary, code in H1. clear H2 M3.
  destruct c as [[|] [|] [|] [|] [|] [|] [|] [|]]; cbn in H1; try (exfalso; lia); try congruence; cbn [xml_text]; rewrite IH; reflexivity.
Qed.
Lemma word_no_markup s : word s -> no_markup s.
Proof.
  apply every_imp. intros c H. unfold word_char, code in H. split; intros ->; cbn in H; lia.
Qed.
Lemma word_text s : word s -> xml_text s = Some s.
Proof. intros H. apply plain_text; [now apply word_readable|now apply word_no_markup]. Qed.

(** Numbers *)
Lemma uint_digits d : all_digits (NilEmpty.string_of_uint d) = true.
Proof. induction d; cbn; auto. Qed.
Lemma str_N_form n : exists c s, str_N n = String c s /\ all_digits (str_N n) = true.
Proof.
  unfold str_N, NilZero.string_of_uint. destruct (N.to_uint n) eqn:E; try (eexists _, _; split; [reflexivity|cbn; rewrite ?uint_digits; reflexivity]).
Qed.
Lemma to_uint_not_nil n : N.to_uint n <> Decimal.Nil.
Proof. intros E. pose proof (Unsigned.of_to n) as H. rewrite E in H. cbn in H. subst n. discriminate. Qed.
Lemma int_of_str n : int_of (str_N n) = Some n.
Proof.
  unfold int_of, isdecimal. destruct (str_N_form n) as (c & s & E & D). rewrite D, E.
  replace (negb (beq (String c s) "") && true)%bool with true by reflexivity. rewrite <- E. unfold str_N.
  rewrite NilZero.usu by apply to_uint_not_nil. cbn. f_equal. apply Unsigned.of_to.
Qed.
Lemma digits_word s : all_digits s = true -> word s.
Proof.
  induction s as [|c s IH]; [cbn; auto|]. cbn [all_digits]. rewrite andb_true_iff. intros [H1 H2]. split; [|apply IH, H2].
  unfold digit in H1. apply andb_prop in H1. destruct H1 as [A B]. apply Nat.leb_le in A, B. unfold word_char, code. lia.
Qed.
Lemma str_N_word n : word (str_N n).
Proof. destruct (str_N_form n) as (c & s & E & D). now apply digits_word. Qed.
Lemma str_Z_word z : word (str_Z z).
Proof.
  unfold str_Z, NilZero.string_of_int. destruct (Z.to_int z) as [d|d].
  - unfold NilZero.string_of_uint. destruct d; try (apply digits_word; cbn; rewrite ?uint_digits; reflexivity).
  - cbn [word every]. split; [unfold word_char, code; cbn; lia|].
    unfold NilZero.string_of_uint. destruct d; try (apply digits_word; cbn; rewrite ?uint_digits; reflexivity).
Qed.
