(** Concrete networks for power control. *)
From Coq Require Import QArith Lia.
From Verif Require Import Base Dict QLib SetupModel LosRangeModel TopologyModel RfModel RfSpec TpcModel TpcSpec.
Local Open Scope string_scope.
Local Open Scope Q_scope.
Local Open Scope list_scope.

Definition k1 (s : string) := mkSecKey s 0 0 false.
Definition wl (a b : string) (st : status) := mkLink a b true false (Some (k1 a, k1 b)) st.
Definition la := wl "a" "b" PROPOSED.
Definition lb := wl "c" "d" PROPOSED.
Definition lc := wl "e" "f" CANDIDATE.
Definition tab (l : link) := default_table.
Definition const {A} (q : A) (l : link) := q.
Definition blank : state := fun _ => mkMeas 0 NInf NInf 0 NInf NInf.
(** each of two links drowns the other while it transmits *)
Definition is_on (a : num) : bool := match a with Fin _ => true | _ => false end.
Definition crosstalk (pw : string -> num) (k : string) : Q :=
  if beq k "a-b" then if is_on (pw "c-d") then -(40) else -(74)
  else if beq k "c-d" then if is_on (pw "a-b") then -(40) else -(74) else -(74).
(** a mild interference *)
Definition mild (pw : string -> num) (k : string) : Q := if beq k "a-b" then if is_on (pw "c-d") then -(70) else -(74) else -(74).
Definition quiet_air (pw : string -> num) (k : string) : Q := -(74).

Lemma default_good : good_table default_table.
Proof.
  split; [discriminate|]. split; [unfold distinct_classes; cbn; repeat constructor; cbn; intuition discriminate|].
  split; [intros r r' H H'; cbn in H, H'; decompose [or] H; try contradiction; subst r; decompose [or] H'; try contradiction; subst r'; cbn; intros L; (reflexivity || (exfalso; lia))|].
  split; [|split].
  - intros r r' k H H' K. assert (3 <= k <= 12)%nat.
    { cbn in H, H'. decompose [or] H; try contradiction; subst r; decompose [or] H'; try contradiction; subst r'; cbn in K; lia. }
    do 3 (destruct k as [|k]; [exfalso; lia|]). do 10 (destruct k as [|k]; [match goal with |- exists x, In x default_table /\ m_mcs x = ?n => 
      assert (E : exists x, find (fun r => (m_mcs r =? n)%nat) default_table = Some x) by (eexists; reflexivity); destruct E as [x E]; exists x; apply find_some in E; destruct E as [E1 E2]; apply Nat.eqb_eq in E2; auto end|]). exfalso; lia.
  - intros r H. cbn in H. decompose [or] H; try contradiction; subst r; cbn; discriminate.
  - intros r H. cbn in H. decompose [or] H; try contradiction; subst r; cbn; lia.
Qed.
Lemma tables ls : tables_ok tab ls /\ good_tables tab ls.
Proof. split; intros l _; [destruct default_good as (A & B & _ & _ & C & _); auto|exact default_good]. Qed.
Lemma crosstalk_ext : depends_on_powers crosstalk.
Proof. intros p p' k H. unfold crosstalk. now rewrite !H. Qed.
Lemma mild_ext : depends_on_powers mild.
Proof. intros p p' k H. unfold mild. now rewrite !H. Qed.
Lemma default_positive : positive_thresholds default_table /\ lowest_usable default_table None 16.
Proof. split; [|discriminate]. intros r H. cbn in H. decompose [or] H; try contradiction; subst r; reflexivity. Qed.


Definition entry (r : result (state * bool)) (k : string) : option (meas * bool) := match r with Ok (s, b) => Some (s k, b) | Err _ => None end.
Lemma entry_ok r k v : entry r k = Some v -> exists s, r = Ok (s, snd v) /\ forall r' k' v', r' = r -> entry r' k' = Some v' -> s k' = fst v'.
Proof.
  destruct r as [[s b]|]; [|discriminate]. cbn. intros [= <-]. exists s. split; [reflexivity|]. intros r' k' v' -> H. cbn in H. injection H as <-. reflexivity.
Qed.
Lemma nodup2 : NoDup (map l_id [la; lb; lc]).
Proof. vm_compute. repeat constructor; cbn; intuition discriminate. Qed.
Lemma nodup1 l : NoDup (map l_id [l]).
Proof. repeat constructor. intros []. Qed.
Lemma air_ab : on_air la /\ on_air lb /\ has_sectors la /\ has_sectors lb /\ ~ on_air lc /\ has_sectors lc.
Proof. repeat split; cbn; auto; try discriminate. intros [[H|H] _]; discriminate. Qed.

(** Two links with mild interference: the powers become stable, both links transmit, in classes 6 and 8 *)
Notation run_mild := (power_control tab (const None) (const 16) (const (-(74))) (const (-(80))) 5 mild [la; lb; lc] 10 blank).
Example mild_runs : exists s, run_mild = Ok (s, true) /\ x_mcs (s "a-b") = 6%nat /\ x_tx (s "a-b") = Fin (124 # 8) /\ x_mcs (s "c-d") = 8%nat /\ x_tx (s "c-d") = Fin 15.
Proof.
  destruct (entry_ok run_mild "a-b" _ ltac:(vm_compute; reflexivity)) as (s & E & H). exists s. split; [exact E|].
  rewrite (H _ "a-b" _ eq_refl ltac:(vm_compute; reflexivity)), (H _ "c-d" _ eq_refl ltac:(vm_compute; reflexivity)). repeat split; reflexivity.
Qed.
Example mild_settled : exists s, run_mild = Ok (s, true) /\ settled tab (const None) (const 16) (const (-(74))) (const (-(80))) mild [la; lb; lc] s.
Proof.
  assert (T : exists s, run_mild = Ok (s, true)) by (destruct mild_runs as (s & E & _); eauto). destruct T as [s E]. exists s. split; [exact E|].
  assert (K : forall k, k = "a-b" \/ k = "c-d" -> match run_mild with Ok (s, _) =>
     match round tab (const None) (const 16) (const (-(74))) mild [la; lb; lc]
      (fun k => match find (fun l => beq (l_id l) k) [la; lb; lc] with Some l => if is_out_of_sector l then NaN else Fin (const (-(80)) l) | None => NaN end) s
     with Ok (s', _) => same_num (x_tx (s' k)) (x_tx (s k)) | Err _ => False end | Err _ => False end).
  { intros k [-> | ->]; vm_compute; reflexivity. }
  rewrite E in K. unfold settled. destruct (round _ _ _ _ _ _ _ s) as [[s' c]|]; [|destruct (K _ (or_introl eq_refl))]. exists s', c. split; [reflexivity|].
  intros l [<-|[<-|[<-|[]]]] Oa _; [apply (K "a-b"); auto|apply (K "c-d"); auto|]. now apply air_ab in Oa.
Qed.
(** One round is not enough for it, two are *)
Notation run_some n := (power_control tab (const None) (const 16) (const (-(74))) (const (-(80))) 5 mild [la; lb; lc] n blank).
Example mild_rounds : (exists s, run_some 1%Z = Ok (s, false)) /\ (exists s, run_some 2%Z = Ok (s, true)) /\ In la [la; lb; lc] /\ on_air la.
Proof.
  split; [|split; [|split; [now left|apply air_ab]]].
  - destruct (entry_ok (run_some 1%Z) "a-b" _ ltac:(vm_compute; reflexivity)) as (s & E & _). exists s. exact E.
  - destruct (entry_ok (run_some 2%Z) "a-b" _ ltac:(vm_compute; reflexivity)) as (s & E & _). exists s. exact E.
Qed.
Example no_iterations : power_control tab (const None) (const 16) (const (-(74))) (const (-(80))) 5 mild [la; lb; lc] 0 blank = Err OptExn.
Proof. reflexivity. Qed.

(** Two links that drown each other both end without signal, although either of them would work: nothing is transmitted in the end *)
Notation run_cross := (power_control tab (const None) (const 16) (const (-(74))) (const (-(80))) 5 crosstalk [la; lb] 10 blank).
Lemma all_silent : exists table minimum max_power noise gain pop received links n s s',
  NoDup (map l_id links) /\ good_tables table links /\ depends_on_powers received /\ links <> []
  /\ power_control table minimum max_power noise gain pop received links n s = Ok (s', true)
  /\ forall l, In l links -> on_air l /\ has_sectors l /\ x_cap (s' (l_id l)) == 0 /\ x_tx (s' (l_id l)) = NInf
       /\ exists r, In r (table l) /\ 0 < m_mbps r /\ closes (max_power l) (minimum l) (gain l) (received (powers s') (l_id l)) r.
Proof.
  exists tab, (const None), (const 16), (const (-(74))), (const (-(80))), 5, crosstalk, [la; lb], 10%Z, blank.
  destruct (entry_ok run_cross "a-b" _ ltac:(vm_compute; reflexivity)) as (s & E & H). exists s. cbn [snd] in E.
  assert (HA := H _ "a-b" _ eq_refl ltac:(vm_compute; reflexivity)). assert (HB := H _ "c-d" _ eq_refl ltac:(vm_compute; reflexivity)). cbn [fst] in HA, HB.
  split; [vm_compute; repeat constructor; cbn; intuition discriminate|]. split; [apply tables|]. split; [apply crosstalk_ext|]. split; [discriminate|]. split; [exact E|].
  destruct air_ab as (O1 & O2 & S1 & S2 & _).
  intros l [<-|[<-|[]]]; [change (l_id la) with "a-b"; rewrite HA|change (l_id lb) with "c-d"; rewrite HB].
  - split; [exact O1|]. split; [exact S1|]. split; [reflexivity|]. split; [reflexivity|]. exists (mkRow 8 9 645 0). split; [cbn; auto 8|]. split; [reflexivity|].
    split; [|discriminate]. unfold crosstalk, powers. cbn [beq]. rewrite HB. vm_compute. discriminate.
  - split; [exact O2|]. split; [exact S2|]. split; [reflexivity|]. split; [reflexivity|]. exists (mkRow 8 9 645 0). split; [cbn; auto 8|]. split; [reflexivity|].
    split; [|discriminate]. unfold crosstalk, powers. cbn [beq]. rewrite HA. vm_compute. discriminate.
Qed.

(** A device with a smallest power and a limit on radiated power: the class reported after control needs less power than is transmitted *)
Definition default_rows : list nrow := [ mkN 3 3 0 0; mkN 4 (9 # 2) (135 # 2) 0; mkN 5 5 115 0; mkN 6 (11 # 2) 260 0; mkN 7 (15 # 2) (905 # 2) 0;
  mkN 8 9 645 0; mkN 9 12 (2965 # 4) 0; mkN 10 14 1030 2; mkN 11 16 1415 4; mkN 12 18 1800 6 ].
Notation limited := (const (get_max_tx_power 16 (Some 10) 30 0 (Some 44))).
Notation run_min := (power_control tab (const (Some 10)) limited (const (-(74))) (const (-(60))) 5 quiet_air [la] 10 blank).
Lemma backoff_exceeded : exists rows t gain s s' r p, check_table 16 (Some 10) None rows = Ok t /\ good_table t /\ (m_mcs r = x_mcs (s' (l_id la)) /\ In r t)
  /\ power_control (fun _ => t) (const (Some 10)) limited (const (-(74))) (const gain) 5 quiet_air [la] 10 s = Ok (s', true)
  /\ x_tx (s' (l_id la)) = Fin p /\ get_max_tx_power 16 (Some 10) 30 0 (Some 44) - m_backoff r < p.
Proof.
  exists default_rows, default_table, (-(60)), blank. destruct (entry_ok run_min "a-b" _ ltac:(vm_compute; reflexivity)) as (s & E & H). exists s. cbn [snd] in E.
  assert (HA := H _ "a-b" _ eq_refl ltac:(vm_compute; reflexivity)). cbn [fst] in HA. exists (mkRow 12 18 1800 6), 10.
  split; [vm_compute; reflexivity|]. split; [exact default_good|]. change (l_id la) with "a-b". rewrite HA. split; [split; [reflexivity|cbn; auto 12]|].
  split; [exact E|]. split; [reflexivity|]. vm_compute. reflexivity.
Qed.
(** A link that is not built is reported with more capacity than its link budget allows *)
Notation run_cand := (power_control tab (const None) (const 16) (const (-(74))) (const (-(72))) 5 quiet_air [lc] 10 blank).
Lemma candidate_capacity : exists t l max_power noise gain s s' b bu, good_table t /\ ~ on_air l /\ l_type l <> ETHERNET /\ has_sectors l
  /\ power_control (fun _ => t) (const None) (const max_power) (const noise) (const gain) 5 quiet_air [l] 10 s = Ok (s', b)
  /\ link_budget max_power None gain noise t = Ok bu /\ b_capacity bu < x_cap (s' (l_id l))
  /\ forall r, In r t -> closes max_power None gain noise r -> m_mbps r / 1000 < x_cap (s' (l_id l)).
Proof.
  exists default_table, lc, 16, (-(74)), (-(72)), blank. destruct (entry_ok run_cand "e-f" _ ltac:(vm_compute; reflexivity)) as (s & E & H). exists s. eexists. eexists.
  assert (HA := H _ "e-f" _ eq_refl ltac:(vm_compute; reflexivity)). cbn [fst] in HA. destruct air_ab as (_ & _ & _ & _ & O & S3).
  split; [exact default_good|]. split; [exact O|]. split; [discriminate|]. split; [exact S3|]. split; [exact E|]. split; [vm_compute; reflexivity|].
  change (l_id lc) with "e-f". rewrite HA. split; [vm_compute; reflexivity|].
  intros r Hr [C _]. cbn in Hr. decompose [or] Hr; try contradiction; subst r; try (vm_compute; reflexivity); vm_compute in C; exfalso; apply C; reflexivity.
Qed.
