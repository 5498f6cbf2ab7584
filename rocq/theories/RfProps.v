(** Property theorems C13, C14, C32, C48 and C49; vocabulary in RfSpec.v. *)
From Coq Require Import QArith Lia.
From Verif Require Import Base RfModel RfSpec RfProofs.
Local Open Scope Q_scope.

(** C13 *)
Theorem C13_mcs_is_highest_supported : forall s t, t <> [] -> distinct_classes t ->
  exists m, get_mcs_from_snr (Some s) t = Ok m /\ highest_supported t s m.
Proof. exact get_mcs_highest. Qed.
Print Assumptions C13_mcs_is_highest_supported.
Theorem C13_highest_supported_is_unique : forall t s m m', highest_supported t s m -> highest_supported t s m' -> m = m'.
Proof. exact highest_unique. Qed.
Print Assumptions C13_highest_supported_is_unique.
Theorem C13_monotone_in_snr : forall s s' t m m', s <= s' -> get_mcs_from_snr (Some s) t = Ok m ->
  get_mcs_from_snr (Some s') t = Ok m' -> (m <= m')%nat.
Proof. exact get_mcs_monotone. Qed.
Print Assumptions C13_monotone_in_snr.
Theorem C13_lookups_are_inverse : forall t r, distinct_classes t -> increasing_snr t -> In r t ->
  get_mcs_from_snr (Some (m_snr r)) t = Ok (m_mcs r) /\ get_snr_from_mcs (m_mcs r) t = Ok (m_snr r) /\
  get_link_capacity_from_mcs (m_mcs r) t = m_mbps r / 1000 /\ get_backoff_from_mcs (m_mcs r) t = m_backoff r.
Proof. exact table_inverse. Qed.
Print Assumptions C13_lookups_are_inverse.
Theorem C13_class_reached_iff_threshold_reached : forall t r s m, distinct_classes t -> increasing_snr t -> In r t ->
  get_mcs_from_snr (Some s) t = Ok m ->
  (m_snr r <= s -> (m_mcs r <= m)%nat) /\ ((0 < m_mcs r)%nat -> (m_mcs r <= m)%nat -> m_snr r <= s).
Proof. exact mcs_snr_galois. Qed.
Print Assumptions C13_class_reached_iff_threshold_reached.
(** A table with two equal thresholds is accepted by the loader, but the threshold looked up
    for the lower of the two classes is then 0. *)
Theorem C13_equal_thresholds_refuted : exists rows t r, check_table 16 None None rows = Ok t /\
  distinct_classes t /\ In r t /\ get_snr_from_mcs (m_mcs r) t <> Ok (m_snr r).
Proof.
  exists [mkN 8 9 645 0; mkN 9 9 741 0], [mkRow 8 9 645 0; mkRow 9 9 741 0], (mkRow 8 9 645 0).
  split; [reflexivity|]. split; [repeat constructor; simpl; intuition discriminate|]. split; [left; reflexivity|].
  vm_compute. discriminate.
Qed.
Print Assumptions C13_equal_thresholds_refuted.
Example C13_default_table : distinct_classes default_table /\ increasing_snr default_table /\
  get_mcs_from_snr (Some (137 # 10)) default_table = Ok 9%nat /\ get_mcs_from_snr (Some 2) default_table = Ok 0%nat.
Proof.
  split; [repeat constructor; simpl; intuition discriminate|]. split; [|vm_compute; auto].
  unfold increasing_snr, default_table. intros r r' I I'. simpl in I, I'.
  repeat (destruct I as [<-|I]; [repeat (destruct I' as [<-|I']; [vm_compute; lia || reflexivity|]); destruct I'|]).
  destruct I.
Qed.

(** C14: the configuration check (configs.py 241-245) gives [minimum <= maximum] *)
Theorem C14_max_power_within_device_maximum : forall mx mn b d e, (forall p, mn = Some p -> p <= mx) ->
  get_max_tx_power mx mn b d e <= mx.
Proof. exact max_tx_le_maximum. Qed.
Print Assumptions C14_max_power_within_device_maximum.
Theorem C14_max_power_within_eirp_partial : forall mx mn b d e, (forall p, mn = Some p -> p + (b + d) <= e) ->
  get_max_tx_power mx mn b d (Some e) + (b + d) <= e.
Proof. exact max_tx_le_eirp. Qed.
Print Assumptions C14_max_power_within_eirp_partial.
(** without the hypothesis the minimum power overrides the regulatory cap *)
Theorem C14_minimum_overrides_eirp_refuted : exists mx mn b d e, (forall p, mn = Some p -> p <= mx) /\
  e < get_max_tx_power mx mn b d (Some e) + (b + d).
Proof.
  exists 16, (Some 12), 30, 0, 40. split; [|reflexivity]. intros p [= <-]. discriminate.
Qed.
Print Assumptions C14_minimum_overrides_eirp_refuted.
Theorem C14_max_power_is_the_largest_allowed : forall mx mn b d e q, q <= mx ->
  (forall x, e = Some x -> q + (b + d) <= x) -> q <= get_max_tx_power mx mn b d e.
Proof. exact max_tx_is_largest. Qed.
Print Assumptions C14_max_power_is_the_largest_allowed.
Theorem C14_max_power_at_least_minimum : forall mx mn b d e p, mn = Some p -> p <= get_max_tx_power mx mn b d e.
Proof. exact max_tx_ge_minimum. Qed.
Print Assumptions C14_max_power_at_least_minimum.
Theorem C14_adjusted_power_within_limits : forall t mn mx g np m k p, t <> [] -> backoff_nonneg t ->
  adjust_tx_power_with_backoff m t mn mx g np = Ok (k, Some p) ->
  (0 < k <= m)%nat /\ p <= mx - get_backoff_from_mcs k t /\ p <= mx /\ (forall q, mn = Some q -> q <= p).
Proof. exact adjust_power. Qed.
Print Assumptions C14_adjusted_power_within_limits.
Theorem C14_adjustment_terminates : forall t mn mx g np m, t <> [] ->
  exists k p, adjust_tx_power_with_backoff m t mn mx g np = Ok (k, p).
Proof. exact adjust_total. Qed.
Print Assumptions C14_adjustment_terminates.
Theorem C14_budget_power_within_limits_partial : forall mx mn g np t b, backoff_nonneg t -> link_budget mx mn g np t = Ok b ->
  b_tx b <= mx /\ ((0 < b_mcs b)%nat -> forall q, mn = Some q -> q <= b_tx b).
Proof. exact link_budget_power. Qed.
Print Assumptions C14_budget_power_within_limits_partial.
(** In class 0 the power of the link budget can be below the minimum, although the loader kept
    only rows that respect it: it compares with the device maximum, not with the EIRP-limited
    maximum. *)
Theorem C14_class_0_below_minimum_refuted : exists rows t b, check_table 20 (Some 10) None rows = Ok t /\
  link_budget (get_max_tx_power 20 (Some 10) 30 0 (Some 42)) (Some 10) (-(100)) (-(74)) t = Ok b /\ b_tx b < 10.
Proof.
  exists [mkN 0 1 0 5; mkN 1 3 100 5], [mkRow 0 1 0 5; mkRow 1 3 100 5].
  eexists. split; [reflexivity|]. split; [vm_compute; reflexivity|]. reflexivity.
Qed.
Print Assumptions C14_class_0_below_minimum_refuted.
Example C14_example : exists k p, adjust_tx_power_with_backoff 12 default_table (Some 0) 16 (-(74)) (-(74)) = Ok (k, Some p)
  /\ k = 10%nat /\ p == 14 /\ get_max_tx_power 16 (Some 0) 30 0 (Some 40) == 10.
Proof. eexists. eexists. split; [vm_compute; reflexivity|]. repeat split. Qed.

(** C32 *)
Theorem C32_accepted_table_is_consistent : forall norm to_float raw mx mn mm t,
  read_mcs_table norm to_float raw mx mn mm = Ok t ->
  exists header body rows, raw = Some (header :: body) /\ file_rows norm to_float header body rows /\
    consistent rows /\ selection (permitted mx mn mm) rows t /\ consistent_table t.
Proof. exact read_spec. Qed.
Print Assumptions C32_accepted_table_is_consistent.
Theorem C32_ascending_rows_are_accepted : forall mx mn mm rows, ascending rows ->
  (forall m, mm = Some m -> exists r, In r rows /\ m <= n_mcs r) -> exists t, check_table mx mn mm rows = Ok t.
Proof. exact check_accepts. Qed.
Print Assumptions C32_ascending_rows_are_accepted.
(** A consistent table listed in descending order is rejected as soon as one column has equal
    values, for instance when the backoff column is left out. *)
Theorem C32_descending_without_backoff_is_rejected : exists rows, consistent rows /\
  NoDup (map n_mcs rows) /\ check_table 16 None None rows = Err DataExn /\
  exists t, check_table 16 None None (rev rows) = Ok t.
Proof.
  exists [mkN 9 12 741 0; mkN 8 9 645 0]. split.
  - intros r r' [<-|[<-|[]]] [<-|[<-|[]]]; vm_compute; intuition discriminate.
  - split; [repeat constructor; simpl; intuition discriminate|]. split; [reflexivity|]. eexists. reflexivity.
Qed.
Print Assumptions C32_descending_without_backoff_is_rejected.
Definition numerals (s : string) : option Q :=
  (if String.eqb s "0" then Some 0 else if String.eqb s "8" then Some 8 else if String.eqb s "9" then Some 9
   else if String.eqb s "12" then Some 12 else if String.eqb s "645" then Some 645 else if String.eqb s "741" then Some 741 else None)%string.
Example C32_example : read_mcs_table (fun s => s) numerals
    (Some [["mcs"; "snr"; "mbps"]; ["8"; "9"; "645"]; ["9"; "12"; "741"]]%string) 16 (Some 0) (Some 9)
  = Ok [mkRow 9 12 741 0].
Proof. reflexivity. Qed.

(** C48 *)
Theorem C48_capacity_is_that_of_best_closing_class_partial : forall mx mn g np t, good_table t ->
  exists b, link_budget mx mn g np t = Ok b /\ best_capacity t mx mn g np (b_capacity b) /\
    b_capacity b = get_link_capacity_from_mcs (b_mcs b) t.
Proof. exact link_budget_best. Qed.
Print Assumptions C48_capacity_is_that_of_best_closing_class_partial.
(** the hypotheses of [good_table] that the loader does not enforce are all needed *)
Theorem C48_missing_class_loses_capacity_refuted : exists rows t b r, check_table 16 None None rows = Ok t /\
  link_budget 16 None (-(76)) (-(74)) t = Ok b /\ In r t /\ closes 16 None (-(76)) (-(74)) r /\
  0 < m_mbps r /\ b_capacity b == 0.
Proof.
  exists [mkN 9 12 741 0; mkN 11 14 1415 4], [mkRow 9 12 741 0; mkRow 11 14 1415 4].
  eexists. exists (mkRow 9 12 741 0). split; [reflexivity|]. split; [vm_compute; reflexivity|].
  split; [left; reflexivity|]. repeat split; discriminate || reflexivity.
Qed.
Print Assumptions C48_missing_class_loses_capacity_refuted.
Theorem C48_class_0_row_gives_capacity_to_dead_links_refuted : exists rows t, check_table 16 None None rows = Ok t /\
  forall g, g < -(100) -> exists b, link_budget 16 None g (-(74)) t = Ok b /\
    (forall r, In r t -> ~ closes 16 None g (-(74)) r) /\ 0 < b_capacity b.
Proof.
  exists [mkN 0 1 27 0; mkN 1 3 385 0], [mkRow 0 1 27 0; mkRow 1 3 385 0]. split; [reflexivity|].
  intros g Hg. assert (E : Qle_bool 1 (16 + g - -(74)) = false).
  { apply QLib.qle_false. assert (16 + g - -(74) == g + 90) as -> by ring.
    apply Qlt_trans with (-(100) + 90); [apply Qplus_lt_l; exact Hg|reflexivity]. }
  eexists. split.
  - unfold link_budget, get_mcs_from_snr. cbn [mcs_snr_mapping fold_left set_mcs Nat.eqb m_mcs m_snr map snd py_min_q rbind].
    change (qmin2 1 3) with 1. rewrite E. cbn. reflexivity.
  - split; [|reflexivity]. intros r I [C _]. apply QLib.qle_false in E.
    assert (X : forall s, s <= 16 - 0 + g - -(74) -> s <= 16 + g - -(74)).
    { intros s L. assert (Y : 16 + g - -(74) == 16 - 0 + g - -(74)) by ring. rewrite Y. exact L. }
    destruct I as [<-|[<-|[]]]; cbn [m_snr m_backoff] in C; apply X in C.
    + apply Qle_not_lt in C. contradiction.
    + apply (Qle_trans 1) in C; [|discriminate]. apply Qle_not_lt in C. contradiction.
Qed.
Print Assumptions C48_class_0_row_gives_capacity_to_dead_links_refuted.
Theorem C48_accepted_table_can_be_empty_refuted : exists rows, (exists r, In r rows /\ 9 <= n_mcs r) /\
  check_table 16 (Some 12) (Some 9) rows = Ok [] /\ link_budget 16 (Some 12) 0 (-(74)) [] = Err PyValueError.
Proof.
  exists [mkN 8 9 645 0; mkN 9 12 741 6]. split; [|split; reflexivity].
  exists (mkN 9 12 741 6). split; [right; left; reflexivity|discriminate].
Qed.
Print Assumptions C48_accepted_table_can_be_empty_refuted.
Example C48_default_table : good_table default_table.
Proof.
  split; [discriminate|]. split; [apply C13_default_table|]. split; [apply C13_default_table|]. split; [|split].
  - intros r r' k I I' [L L']. assert (B : (3 <= k <= 12)%nat).
    { simpl in I, I'. split.
      - repeat (destruct I as [<-|I]; [simpl in L; lia|]). destruct I.
      - repeat (destruct I' as [<-|I']; [simpl in L'; lia|]). destruct I'. }
    assert (K : In k (map m_mcs default_table)) by (simpl; lia).
    apply in_map_iff in K as [x [E K]]. exists x. auto.
  - intros r I. simpl in I. repeat (destruct I as [<-|I]; [discriminate|]). destruct I.
  - intros r I. simpl in I. repeat (destruct I as [<-|I]; [simpl; lia|]). destruct I.
Qed.

(** C49 *)
Theorem C49_capacity_monotone_partial : forall t mx mn g np mx' g' np' b b',
  good_table t -> throughput_increasing t -> mx <= mx' -> g <= g' -> np' <= np ->
  link_budget mx mn g np t = Ok b -> link_budget mx' mn g' np' t = Ok b' -> b_capacity b <= b_capacity b'.
Proof. exact link_budget_monotone. Qed.
Print Assumptions C49_capacity_monotone_partial.
(** with a missing class, a better link can have less capacity *)
Theorem C49_missing_class_refuted : exists rows t g g' b b', check_table 16 None None rows = Ok t /\ g <= g' /\
  link_budget 16 None g (-(74)) t = Ok b /\ link_budget 16 None g' (-(74)) t = Ok b' /\ b_capacity b' < b_capacity b.
Proof.
  exists [mkN 9 12 741 0; mkN 11 14 1415 4], [mkRow 9 12 741 0; mkRow 11 14 1415 4], (-(78)), (-(75)).
  eexists. eexists. split; [reflexivity|]. split; [discriminate|]. split; [vm_compute; reflexivity|].
  split; [vm_compute; reflexivity|]. reflexivity.
Qed.
Print Assumptions C49_missing_class_refuted.
Example C49_default_table : throughput_increasing default_table.
Proof.
  split.
  - intros r I. simpl in I. repeat (destruct I as [<-|I]; [discriminate|]). destruct I.
  - intros r r' I I'. simpl in I, I'.
    repeat (destruct I as [<-|I]; [repeat (destruct I' as [<-|I']; [cbn; intros; lia || discriminate|]); destruct I'|]).
    destruct I.
Qed.
