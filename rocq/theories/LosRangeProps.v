(** Property theorems C20 and C21; vocabulary in LosRangeSpec.v. *)
From Coq Require Import QArith.
From Verif Require Import Base Dict RfModel RfSpec RfProps LosRangeModel LosRangeSpec LosRangeProofs.
Local Open Scope Z_scope.

(** C20 *)
Theorem C20_search_terminates : forall capacity lo hi, total_on capacity lo (Z.max lo hi) ->
  exists r, search_max_los_dist_based_on_capacity capacity lo hi = Ok r.
Proof. exact search_total. Qed.
Print Assumptions C20_search_terminates.
(** for any capacity whatever, the answer is a distance without capacity just above one with capacity *)
Theorem C20_answer_has_no_capacity : forall capacity lo hi r, total_on capacity lo hi -> lo <= hi ->
  search_max_los_dist_based_on_capacity capacity lo hi = Ok r ->
  match r with
  | Some d => lo <= d <= hi /\ dead_at capacity d /\ (d = lo \/ closes_at capacity (d - 1))
  | None => closes_at capacity hi
  end.
Proof. exact search_inv. Qed.
Print Assumptions C20_answer_has_no_capacity.
Theorem C20_answer_is_least : forall capacity lo hi d, total_on capacity lo hi -> lo <= hi -> monotone_on capacity lo hi ->
  search_max_los_dist_based_on_capacity capacity lo hi = Ok (Some d) -> forall d', lo <= d' <= hi -> (dead_at capacity d' <-> d <= d').
Proof. exact search_least. Qed.
Print Assumptions C20_answer_is_least.
Theorem C20_none_iff_capacity_at_upper_bound : forall capacity lo hi r, total_on capacity lo hi -> lo <= hi -> monotone_on capacity lo hi ->
  search_max_los_dist_based_on_capacity capacity lo hi = Ok r -> (r = None <-> closes_at capacity hi).
Proof. exact search_none. Qed.
Print Assumptions C20_none_iff_capacity_at_upper_bound.
(** the hypotheses hold of the capacity of a link budget whose net gain falls with distance *)
Theorem C20_link_budgets_qualify : forall max_tx noise minimum table gain lo hi, good_table table -> throughput_increasing table ->
  (forall d d', lo <= d -> d <= d' -> d' <= hi -> (gain d' <= gain d)%Q) ->
  total_on (budget_capacity max_tx noise minimum table gain) lo hi /\ monotone_on (budget_capacity max_tx noise minimum table gain) lo hi.
Proof. intros. split; [now apply budget_total|now apply budget_monotone]. Qed.
Print Assumptions C20_link_budgets_qualify.
Example C20_hypotheses_met : exists gain : Z -> Q, (forall d d', 0 <= d -> d <= d' -> d' <= 10000 -> (gain d' <= gain d)%Q) /\
  good_table default_table /\ throughput_increasing default_table /\
  search_max_los_dist_based_on_capacity (budget_capacity 16 (-(74)) None default_table gain) 0 10000 = Ok (Some 8551).
Proof.
  exists (fun d => - inject_Z d / 100)%Q. split; [|split; [exact C48_default_table|split; [exact C49_default_table|vm_compute; reflexivity]]].
  intros d d' _ H _. unfold Qdiv. apply Qmult_le_compat_r; [|discriminate]. apply Qopp_le_compat. now rewrite <- Zle_Qle.
Qed.

(** C21 *)
Theorem C21_ranges_of_device_pairs : forall capacity m1 m2 bound all d,
  distinct_skus all -> get_max_los_dist_for_device_pairs capacity m1 m2 bound all = Ok d ->
  exists w, (forall tx rx, In tx all -> In rx all -> dv_type tx = DevDN -> range capacity m1 m2 tx rx = Ok (w tx rx)) /\
  (forall k, In k (dkeys d) <-> exists tx rx, In tx all /\ In rx all /\ dv_type tx = DevDN /\ k = (dv_sku tx, dv_sku rx)) /\
  (forall tx rx, In tx all -> In rx all -> dv_type tx = DevDN -> dget d (dv_sku tx, dv_sku rx) = Some (limited bound (pair_range w tx rx))).
Proof. exact device_pairs_ok. Qed.
Print Assumptions C21_ranges_of_device_pairs.
Theorem C21_succeeds_if_every_range_exists : forall capacity m1 m2 bound all w, distinct_skus all ->
  (forall tx rx, In tx all -> In rx all -> dv_type tx = DevDN -> range capacity m1 m2 tx rx = Ok (w tx rx)) ->
  exists d, get_max_los_dist_for_device_pairs capacity m1 m2 bound all = Ok d.
Proof. intros. edestruct device_pairs as (d & E & _); eauto. Qed.
Print Assumptions C21_succeeds_if_every_range_exists.
Theorem C21_symmetric_between_dns : forall capacity m1 m2 bound all d a b,
  distinct_skus all -> get_max_los_dist_for_device_pairs capacity m1 m2 bound all = Ok d ->
  In a all -> In b all -> dv_type a = DevDN -> dv_type b = DevDN -> dget d (dv_sku a, dv_sku b) = dget d (dv_sku b, dv_sku a).
Proof. exact device_pairs_symmetric. Qed.
Print Assumptions C21_symmetric_between_dns.
Theorem C21_within_the_bound : forall capacity m1 m2 b all d k x,
  distinct_skus all -> get_max_los_dist_for_device_pairs capacity m1 m2 (Some b) all = Ok d -> dget d k = Some x -> x <= b.
Proof. exact device_pairs_bounded. Qed.
Print Assumptions C21_within_the_bound.
(** a one-way range is exactly the set of distances with capacity *)
Theorem C21_one_way_range_covers_capacity : forall capacity m1 m2 tx rx t r, usable_table m1 m2 rx = Ok t -> range capacity m1 m2 tx rx = Ok r ->
  total_on (capacity tx rx t) LOWER_BOUND_FOR_LOS_DISTANCE UPPER_BOUND_FOR_LOS_DISTANCE ->
  monotone_on (capacity tx rx t) LOWER_BOUND_FOR_LOS_DISTANCE UPPER_BOUND_FOR_LOS_DISTANCE ->
  forall x, LOWER_BOUND_FOR_LOS_DISTANCE <= x <= UPPER_BOUND_FOR_LOS_DISTANCE -> (closes_at (capacity tx rx t) x <-> x < r).
Proof. exact range_covers. Qed.
Print Assumptions C21_one_way_range_covers_capacity.
(** two DNs and a CN, the CN listed first; the DNs reach each other over different distances *)
Definition c21_devices : list device := [mkDevice "c" DevCN default_table; mkDevice "a" DevDN default_table; mkDevice "b" DevDN default_table].
Definition c21_capacity (tx rx : device) (t : list mcsrow) (d : Z) : result Q :=
  Ok (if d <? (if String.eqb (dv_sku tx) "a" then 300 else 200) then 1%Q else 0%Q).
Example C21_hypotheses_met : distinct_skus c21_devices /\ exists d,
  get_max_los_dist_for_device_pairs c21_capacity (Some 9%nat) None (Some 250) c21_devices = Ok d /\
  dget d ("a", "b")%string = Some 250 /\ dget d ("b", "a")%string = Some 250 /\ dget d ("b", "c")%string = Some 200 /\ dget d ("c", "a")%string = None.
Proof. split; [repeat constructor; cbn; intuition discriminate|]. eexists. split; [vm_compute; reflexivity|]. repeat split; reflexivity. Qed.
