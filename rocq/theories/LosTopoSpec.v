(** What C26 means. *)
From Coq Require Import QArith Qabs.
From Verif Require Import Base Dict TopologyModel TopologySpec LosBatchModel LosPickModel LosPickSpec LosTopoModel.

Section Spec.
Variables dn_devices cn_devices : list string.
Variables distance elevation : site -> site -> Q.
Variable ranges : dict (string * string) Z.
Variables min_los_dist max_el_scan_angle : Q.
(** the sites a picked index stands for: a given site itself, or a detected site with any device of its type *)
Inductive option_of : csite -> dsite -> Prop :=
| itself d : option_of (Given d) d
| cn_device to_site sku : In sku cn_devices -> option_of (Found CN to_site) (mkDSite (to_site sku) sku)
| dn_device ty to_site sku : ty <> CN -> In sku dn_devices -> option_of (Found ty to_site) (mkDSite (to_site sku) sku).
Definition stands_for (sites : list csite) (picked : list nat) (i : nat) (d : dsite) : Prop :=
  In i picked /\ exists c, nth_error sites i = Some c /\ option_of c d.
(** two sites close enough and level enough for their devices *)
Definition within_limits (a b : dsite) : Prop :=
  (min_los_dist <= distance (ds_site a) (ds_site b))%Q /\
  (exists m, dget ranges (ds_sku a, ds_sku b) = Some m /\ (distance (ds_site a) (ds_site b) <= inject_Z m)%Q) /\
  (Qabs (elevation (ds_site a) (ds_site b)) <= max_el_scan_angle)%Q.
(** a line of sight between picked sites, within the limits *)
Definition seen_pair (sites : list csite) (rx : list (list nat)) (picked : list nat) (a b : dsite) : Prop :=
  exists i j, stands_for sites picked i a /\ stands_for sites picked j b /\ In j (neighbours rx i) /\ within_limits a b.
(** the site has an id of its own: no other device option and no site of the base topology has it *)
Definition new_site (base : topo) (sites : list csite) (picked : list nat) (d : dsite) : Prop :=
  ~ site_stored base (s_id (ds_site d)) /\
  forall i i' d', stands_for sites picked i d -> stands_for sites picked i' d' -> s_id (ds_site d') = s_id (ds_site d) -> i' = i /\ d' = d.
Definition candidate_link (a b : dsite) : link :=
  mkLink (s_id (ds_site a)) (s_id (ds_site b)) true (beq (s_type (ds_site b)) CN) None CANDIDATE.
(** what the caller provides: real sites with ids, usable ones, CNs that do not send, a confidence for
    every line of sight and a range for every pair of devices *)
Record usable (conf : dict (nat * nat) Q) (sites : list csite) (rx : list (list nat)) (picked : list nat) : Prop := {
  us_ids : forall i d, stands_for sites picked i d -> no_dash (s_id (ds_site d)) /\ s_detected (ds_site d) = false;
  us_status : forall i d, stands_for sites picked i d -> s_status (ds_site d) <> UNAVAILABLE /\ s_status (ds_site d) <> UNREACHABLE;
  us_sender : forall i j d, stands_for sites picked i d -> In j (neighbours rx i) -> s_type (ds_site d) <> CN;
  us_conf : forall i j, In j (neighbours rx i) -> exists q, dget conf (i, j) = Some q;
  us_ranges : forall i j a b, stands_for sites picked i a -> stands_for sites picked j b -> In j (neighbours rx i) -> exists m, dget ranges (ds_sku a, ds_sku b) = Some m }.
End Spec.
