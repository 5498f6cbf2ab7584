(** Property theorems C74; vocabulary in SiteSecSpec.v. *)
From Coq Require Import QArith Permutation Reals.
From Verif Require Import Base TopologyModel SecLinkSpec SecPlaceModel SecPlaceSpec SiteSecModel SiteSecSpec SiteSecProofs SiteSecGeoProofs SiteSecFanProofs SiteSecMainProofs SiteSecMeanProofs SiteSecExamples.
Local Open Scope Q_scope.
Local Open Scope list_scope.

(** Sectors that are accepted are on one site, not too many, and side by side in every node; the nodes do
    not overlap.  This does not depend on the mean. *)
Theorem C74_accepted_sectors : forall number_of_nodes nspn hsr mean l, (forall s, In s l -> direction (v_az s)) ->
  validate_site_sectors number_of_nodes nspn hsr mean l = Ok tt -> exists row, suitable number_of_nodes nspn hsr l row.
Proof. exact accepted_suits. Qed.
Print Assumptions C74_accepted_sectors.
(** The others are refused. *)
Theorem C74_accepted_or_refused : forall number_of_nodes nspn hsr mean l,
  validate_site_sectors number_of_nodes nspn hsr mean l = Ok tt \/ validate_site_sectors number_of_nodes nspn hsr mean l = Err OptExn.
Proof. exact validate_or. Qed.
Print Assumptions C74_accepted_or_refused.
(** With one sector per node, exactly the sites with few enough nodes, each of one sector, at least the scan range apart. *)
Theorem C74_one_sector_per_node : forall number_of_nodes hsr mean l, 0 < hsr -> (forall s, In s l -> direction (v_az s)) ->
  validate_site_sectors number_of_nodes 1 hsr mean l = Ok tt <->
  one_site l /\ NoDup (map v_node l) /\ (List.length l <= number_of_nodes)%nat /\
  forall s s', In s l -> In s' l -> v_node s <> v_node s' -> hsr <= between (v_az s) (v_az s').
Proof. exact single_iff. Qed.
Print Assumptions C74_one_sector_per_node.
(** The sectors the planner placed are accepted, in whatever order they are read back.  Missing: nodes of
    three sectors or more around north (false in general, below). *)
Theorem C74_placed_sectors_accepted_partial : forall nbs number_of_nodes nspn hsr mean sectors site l,
  wf_site nbs number_of_nodes nspn hsr None -> hsr * qnat nspn <= 359 ->
  find_best_sectors nbs number_of_nodes nspn hsr None None None (fun _ _ => false) None = Ok sectors ->
  (forall f, In f sectors -> mean_near mean hsr nspn f) -> ((nspn <= 2)%nat \/ forall f, In f sectors -> not_past_north f) ->
  Permutation l (make_sectors site sectors) ->
  validate_site_sectors number_of_nodes nspn hsr mean l = Ok tt.
Proof. exact placed_accepted. Qed.
Print Assumptions C74_placed_sectors_accepted_partial.
(** A node of four sectors around north, placed by the planner, is refused when read back. *)
Theorem C74_placed_sectors_accepted_refuted : exists nbs number_of_nodes nspn hsr sectors,
  wf_site nbs number_of_nodes nspn hsr None /\ hsr * qnat nspn <= 359 /\
  find_best_sectors nbs number_of_nodes nspn hsr None None None (fun _ _ => false) None = Ok sectors /\
  (exists mean, forall f, In f sectors -> mean_near mean hsr nspn f) /\
  forall mean site, (forall f, In f sectors -> mean_near mean hsr nspn f) ->
    validate_site_sectors number_of_nodes nspn hsr mean (make_sectors site sectors) = Err OptExn.
Proof. exact saved_plan_refused. Qed.
Print Assumptions C74_placed_sectors_accepted_refuted.
(** The circular mean of a node is its centre. *)
Theorem C74_mean_is_the_centre : forall c hsr n f l, fan c hsr n f -> 0 < hsr -> (1 <= n)%nat -> hsr * qnat n < 360 -> Permutation l f ->
  exists r : R, (0 < r)%R /\ sum_of cos l = (r * cos (radians c))%R /\ sum_of sin l = (r * sin (radians c))%R.
Proof. exact mean_centre. Qed.
Print Assumptions C74_mean_is_the_centre.
