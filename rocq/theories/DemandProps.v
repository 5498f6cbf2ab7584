(** C36 — demand is connected to every site within reach. *)
From Coq Require Import QArith ZArith.
From Verif Require Import Base Dict TopologyModel SetupModel DemandModel DemandSpec DemandProofs DemandMainProofs DemandFinalProofs DemandExamples.
Local Open Scope string_scope. Local Open Scope list_scope.

Theorem C36_demand_generation : forall did dist deltas rooftop building subscribers deg sites fuel p D0 R,
  dwf sites -> ids_ok did D0 -> (p_uniform p = true -> roomy deg sites deltas (p_spacing p)) ->
  add_demand_to_topology did dist deltas rooftop building subscribers deg sites fuel p D0 = Ok R ->
  dwf R /\ R <> []
  /\ (forall k, dmem R k = true <-> exists lat lon base, expected did dist sites p D0 (grid_point deg sites deltas (p_spacing p)) k lat lon base)
  /\ (forall k d lat lon base, dget R k = Some d -> expected did dist sites p D0 (grid_point deg sites deltas (p_spacing p)) k lat lon base ->
        q_lat d = lat /\ q_lon d = lon /\ q_demand d = p_demand p
        /\ NoDup (q_sites d) /\ (forall j, In j (q_sites d) <-> connected rooftop building sites base j)
        /\ number did sites subscribers p D0 (grid_point deg sites deltas (p_spacing p)) k (q_num d)).
Proof. intros. eapply demand_main; eauto. Qed.
Print Assumptions C36_demand_generation.

Theorem C36_demand_generation_returns : forall did dist deltas rooftop building subscribers deg sites p D0,
  dwf sites -> ids_ok did D0 ->
  (p_uniform p = true -> roomy deg sites deltas (p_spacing p)) -> (p_uniform p = true -> on_globe deg sites deltas (p_spacing p)) ->
  (forall i s, In (i, s) sites -> rooftop i = true -> building i <> None) ->
  (exists k lat lon base, expected did dist sites p D0 (grid_point deg sites deltas (p_spacing p)) k lat lon base) ->
  exists fuel0, forall fuel, (fuel0 <= fuel)%nat ->
    exists R, add_demand_to_topology did dist deltas rooftop building subscribers deg sites fuel p D0 = Ok R.
Proof. intros. eapply demand_total; eauto. Qed.
Print Assumptions C36_demand_generation_returns.

Theorem C36_connect_colocated : forall sites m D R, dwf D -> connect_demand_to_colocated_sites sites m D = Ok R ->
  dkeys R = dkeys D /\ forall k d d', dget D k = Some d -> dget R k = Some d' ->
    q_lat d' = q_lat d /\ q_lon d' = q_lon d /\ q_num d' = q_num d /\ q_demand d' = q_demand d
    /\ (exists e, q_sites d' = q_sites d ++ e) /\ (NoDup (q_sites d) -> NoDup (q_sites d'))
    /\ (forall i, In i (q_sites d') <-> closure (fun i j => exists l, dget m i = Some l /\ In j l) (fun j => In j (q_sites d)) i).
Proof. exact colocated_main. Qed.
Print Assumptions C36_connect_colocated.

Theorem C36_connect_colocated_returns : forall sites m D,
  (forall i l j, dget m i = Some l -> In j l -> dmem sites j = true) -> exists R, connect_demand_to_colocated_sites sites m D = Ok R.
Proof. exact colocated_total. Qed.
Print Assumptions C36_connect_colocated_returns.

(** a grid that reaches 180 degrees east while the sites do not cross the antimeridian: the loop never ends *)
Theorem C36_grid_reaching_180_never_returns : forall did dist deltas rooftop building subscribers deg sites p D0 fuel R left right bottom top dx dy,
  p_uniform p = true -> (0 < deg)%Z -> area deg sites false left right bottom top -> deltas left bottom (p_spacing p) = (dx, dy) ->
  (0 < dx <= 360 * deg)%Z -> (left <= 180 * deg)%Z -> (180 * deg <= right + dx)%Z ->
  add_demand_to_topology did dist deltas rooftop building subscribers deg sites fuel p D0 <> Ok R.
Proof. exact demand_never. Qed.
Print Assumptions C36_grid_reaching_180_never_returns.

(** a demand site placed by hand keeps the sites within reach: false when a CN stands at the same place *)
Theorem C36_manual_demand_connections_refuted : exists did dist deltas rooftop building subscribers deg sites fuel p D0 R k d0 d i,
  dwf sites /\ ids_ok did D0 /\ p_manual p = true /\ In (k, d0) D0
  /\ add_demand_to_topology did dist deltas rooftop building subscribers deg sites fuel p D0 = Ok R /\ dget R k = Some d
  /\ within dist sites (p_radius p) (q_lat d0) (q_lon d0) i /\ ~ In i (q_sites d) /\ q_num d <> q_num d0.
Proof. exact manual_refuted. Qed.
Print Assumptions C36_manual_demand_connections_refuted.
