(** What a candidate topology file says about links, independently of how it is loaded. *)
From Coq Require Import QArith.
From Verif Require Import Base Dict TopologyModel TopologySpec LinkMapModel.
Local Open Scope string_scope.
Local Open Scope list_scope.

(** Statuses a link may have between sites of given statuses *)
Definition allowed (a b st : status) : Prop :=
  (st = EXISTING -> a = EXISTING /\ b = EXISTING)
  /\ (a = UNAVAILABLE \/ b = UNAVAILABLE -> st = UNAVAILABLE)
  /\ (a = UNREACHABLE \/ b = UNREACHABLE -> st = UNREACHABLE)
  /\ (a = CANDIDATE \/ b = CANDIDATE -> st <> PROPOSED /\ st <> EXISTING).

Section Spec.
Variable sites : list site.
Variable lookup : string -> option site.
Variable nearest : Q * Q -> option site.
Variable hash : site -> string.
Variable close : Q * Q -> site -> bool.

(** A site is at a position: it is close to it and shares the geohash of the nearest site *)
Definition at_position (p : Q * Q) (s : site) : Prop :=
  exists n, nearest p = Some n /\ In s sites /\ hash s = hash n /\ close p s = true.
Definition named (r : raw) : Prop := rw_tx r <> None /\ rw_rx r <> None.
(** The ends of a link of the file *)
Definition joins (r : raw) (x y : site) : Prop :=
  (exists a b, rw_tx r = Some a /\ rw_rx r = Some b /\ lookup a = Some x /\ lookup b = Some y)
  \/ (~ named r /\ at_position (rw_tx_pos r) x /\ at_position (rw_rx_pos r) y).
(** The ends can be found *)
Definition resolvable (r : raw) : Prop :=
  (exists a b x y, rw_tx r = Some a /\ rw_rx r = Some b /\ lookup a = Some x /\ lookup b = Some y)
  \/ (~ named r /\ nearest (rw_tx_pos r) <> None /\ nearest (rw_rx_pos r) <> None).
(** The file asks for a wireless link between two sites, in either direction *)
Definition asked (raws : list raw) (x y : site) (st : status) : Prop :=
  exists r, In r raws /\ rw_type r <> ETHERNET /\ rw_status r = st /\ (joins r x y \/ joins r y x).
(** The same for the pairs of a CSV file *)
Definition asked_pair (ps : list (string * string)) (x y : site) : Prop :=
  exists a b, In (a, b) ps /\ ((lookup a = Some x /\ lookup b = Some y) \/ (lookup a = Some y /\ lookup b = Some x)).

(** The sites are those of the topology *)
Definition known (t : topo) (s : site) : Prop := dget (t_sites t) (s_id s) = Some s.
Definition sites_known (t : topo) : Prop :=
  (forall s, In s sites -> known t s) /\ (forall n s, lookup n = Some s -> known t s).
End Spec.

(** The wireless link from [x] to [y], not yet assigned to sectors *)
Definition plain_link (x y : site) (st : status) (l : link) : Prop :=
  l_tx l = s_id x /\ l_rx l = s_id y /\ l_wireless l = true /\ (l_rx_cn l = true <-> s_type y = CN) /\ l_sectors l = None /\ l_status l = st.
Definition is_link (t : topo) (x y : site) (st : status) : Prop := exists k l, link_stored t k l /\ plain_link x y st l.

(** A pair of names in a cell *)
Fixpoint no_arrow (s : string) : Prop :=
  match s with
  | EmptyString => True
  | String c r => ~ (exists q, s = String "-" (String "-" (String ">" q))) /\ no_arrow r
  end.
