(** What C38 means: which links can hear which others. *)
From Coq Require Import QArith ZArith.
From Verif Require Import Base Dict TopologyModel TopologySpec DeploySpec.
Local Open Scope list_scope.

Section InterfSpec.
Variable t : topo.
(** transmitting at the time when the other one listens: sites of one polarity all transmit together; an unassigned
    polarity may be any *)
Definition may_hear (talk listen : polarity) : Prop := talk = UNASSIGNED \/ listen = UNASSIGNED \/ talk <> listen.
(** a CN listens when the sites serving it talk *)
Definition served_as (i : string) (p : polarity) : Prop :=
  exists k l s, link_stored t k l /\ is_active (l_status l) /\ l_rx l = i /\ dget (t_sites t) (l_tx l) = Some s
    /\ ((s_polarity s = ODD /\ p = EVEN) \/ (s_polarity s = EVEN /\ p = ODD) \/ (s_polarity s = UNASSIGNED /\ p = UNASSIGNED)).
Definition cn_polarity (i : string) (p : polarity) : Prop :=
  (exists q, served_as i q)
  /\ ((forall q, served_as i q -> q = p) \/ (p = UNASSIGNED /\ exists q q', served_as i q /\ served_as i q' /\ q <> q')).
Definition listens_as (i : string) (s : site) (p : polarity) : Prop :=
  (s_type s = CN /\ cn_polarity i p) \/ (s_type s <> CN /\ s_polarity s = p).
Definition polarity_ok (l : link) : Prop :=
  exists tx rx p, dget (t_sites t) (l_tx l) = Some tx /\ dget (t_sites t) (l_rx l) = Some rx
    /\ is_active (s_status tx) /\ is_active (s_status rx) /\ listens_as (l_rx l) rx p /\ may_hear (s_polarity tx) p.

Variable channel : string -> Z.
(** channel -1 is unassigned *)
Definition channel_ok (l : link) : Prop :=
  exists a b x y, l_sectors l = Some (a, b) /\ sector_stored t (key_id a) x /\ sector_stored t (key_id b) y
    /\ is_active (x_status x) /\ is_active (x_status y)
    /\ (channel (key_id a) = channel (key_id b) \/ channel (key_id a) = (-1)%Z \/ channel (key_id b) = (-1)%Z).

Variable redundant : string -> bool.
Definition on_air (l : link) : Prop := l_wireless l = true /\ is_active (l_status l).
(** [interferer] disturbs [victim] along [path]: the path leads from the sector the interferer leaves to the sector
    the victim arrives at; both are other links than the path, and the interferer does not talk to the sector
    the victim comes from *)
Definition interferes (path victim interferer : string) : Prop :=
  exists lp lv li a b va vb ia ib,
    link_stored t path lp /\ link_stored t victim lv /\ link_stored t interferer li
    /\ l_sectors lp = Some (a, b) /\ l_sectors lv = Some (va, vb) /\ l_sectors li = Some (ia, ib)
    /\ l_wireless lp = true /\ on_air lv /\ on_air li /\ redundant interferer = false
    /\ polarity_ok lp /\ channel_ok lp
    /\ key_id ia = key_id a /\ key_id vb = key_id b /\ key_id ib <> key_id b /\ key_id va <> key_id a /\ key_id ib <> key_id va.

Definition mean (l : list Q) : Q := match l with [] => 0%Q | _ => (fold_right Qplus 0%Q l / inject_Z (Z.of_nat (List.length l)))%Q end.
(** the disturbance of [victim], where [L p] lists the links that disturb it along [p] *)
Definition lists_interferers (victim : string) (L : string -> list string) : Prop :=
  forall p, NoDup (L p) /\ forall i, In i (L p) <-> interferes p victim i.
Definition disturbance (gain : string -> string -> string -> Q) (power : string -> Q -> Q) (victim : string) (L : string -> list string) : Q :=
  fold_right Qplus 0%Q (map (fun p => mean (map (fun i => power i (gain p victim i)) (L p))) (dkeys (t_links t))).
(** every active CN is served *)
Definition cns_served : Prop := forall i s, dget (t_sites t) i = Some s -> s_type s = CN -> is_active (s_status s) -> exists p, served_as i p.
End InterfSpec.
