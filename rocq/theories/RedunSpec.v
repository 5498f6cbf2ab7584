(** What C75 means: which failures a redundant plan withstands. *)
From Coq Require Import QArith.
From Verif Require Import Base Dict TopologyModel TopologySpec GraphSpec SetupModel IlpModel IlpSpec ExtractSpec RedunModel.
Local Open Scope Q_scope.

(** what the plan says *)
Definition r_on (o : rsolution) (i : string) : Prop := dget (n_site o) i = Some 1%Z.
Definition r_off (o : rsolution) (i : string) : Prop := dget (n_site o) i = Some 0%Z.
Definition r_link_on (o : rsolution) (l : link) : Prop := dget (n_link o) (l_tx l, l_rx l) = Some 1%Z.
Definition r_is_odd (o : rsolution) (i : string) : Prop := dget (n_odd o) i = Some 1%Z /\ dget (n_even o) i = Some 0%Z.
Definition r_is_even (o : rsolution) (i : string) : Prop := dget (n_odd o) i = Some 0%Z /\ dget (n_even o) i = Some 1%Z.

Definition is_dn (t : topo) (i : string) : Prop := exists s, dget (t_sites t) i = Some s /\ s_type s = DN.
Definition in_service (s : status) : Prop := s = PROPOSED \/ s = EXISTING.
Definition active_now (t : topo) (i : string) : Prop := exists s, dget (t_sites t) i = Some s /\ in_service (s_status s).
(** the DNs of the base network, for which redundancy is built *)
Definition protected (t : topo) (i : string) : Prop := is_dn t i /\ active_now t i.
Definition several_pops (t : topo) : Prop :=
  exists i j, i <> j /\ is_pop t i /\ is_pop t j /\ active_now t i /\ active_now t j.
Definition active_link (l : link) : Prop := in_service (l_status l).

(** ** Failures: some sites are gone, and some links in both directions *)
Definition link_down (down : list edge) (i j : string) : Prop := In (i, j) down \/ In (j, i) down.
(** the site still receives from an active POP, over active links between active POPs and DNs, none of them failed *)
Inductive served (t : topo) (o : rsolution) (gone : list string) (down : list edge) : string -> Prop :=
| served_pop i : is_pop t i -> r_on o i -> ~ In i gone -> served t o gone down i
| served_link k l : served t o gone down (l_tx l) -> link_stored t k l -> r_link_on o l ->
    backhaul_site t (l_rx l) -> r_on o (l_rx l) -> ~ In (l_rx l) gone -> ~ link_down down (l_tx l) (l_rx l) -> served t o gone down (l_rx l).

(** the price of a failure: a POP or a DN costs its node capacity, a link costs one *)
Definition site_weight (cs : caps) (t : topo) (i : string) : Q :=
  match dget (t_sites t) i with Some s => match s_type s with POP => c_pop cs | _ => c_dn cs end | None => 0 end.
Definition weight (cs : caps) (t : topo) (gone : list string) (down : list edge) : Q :=
  total (site_weight cs t) gone + inject_Z (Z.of_nat (List.length down)).

(** ** What the levels promise (comments in topology_optimization.py 391-415) *)
Definition promised (lvl : red_level) (t : topo) (gone : list string) (down : list edge) : Prop :=
  match lvl with
  | LevelNone => False
  | LevelLow => gone = [] /\ (List.length down <= 1)%nat                        (* any single link *)
  | LevelMedium => down = [] /\
      exists i, gone = [i] /\ (is_dn t i \/ (several_pops t /\ is_pop t i))     (* any single site; with one POP, any single DN *)
  | LevelHigh => down = [] /\
      ((several_pops t /\ exists p i, gone = [p; i] /\ is_pop t p /\ is_dn t i)   (* a POP and a DN *)
       \/ (several_pops t /\ (List.length gone <= 3)%nat /\ forall i, In i gone -> is_dn t i)   (* three DNs *)
       \/ ((List.length gone <= 2)%nat /\ forall i, In i gone -> is_dn t i))    (* with one POP, two DNs *)
  end.

(** ** A base network in order *)
Definition colocated (t : topo) (i j : string) : Prop :=
  exists s s', dget (t_sites t) i = Some s /\ dget (t_sites t) j = Some s' /\ s_loc s = s_loc s'.
(** active links end in active sites *)
Definition active_ends (t : topo) : Prop :=
  forall k l, link_stored t k l -> active_link l -> active_now t (l_tx l) /\ active_now t (l_rx l).
(** no two active POPs or DNs in one place *)
Definition one_per_place (t : topo) : Prop :=
  forall i j, backhaul_site t i -> backhaul_site t j -> active_now t i -> active_now t j -> colocated t i j -> i = j.
Definition site_odd (t : topo) (i : string) : Prop := exists s, dget (t_sites t) i = Some s /\ s_polarity s = ODD.
(** active wireless links between POPs and DNs join an odd site and another that is not *)
Definition alternating (t : topo) : Prop :=
  forall k l, link_stored t k l -> active_link l -> l_wireless l = true -> backhaul_site t (l_tx l) -> backhaul_site t (l_rx l) ->
    (site_odd t (l_tx l) /\ ~ site_odd t (l_rx l)) \/ (~ site_odd t (l_tx l) /\ site_odd t (l_rx l)).
(** the links allowed by the restriction *)
Definition allowed_link (only : option (list edge)) (l : link) : Prop :=
  match only with None => True | Some es => In (l_tx l, l_rx l) es end.
(** the site is an end of some allowed link between POPs and DNs with capacity *)
Definition usable_end (at_ : attrs) (t : topo) (only : option (list edge)) (i : string) : Prop :=
  exists k l, link_stored t k l /\ (l_tx l = i \/ l_rx l = i) /\ backhaul_site t (l_tx l) /\ backhaul_site t (l_rx l) /\
    0 < a_cap at_ (l_tx l, l_rx l) /\ allowed_link only l.
