(** What C81 means: how well a link can be received. *)
From Coq Require Import QArith.
From Verif Require Import Base Dict TopologyModel TopologySpec GraphSpec SetupModel IlpModel IlpSpec DeploySpec ChanSpec SinrModel.
Local Open Scope Q_scope.

(** values that come from decibels are positive *)
Definition radio_ok (R : radio) : Prop :=
  (forall e, 0 <= r_irsl R e) /\ forall i row, In row (r_mcs R i) -> 0 < fst row.
(** Link [l] is disturbed by what a sector of another site of the network sends on link [e] to a third site of
    the network, if that sector is heard by the receiver of [l]: it has a link [l1] to it, received by the same
    sector or, at a client, from within its beam. *)
Definition disturbs (R : radio) (at_ : attrs) (t : topo) (l : link) (e : edge) : Prop :=
  exists k1 l1 a1 b1 k2 l2 a2 b2,
    link_stored t k1 l1 /\ eligible at_ l1 /\ l_sectors l1 = Some (a1, b1) /\ l_rx l1 = l_rx l /\ l_tx l1 <> l_tx l /\ deployed t (l_tx l1) /\
    (type_is t (l_rx l) CN -> r_beam R (l_tx l, l_rx l) (l_tx l1) = true) /\
    (~ type_is t (l_rx l) CN -> exists a b, l_sectors l = Some (a, b) /\ key_id b = key_id b1) /\
    link_stored t k2 l2 /\ eligible at_ l2 /\ l_sectors l2 = Some (a2, b2) /\ key_id a2 = key_id a1 /\ l_tx l2 = l_tx l1 /\
    l_rx l2 <> l_rx l /\ deployed t (l_rx l2) /\ e = (l_tx l2, l_rx l2).
(** a site disturbs the receivers of the sites of its own polarity: they send at the same time *)
Definition in_step (ps : params) (v : var -> Q) (i k : string) : Prop := p_ignore_polarities ps = true \/ v (VOdd i) == v (VOdd k).
(** [heard c e]: how much of the time link [e] is heard by the receiver of a link from [i] *)
Definition heard_as (ps : params) (v : var -> Q) (i : string) (c : nat) (heard : edge -> Q) : Prop := forall e,
  (in_step ps v i (fst e) -> heard e == share v c e) /\ (~ in_step ps v i (fst e) -> heard e == 0).
(** link [l] can be received on channel [c] with the given signal to noise ratio *)
Definition received (R : radio) (ps : params) (at_ : attrs) (t : topo) (v : var -> Q) (l : link) (c : nat) (snr : Q) : Prop :=
  forall heard es, heard_as ps v (l_tx l) c heard -> lists es (disturbs R at_ t l) ->
    snr * (r_noise R (l_rx l) + total (fun e => r_irsl R (fst e, l_rx l) * heard e) es) <= r_rsl R (l_tx l, l_rx l).
