(** What transmit power control is expected to establish. *)
From Coq Require Import QArith Qabs.
From Verif Require Import Base TopologyModel RfModel RfSpec TpcModel.
Local Open Scope Q_scope.

(** The class a link reaches with a signal to interference and noise ratio: none without signal *)
Definition class_for (t : list mcsrow) (sinr : num) (m : nat) : Prop :=
  match sinr with Fin q => highest_supported t q m | NInf | NaN => m = 0%nat | PInf => False end.
(** The throughput of a class in Gbps: 0 for a class that is not in the table *)
Definition throughput (t : list mcsrow) (m : nat) (c : Q) : Prop :=
  (exists r, In r t /\ m_mcs r = m /\ c == m_mbps r / 1000) \/ ((forall r, In r t -> m_mcs r <> m) /\ c == 0).
(** A wireless link that is built or proposed; a link that has sectors at both ends *)
Definition on_air (l : link) : Prop := (l_status l = PROPOSED \/ l_status l = EXISTING) /\ l_type l <> ETHERNET.
Definition has_sectors (l : link) : Prop := l_sectors l <> None.
Definition powers (s : state) : string -> num := fun k => x_tx (s k).

Section Spec.
Variables (table : link -> list mcsrow) (minimum : link -> option Q) (max_power noise gain : link -> Q) (pop_capacity : Q).
Variable received : (string -> num) -> string -> Q.

(** Interference depends on the powers alone *)
Definition depends_on_powers : Prop := forall p p' k, (forall j, p j = p' j) -> received p k = received p' k.
Definition tables_ok (links : list link) : Prop :=
  forall l, In l links -> table l <> [] /\ distinct_classes (table l) /\ backoff_nonneg (table l).
Definition good_tables (links : list link) : Prop := forall l, In l links -> good_table (table l).

(** Silent: no power is transmitted and no signal received *)
Definition silent (m : meas) : Prop := x_tx m = NInf /\ x_rsl m = NInf /\ x_snr m = NInf /\ x_sinr m = NInf.
(** Transmitting with power [p]: within the limits of the sender, the received level follows the gain of the path, and the ratio
    the interference that all powers together cause *)
Definition transmitting (s : state) (l : link) (p : Q) : Prop :=
  let m := s (l_id l) in
  x_tx m = Fin p /\ p <= max_power l /\ (forall q, minimum l = Some q -> q <= p) /\
  exists r snr sinr, x_rsl m = Fin r /\ r == p + gain l /\ x_snr m = Fin snr /\ snr == p + gain l - noise l /\
    x_sinr m = Fin sinr /\ sinr == p + gain l - received (powers s) (l_id l).
(** [p] is the least power of at least [minimum] with which the link reaches the threshold of row [r] *)
Definition least_power (s : state) (l : link) (r : mcsrow) (p : Q) : Prop :=
  m_snr r <= p + gain l - received (powers s) (l_id l) /\ (forall q, minimum l = Some q -> q <= p) /\
  forall p', m_snr r <= p' + gain l - received (powers s) (l_id l) -> (forall q, minimum l = Some q -> q <= p') -> p <= p'.
End Spec.

(** Equal numbers *)
Definition same_num (a b : num) : Prop := match a, b with Fin x, Fin y => x == y | NInf, NInf | PInf, PInf => True | _, _ => False end.
(** A further round of control, with the gains of the links, would change no power *)
Definition settled (table : link -> list mcsrow) (minimum : link -> option Q) (max_power noise gain : link -> Q)
    (received : (string -> num) -> string -> Q) (links : list link) (s : state) : Prop :=
  exists s' c, round table minimum max_power noise received links
      (fun k => match find (fun l => beq (l_id l) k) links with Some l => if is_out_of_sector l then NaN else Fin (gain l) | None => NaN end) s = Ok (s', c)
    /\ forall l, In l links -> on_air l -> has_sectors l -> same_num (x_tx (s' (l_id l))) (x_tx (s (l_id l))).
(** Thresholds are positive, and the lowest class can be used with the smallest power *)
Definition positive_thresholds (t : list mcsrow) : Prop := forall r, In r t -> 0 < m_snr r.
Definition lowest_usable (t : list mcsrow) (minimum : option Q) (max_power : Q) : Prop :=
  forall r, In r t -> (forall r', In r' t -> (m_mcs r <= m_mcs r')%nat) -> forall q, minimum = Some q -> q <= max_power - m_backoff r.

(** Equal up to a hundred-thousandth, or to a billionth of the larger *)
Definition nearly (a b : num) : Prop :=
  match a, b with
  | Fin x, Fin y => Qabs (x - y) <= 1 # 100000 \/ Qabs (x - y) <= (1 # 1000000000) * Qabs x \/ Qabs (x - y) <= (1 # 1000000000) * Qabs y
  | NInf, NInf | PInf, PInf => True
  | _, _ => False
  end.
