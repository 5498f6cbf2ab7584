(** Vocabulary for C13, C14, C32, C48 and C49. *)
From Coq Require Import QArith Qround.
From Verif Require Import Base RfModel.
Local Open Scope Q_scope.

(** no class is listed twice *)
Definition distinct_classes (t : list mcsrow) : Prop := NoDup (map m_mcs t).
(** the threshold strictly increases with the class *)
Definition increasing_snr (t : list mcsrow) : Prop :=
  forall r r', In r t -> In r' t -> (m_mcs r < m_mcs r')%nat -> m_snr r < m_snr r'.
(** no class between two listed classes is missing *)
Definition no_gaps (t : list mcsrow) : Prop :=
  forall r r' k, In r t -> In r' t -> (m_mcs r <= k <= m_mcs r')%nat -> exists x, In x t /\ m_mcs x = k.
Definition backoff_nonneg (t : list mcsrow) : Prop := forall r, In r t -> 0 <= m_backoff r.
Definition classes_positive (t : list mcsrow) : Prop := forall r, In r t -> (0 < m_mcs r)%nat.
(** throughput does not decrease with the class and is not negative *)
Definition throughput_increasing (t : list mcsrow) : Prop :=
  (forall r, In r t -> 0 <= m_mbps r) /\
  forall r r', In r t -> In r' t -> (m_mcs r <= m_mcs r')%nat -> m_mbps r <= m_mbps r'.
(** a table of a device: what the loader guarantees, strengthened to distinct thresholds *)
Definition good_table (t : list mcsrow) : Prop :=
  t <> [] /\ distinct_classes t /\ increasing_snr t /\ no_gaps t /\ backoff_nonneg t /\ classes_positive t.

(** [m] is the highest class whose threshold does not exceed [s], 0 if there is none *)
Definition highest_supported (t : list mcsrow) (s : Q) (m : nat) : Prop :=
  (exists r, In r t /\ m_mcs r = m /\ m_snr r <= s /\ forall r', In r' t -> m_snr r' <= s -> (m_mcs r' <= m)%nat)
  \/ (m = 0%nat /\ forall r, In r t -> s < m_snr r).

(** the link closes in class [r] with the power left after backoff, and that power is not
    below the configured minimum *)
Definition closes (max_tx : Q) (minimum : option Q) (gain noise : Q) (r : mcsrow) : Prop :=
  m_snr r <= (max_tx - m_backoff r) + gain - noise /\
  (forall p, minimum = Some p -> p <= max_tx - m_backoff r).
(** [c] is the throughput (in Gbps) of the best class that closes, 0 if none does *)
Definition best_capacity (t : list mcsrow) (max_tx : Q) (minimum : option Q) (gain noise c : Q) : Prop :=
  (exists r, In r t /\ closes max_tx minimum gain noise r /\ c == m_mbps r / 1000 /\
     forall r', In r' t -> closes max_tx minimum gain noise r' -> (m_mcs r' <= m_mcs r)%nat)
  \/ (c == 0 /\ forall r, In r t -> ~ closes max_tx minimum gain noise r).

(** ** The loader *)
(** SNR, throughput and backoff do not decrease when the class increases *)
Definition consistent (rows : list nrow) : Prop :=
  forall r r', In r rows -> In r' rows -> n_mcs r < n_mcs r' ->
    n_snr r <= n_snr r' /\ n_mbps r <= n_mbps r' /\ n_backoff r <= n_backoff r'.
Definition consistent_table (t : list mcsrow) : Prop :=
  forall r r', In r t -> In r' t -> (m_mcs r < m_mcs r')%nat ->
    m_snr r <= m_snr r' /\ m_mbps r <= m_mbps r' /\ m_backoff r <= m_backoff r'.
Definition permitted (maximum : Q) (minimum min_mcs : option Q) (r : nrow) : Prop :=
  (forall p, minimum = Some p -> p <= maximum - n_backoff r) /\ (forall m, min_mcs = Some m -> m <= n_mcs r).
(** [t] lists, in file order, the rows satisfying [P], with the class truncated to an integer *)
Inductive selection (P : nrow -> Prop) : list nrow -> list mcsrow -> Prop :=
| sel_nil : selection P [] []
| sel_keep r rows t : P r -> selection P rows t ->
    selection P (r :: rows) (mkRow (trunc (n_mcs r)) (n_snr r) (n_mbps r) (n_backoff r) :: t)
| sel_drop r rows t : ~ P r -> selection P rows t -> selection P (r :: rows) t.
(** rows listed in ascending order in every column *)
Inductive ascending : list nrow -> Prop :=
| asc_nil : ascending []
| asc_one r : ascending [r]
| asc_cons r r' l : n_mcs r <= n_mcs r' -> n_snr r <= n_snr r' -> n_mbps r <= n_mbps r' -> n_backoff r <= n_backoff r' ->
    ascending (r' :: l) -> ascending (r :: r' :: l).

(** common/constants.py 53-64 *)
Definition default_table : list mcsrow :=
  [ mkRow 3 3 0 0; mkRow 4 (9 # 2) (135 # 2) 0; mkRow 5 5 115 0; mkRow 6 (11 # 2) 260 0; mkRow 7 (15 # 2) (905 # 2) 0;
    mkRow 8 9 645 0; mkRow 9 12 (2965 # 4) 0; mkRow 10 14 1030 2; mkRow 11 16 1415 4; mkRow 12 18 1800 6 ].

(** what the file says: which column holds which quantity, and the numbers in it *)
Definition value (to_float : string -> option Q) (line : list string) (i : nat) : option Q :=
  match nth_error line i with Some s => to_float s | None => None end.
Definition column_named (norm : string -> string) (header : list string) (key : string) (i : nat) : Prop :=
  exists name, nth_error header i = Some name /\ contains key (norm name) = true.
Definition file_rows (norm : string -> string) (to_float : string -> option Q)
    (header : list string) (body : list (list string)) (rows : list nrow) : Prop :=
  exists a b c, column_named norm header "mcs" a /\ column_named norm header "snr" b /\ column_named norm header "mbps" c /\
    a <> b /\ a <> c /\ b <> c /\
    (forall line r, In (line, r) (combine body rows) ->
       value to_float line a = Some (n_mcs r) /\ value to_float line b = Some (n_snr r) /\ value to_float line c = Some (n_mbps r)) /\
    List.length body = List.length rows /\
    ((exists d, column_named norm header "tx_backoff" d /\ d <> a /\ d <> b /\ d <> c /\
        forall line r, In (line, r) (combine body rows) -> value to_float line d = Some (n_backoff r)) \/
     ((forall i, ~ column_named norm header "tx_backoff" i) /\
        forall line r, In (line, r) (combine body rows) -> to_float "0"%string = Some (n_backoff r))).
