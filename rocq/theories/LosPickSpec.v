(** What C23 to C25 mean. *)
From Coq Require Import QArith Permutation.
From Verif Require Import Base Dict LosBatchModel LosPickModel.

Definition neighbours (l : list (list nat)) (i : nat) : list nat := nth i l [].
(** a graph of lines of sight: the two neighbour lists are each other's inverse, without duplicates, over
    the sites, and every link has a confidence *)
Record wf_graph (g : losgraph) : Prop := {
  wf_rx_len : List.length (g_rx g) = List.length (g_sites g);
  wf_tx_len : List.length (g_tx g) = List.length (g_sites g);
  wf_inverse : forall i j, In j (neighbours (g_rx g) i) <-> In i (neighbours (g_tx g) j);
  wf_rx_nodup : forall i, NoDup (neighbours (g_rx g) i);
  wf_tx_nodup : forall i, NoDup (neighbours (g_tx g) i);
  wf_conf : forall i j, In j (neighbours (g_rx g) i) -> exists q, dget (g_conf g) (i, j) = Some q }.
(** the links of sites on buildings go both ways: detected sites are DNs at first *)
Definition two_way (g : losgraph) : Prop :=
  forall i s t, nth_error (g_sites g) i = Some s -> ps_building s <> None -> In t (neighbours (g_tx g) i) -> In t (neighbours (g_rx g) i).

Definition user_site (sites : list psite) (i : nat) : Prop := exists s, nth_error sites i = Some s /\ ps_building s = None.
Definition on_building (sites : list psite) (b : Z) (i : nat) : Prop := exists s, nth_error sites i = Some s /\ ps_building s = Some b.
(** [chosen] has each building once, with one of its sites *)
Definition one_per_building (sites : list psite) (chosen : list (Z * nat)) : Prop :=
  NoDup (map fst chosen) /\ (forall b d, In (b, d) chosen -> on_building sites b d) /\
  (forall b i, on_building sites b i -> In b (map fst chosen)).
(** how many of the chosen sites [i] hears: it gains a CN neighbour for each of them *)
Definition gained (g : losgraph) (chosen : list (Z * nat)) (i : nat) : nat :=
  List.length (filter (fun p => mem i (neighbours (g_tx g) (snd p))) chosen).

(** the new CN at the place of the chosen site of a building *)
Definition cn_copy (sites : list psite) (c : Z * nat) : psite :=
  mkPSite CN (Some (fst c)) (match nth_error sites (snd c) with Some s => ps_pos s | None => (0, 0, 0)%Q end).
(** what choosing [chosen] does: new sites, links, confidences and picked sites *)
Record outcome (dn_deployment : bool) (g g' : losgraph) (picked : list nat) (chosen : list (Z * nat)) : Prop := {
  oc_chosen : one_per_building (g_sites g) chosen;
  oc_sites : g_sites g' = g_sites g ++ map (cn_copy (g_sites g)) chosen;
  oc_graph : wf_graph g';
  (** the CN at index [length + m] hears exactly the sites that the [m]-th chosen site hears *)
  oc_links : forall i j, In j (neighbours (g_rx g') i) <-> In j (neighbours (g_rx g) i) \/
    exists m b d, nth_error chosen m = Some (b, d) /\ j = (List.length (g_sites g) + m)%nat /\ In i (neighbours (g_tx g) d);
  oc_old_conf : forall i j, (j < List.length (g_sites g))%nat -> dget (g_conf g') (i, j) = dget (g_conf g) (i, j);
  (** with the confidence of the link from the chosen site to its neighbour *)
  oc_new_conf : forall m b d i, nth_error chosen m = Some (b, d) -> In i (neighbours (g_tx g) d) ->
    dget (g_conf g') (i, (List.length (g_sites g) + m)%nat) = dget (g_conf g) (d, i);
  oc_picked : forall i, In i picked <-> user_site (g_sites g) i \/
    (List.length (g_sites g) <= i < List.length (g_sites g'))%nat \/ (dn_deployment = true /\ In i (map snd chosen));
  oc_nodup : NoDup picked }.

(** [d] sees most sites of its building once the sites [chosen] earlier have got their CNs, and is the
    first of these *)
Definition most_seen (g : losgraph) (chosen : list (Z * nat)) (b : Z) (d : nat) : Prop :=
  forall i, on_building (g_sites g) b i ->
    (List.length (neighbours (g_rx g) i) + gained g chosen i <= List.length (neighbours (g_rx g) d) + gained g chosen d)%nat /\
    (List.length (neighbours (g_rx g) i) + gained g chosen i = List.length (neighbours (g_rx g) d) + gained g chosen d -> d <= i)%nat.
(** no link twice *)
Definition distinct_links (l : list valid) : Prop := NoDup (map (fun v => (v_tx v, v_rx v)) l).

(** reachable from a picked POP through picked sites *)
Inductive connected (types : list site_type) (rx : list (list nat)) (picked : list nat) : nat -> Prop :=
| conn_pop i : In i picked -> nth_error types i = Some POP -> connected types rx picked i
| conn_hop i j : connected types rx picked i -> In j (neighbours rx i) -> In j picked -> connected types rx picked j.
(** the neighbour lists are over the sites *)
Definition lists_over (n : nat) (l : list (list nat)) : Prop :=
  List.length l = n /\ forall i j, In j (neighbours l i) -> (j < n)%nat.
(** what the four sets are *)
Record partition (types : list site_type) (rx : list (list nat)) (picked : list nat) (c : conn) : Prop := {
  pt_connected : forall i, In i (k_connected c) <-> connected types rx picked i;
  pt_unconnected : forall i, In i (k_unconnected c) <-> In i picked /\ ~ connected types rx picked i;
  pt_connectable : forall j, In j (k_connectable c) <-> (j < List.length types)%nat /\ ~ In j picked /\ exists i, connected types rx picked i /\ In j (neighbours rx i);
  pt_other : forall j, In j (k_other c) <-> (j < List.length types)%nat /\ ~ In j picked /\ ~ exists i, connected types rx picked i /\ In j (neighbours rx i);
  pt_nodup : NoDup (k_connected c) /\ NoDup (k_unconnected c) /\ NoDup (k_connectable c) /\ NoDup (k_other c) }.
(** a site that could be selected after [sel]: not used yet, and one hop from a connected or selected site *)
Definition available (types : list site_type) (rx : list (list nat)) (picked sel : list nat) (d : nat) : Prop :=
  (d < List.length types)%nat /\ ~ In d picked /\ ~ In d sel /\ exists i, (connected types rx picked i \/ In i sel) /\ In d (neighbours rx i).
(** a picked CN that no POP reaches and no selected site sees *)
Definition uncovered (types : list site_type) (rx : list (list nat)) (picked sel : list nat) (j : nat) : Prop :=
  In j picked /\ nth_error types j = Some CN /\ ~ connected types rx picked j /\ forall d, In d sel -> ~ In j (neighbours rx d).
(** the choice of [d] after [sel]: for some uncovered CN it sees, it sees at least as many uncovered CNs
    as any other available site that sees this CN *)
Definition good_choice (types : list site_type) (rx : list (list nat)) (picked sel : list nat) (d : nat) : Prop :=
  available types rx picked sel d /\
  exists j, uncovered types rx picked sel j /\ In j (neighbours rx d) /\
    forall d' (u : nat -> bool), available types rx picked sel d' -> In j (neighbours rx d') ->
      (forall x, u x = true <-> uncovered types rx picked sel x) ->
      (List.length (filter u (neighbours rx d')) <= List.length (filter u (neighbours rx d)))%nat.
(** [order] enumerates a set *)
Definition enumerates (order : list nat -> list nat) : Prop := forall l, NoDup l -> Permutation l (order l).
