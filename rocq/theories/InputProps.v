(** C30 and C60: input sites. *)
From Verif Require Import Base Dict TopologyModel InputModel InputSpec InputProofs InputExamples.
Local Open Scope string_scope.
Local Open Scope list_scope.

(** C30: what loading gives is the first copy of every entry, apart from the names; there are no two with the same name and device. *)
Theorem C30_deduplicated : forall (P : Type) (eqP : EqB P) (l : list (isite P)) st,
  add_sites empty_inputs l = Ok st -> exists k, first_copies l k /\ ~ clash k /\ Forall2 but_name k (in_sites st).
Proof. exact @loaded. Qed.
Print Assumptions C30_deduplicated.

(** C30: loading fails only with a data error, and only when two different entries have the same name and device. *)
Theorem C30_rejected : forall (P : Type) (eqP : EqB P) (l : list (isite P)) e,
  add_sites empty_inputs l = Err e -> e = DataExn /\ exists k, first_copies l k /\ clash k.
Proof. exact @rejected. Qed.
Print Assumptions C30_rejected.

(** C30: the entries without later copies are determined by the input, so the two theorems above decide when loading succeeds. *)
Theorem C30_copies_unique : forall (P : Type) (eqP : EqB P) (l k k' : list (isite P)), first_copies l k -> first_copies l k' -> k = k'.
Proof. exact @copies_same. Qed.
Print Assumptions C30_copies_unique.

(** C30, for inputs none of whose names is another's name with the device appended: every site has its own name,
    with the device appended exactly when several entries have it; the names are unique and each site is found under its name. *)
Theorem C30_uniquely_named_partial : forall (P : Type) (eqP : EqB P) (l : list (isite P)) st k,
  add_sites empty_inputs l = Ok st -> first_copies l k -> clear_names k ->
  (forall h s, nth_error (in_sites st) h = Some s -> final_name k h (name s)) /\ NoDup (map name (in_sites st)) /\
  (forall s, In s (in_sites st) -> get_site_by_name st (name s) = Some s).
Proof. exact @uniquely_named. Qed.
Print Assumptions C30_uniquely_named_partial.

(** C30: the name of an entry that gives none is its id. *)
Theorem C30_unnamed_is_called_by_id : forall (P : Type) (s : isite P), (i_raw s = "" -> name s = i_id s) /\ (i_raw s <> "" -> name s = i_raw s).
Proof. exact @called. Qed.
Print Assumptions C30_unnamed_is_called_by_id.

(** C30: what is found under a name does have that name, for every input. *)
Theorem C30_found_by_name : forall (P : Type) (eqP : EqB P) (l : list (isite P)) st n s,
  add_sites empty_inputs l = Ok st -> get_site_by_name st n = Some s -> In s (in_sites st) /\ name s = n.
Proof. exact @by_name_named. Qed.
Print Assumptions C30_found_by_name.

(** C30 is false in general: two sites end with the same name and one cannot be found. *)
Theorem C30_uniquely_named_refuted : exists (l : list (isite Z)) st s,
  add_sites empty_inputs l = Ok st /\ ~ NoDup (map name (in_sites st)) /\ In s (in_sites st) /\ get_site_by_name st (name s) <> Some s.
Proof. exact names_collide. Qed.
Print Assumptions C30_uniquely_named_refuted.

(** C30: a site found by id is the last one added with that id; none is found only if there is none. *)
Theorem C30_found_by_id : forall (P : Type) (eqP : EqB P) (l : list (isite P)) st i, add_sites empty_inputs l = Ok st ->
  match get_site_by_id st i with
  | Some s => exists h, nth_error (in_sites st) h = Some s /\ i_id s = i /\ forall j t, (h < j)%nat -> nth_error (in_sites st) j = Some t -> i_id t <> i
  | None => forall s, In s (in_sites st) -> i_id s <> i
  end.
Proof. exact @by_id. Qed.
Print Assumptions C30_found_by_id.

(** C30 is false of ids: the same position, type and device under two names gives two sites with one id, and one cannot be found by it. *)
Theorem C30_found_by_own_id_refuted : exists (l : list (isite Z)) st s,
  add_sites empty_inputs l = Ok st /\ NoDup (map name (in_sites st)) /\ In s (in_sites st) /\ get_site_by_id st (i_id s) <> Some s.
Proof. exact ids_collide. Qed.
Print Assumptions C30_found_by_own_id_refuted.

(** C30: adding an entry that is already there changes nothing. *)
Theorem C30_copy_ignored : forall (P : Type) (eqP : EqB P) (l : list (isite P)) st s t,
  add_sites empty_inputs l = Ok st -> In t l -> same_entry s t -> add_site st s = (st, None).
Proof. exact @copy_ignored. Qed.
Print Assumptions C30_copy_ignored.

(** C30, rejecting a site is not repeatable: the same site added again is accepted without being stored. *)
Theorem C30_retry_is_ignored : forall (P : Type) (eqP : EqB P) (l : list (isite P)) st s st' e,
  add_sites empty_inputs l = Ok st -> add_site st s = (st', Some e) -> in_sites st' = in_sites st /\ add_site st' s = (st', None).
Proof. exact @rejected_again. Qed.
Print Assumptions C30_retry_is_ignored.

(** C60: the sites one entry gives: one with the device it names, or one for each device that suits its type;
    and the only ways it fails. *)
Theorem C60_sites_of_an_entry : forall (P : Type) devices infer hash_id (r : raw_site P),
  match construct_sites devices infer hash_id r with
  | Ok l => (l = [] /\ r_sku r = None) \/ sites_of_entry devices infer hash_id r l
  | Err e => (exists f, infer = Some f /\ f r = Err e) \/
             (e = DataExn /\ exists k, r_sku r = Some k /\ forall d, In d devices -> d_sku d <> k) \/
             (e = TopologyExn /\ ((infer = None /\ forall p loc, ~ located infer r p loc) \/
                                  exists k d, r_sku r = Some k /\ In d devices /\ d_sku d = k /\ ~ suits (r_type r) d))
  end.
Proof. intros. apply entry. exact (fun _ => true). Qed.
Print Assumptions C60_sites_of_an_entry.

(** C60: loading a file stores the sites of the entries inside the boundary, without copies, and no others. *)
Theorem C60_sites_of_a_file : forall (P : Type) (eqP : EqB P) devices inside infer hash_id (raws : list (raw_site P)) st,
  get_input_sites devices inside infer hash_id empty_inputs raws = Ok st ->
  exists ls k, Forall2 (fun r l => (l = [] /\ r_sku r = None) \/ sites_of_entry devices infer hash_id r l) (filter inside raws) ls /\
    first_copies (List.concat ls) k /\ ~ clash k /\ Forall2 but_name k (in_sites st).
Proof. exact @all_sites. Qed.
Print Assumptions C60_sites_of_a_file.

(** C60 is false for an entry that names no device when no device suits it: it is dropped without an error. *)
Theorem C60_entry_kept_refuted : exists devices hash_id (r : raw_site Z) st,
  devices <> [] /\ get_input_sites devices (fun _ => true) None hash_id empty_inputs [r] = Ok st /\ in_sites st = [].
Proof. exact entry_dropped. Qed.
Print Assumptions C60_entry_kept_refuted.
