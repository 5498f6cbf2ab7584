(** What C30 and C60 mean. *)
From Verif Require Import Base Dict TopologyModel InputModel.
Local Open Scope string_scope.
Local Open Scope list_scope.

Section Spec.
Context {P : Type} `{EqB P}.
(** two entries are the same: position, type, location type, name and device *)
Definition same_entry (s t : isite P) : Prop :=
  i_pos s = i_pos t /\ i_type s = i_type t /\ i_loc s = i_loc t /\ name s = name t /\ i_sku s = i_sku t.
(** [k] is [l] with later copies of the same entry left out *)
Inductive first_copies : list (isite P) -> list (isite P) -> Prop :=
| fc_nil : first_copies [] []
| fc_new l k s : first_copies l k -> (forall t, In t l -> ~ same_entry s t) -> first_copies (l ++ [s]) (k ++ [s])
| fc_old l k s t : first_copies l k -> In t l -> same_entry s t -> first_copies (l ++ [s]) k.
(** a site apart from its name *)
Definition but_name (s t : isite P) : Prop :=
  i_pos s = i_pos t /\ i_type s = i_type t /\ i_loc s = i_loc t /\ i_sku s = i_sku t /\ i_id s = i_id t.
(** two different entries with the same name and device *)
Definition clash (l : list (isite P)) : Prop :=
  exists i j s t, i <> j /\ nth_error l i = Some s /\ nth_error l j = Some t /\ name s = name t /\ i_sku s = i_sku t.
Definition with_sku (s : isite P) : string := name s ++ "_" ++ i_sku s.
(** no name with the device appended is that of another entry *)
Definition clear_names (l : list (isite P)) : Prop :=
  forall s t, In s l -> In t l -> name s <> with_sku t /\ (with_sku s = with_sku t -> name s = name t /\ i_sku s = i_sku t).
(** the name a site ends with: its own, with the device appended when other entries have it too *)
Definition final_name (l : list (isite P)) (i : nat) (n : string) : Prop :=
  exists s, nth_error l i = Some s /\
    ((n = name s /\ forall j t, nth_error l j = Some t -> j <> i -> name t <> name s) \/
     (n = with_sku s /\ exists j t, nth_error l j = Some t /\ j <> i /\ name t = name s)).

(** ** C60 *)
(** where an entry is put: where the input says, or where the location inference says *)
Definition located (infer : option (raw_site P -> result (P * loc_type))) (r : raw_site P) (p : P) (loc : loc_type) : Prop :=
  match infer with
  | None => p = r_pos r /\ loc = r_loc r /\ (loc = ROOFTOP <-> r_building r <> None)
  | Some f => f r = Ok (p, loc)
  end.
Definition suits (t : site_type) (d : idevice) : Prop := t = CN <-> d_cn d = true.
(** [s] is the site of entry [r] with device [d] *)
Definition site_for (hash_id : site_type -> P -> string -> string) (r : raw_site P) (p : P) (loc : loc_type) (d : idevice) (s : isite P) : Prop :=
  i_pos s = p /\ i_loc s = loc /\ i_type s = r_type r /\ i_sku s = d_sku d /\ i_id s = hash_id (r_type r) p (d_sku d) /\
  i_raw s = match r_name r with Some n => n | None => "" end.
(** [l] is [k] without the elements that fail [ok], in order *)
Inductive kept {A} (ok : A -> Prop) : list A -> list A -> Prop :=
| kept_nil : kept ok [] []
| kept_yes a l k : ok a -> kept ok l k -> kept ok (a :: l) (a :: k)
| kept_no a l k : ~ ok a -> kept ok l k -> kept ok (a :: l) k.
Definition sites_of_entry devices infer hash_id (r : raw_site P) (l : list (isite P)) : Prop :=
  exists p loc, located infer r p loc /\
  match r_sku r with
  | Some k => exists d s, In d devices /\ d_sku d = k /\ suits (r_type r) d /\ site_for hash_id r p loc d s /\ l = [s]
  | None => exists ds, kept (suits (r_type r)) devices ds /\ Forall2 (site_for hash_id r p loc) ds l
  end.
End Spec.
