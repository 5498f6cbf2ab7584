(** What is expected of a topology that is written to a KML file and read back.  Nothing here refers to the writer or the
    reader, only to the topologies and the file. *)
From Coq Require Import ZArith QArith Ascii.
From Verif Require Import Base TopologyModel KmlModel.
Local Open Scope Q_scope.
Local Open Scope string_scope.

Fixpoint every (P : ascii -> Prop) (s : string) : Prop := match s with EmptyString => True | String c r => P c /\ every P r end.
Definition code (c : ascii) : nat := nat_of_ascii c.
(** A character that XML admits and does not normalise: a tab, a line feed or anything from the blank on *)
Definition ordinary (c : ascii) : Prop := (code c = 9 \/ code c = 10 \/ 32 <= code c)%nat.
Definition readable (s : string) : Prop := every ordinary s.
(** Letters, digits, the underscore and the hyphen: what identifiers and geohashes are made of *)
Definition word_char (c : ascii) : Prop :=
  let n := code c in (48 <= n <= 57 \/ 65 <= n <= 90 \/ 97 <= n <= 122 \/ n = 95 \/ n = 45)%nat.
Definition word (s : string) : Prop := every word_char s.

(** A choice from a set is a member of the set *)
Definition picks (pop : list string -> string) : Prop := forall l, l <> nil -> In (pop l) l.

Definition site_texts (s : ksite) : Prop := readable (k_given s) /\ readable (k_sku s) /\ word (k_id s) /\ word (k_hash s).
(** The texts of a topology: names and SKUs are readable, hashes and identifiers are words *)
Definition texts (t : ktopo) : Prop :=
  readable (kt_name t)
  /\ Forall site_texts (kt_sites t)
  /\ Forall (fun l => site_texts (e_tx l) /\ site_texts (e_rx l)) (kt_links t)
  /\ Forall (fun d => word (b_id d) /\ word (b_hash d) /\ Forall site_texts (b_sites d)) (kt_demands t).
(** A name that is put in the file as it is *)
Definition no_markup (s : string) : Prop := every (fun c => c <> "<"%char /\ c <> "&"%char) s.

(** The name a user sees: the given one, or the identifier *)
Definition shown (s : ksite) : string := if String.eqb (k_given s) "" then k_id s else k_given s.
(** Subscribers: a client site has at least one, other sites have none *)
Definition people (s : ksite) (n : N) : Prop :=
  (k_type s <> CN -> n = 0%N)
  /\ (k_type s = CN -> match k_subscribers s with None | Some 0%N => n = 1%N | Some m => n = m end).
(** The type of a link: a wireless link is for access when it leads to a client site *)
Definition kind (l : klink) (t : link_type) : Prop :=
  (e_wireless l = false -> t = ETHERNET)
  /\ (e_wireless l = true -> k_type (e_rx l) = CN -> t = WIRELESS_ACCESS)
  /\ (e_wireless l = true -> k_type (e_rx l) <> CN -> t = WIRELESS_BACKHAUL).
Definition or_none (s : string) : option string := if String.eqb s "" then None else Some s.
(** The site that is read is the site that was written.  The building is not in the file. *)
Definition same_site (s : ksite) (r : raw_site) : Prop :=
  r_type r = k_type s /\ r_status r = k_status s
  /\ r_name r = or_none (shown s) /\ r_sku r = or_none (k_sku s)
  /\ r_lat r = k_lat s /\ r_lon r = k_lon s /\ r_alt r = k_alt s /\ r_height r = None
  /\ r_location r = k_location s /\ r_building r = None /\ exists n, r_subscribers r = Some n /\ people s n.
(** The link that is read joins the same two sites, with the same type and status.  Its confidence level is lost. *)
Definition same_link (l : klink) (r : raw_link) : Prop :=
  kind l (w_type r) /\ w_status r = e_status l
  /\ w_tx r = shown (e_tx l) /\ w_rx r = shown (e_rx l)
  /\ w_tx_lat r = k_lat (e_tx l) /\ w_tx_lon r = k_lon (e_tx l)
  /\ w_rx_lat r = k_lat (e_rx l) /\ w_rx_lon r = k_lon (e_rx l) /\ w_confidence r = None.
Definition same_demand (d : kdemand) (p : Q * Q) : Prop := p = (b_lat d, b_lon d).

(** When the writer can write: the ends of a link both have an altitude or both have none, the sectors of a deployed link
    are on one channel, and demands that are not all equal are known and have a maximum other than zero *)
Definition deployed (s : status) : Prop := s = PROPOSED \/ s = EXISTING.
Definition link_writable (l : klink) : Prop :=
  (k_alt (e_tx l) = None <-> k_alt (e_rx l) = None)
  /\ (deployed (e_status l) -> forall a b, e_channels l = Some (a, b) -> a = b).
Definition value (d : kdemand) : Q := match b_demand d with Some q => q | None => 0 end.
Definition maximum (ds : list kdemand) (m : Q) : Prop := (exists d, In d ds /\ value d == m) /\ forall d, In d ds -> value d <= m.
Definition demands_writable (ds : list kdemand) : Prop :=
  (forall a b, In a ds -> In b ds -> value a == value b)
  \/ ((forall d, In d ds -> b_demand d <> None) /\ ~ maximum ds 0).

(** The placemarks of a file *)
Fixpoint in_folder (p : placemark) (f : folder) : Prop :=
  match f with
  | Folder _ ms subs => In p ms \/ (fix any (l : list folder) : Prop := match l with nil => False | x :: r => in_folder p x \/ any r end) subs
  end.
Definition in_document (p : placemark) (d : document) : Prop := exists f, In f (d_folders d) /\ in_folder p f.
Definition folder_name (f : folder) : string := match f with Folder n _ _ => n end.
Definition subfolders (f : folder) : list folder := match f with Folder _ _ s => s end.
Definition marks (f : folder) : list placemark := match f with Folder _ m _ => m end.

(** The order of the links of a folder: by hash, and the most used first among those with one hash *)
Definition link_before (a b : klink) : Prop :=
  str_ltb (e_hash a) (e_hash b) = true \/ (e_hash a = e_hash b /\ e_util b <= e_util a).
Definition name_before (a b : ksite) : Prop := str_ltb (shown b) (shown a) = false.
(** How much a link is used, in either direction *)
Definition used_over (t : ktopo) (l : klink) (q : Q) : Prop :=
  q < e_util l \/ exists r, In r (kt_links t) /\ k_id (e_tx r) = k_id (e_rx l) /\ k_id (e_rx r) = k_id (e_tx l) /\ q < e_util r.

(** Python prints a float with a point, an exponent, "inf" or "nan": never with digits only *)
Definition float_text (num : Q -> string) : Prop :=
  forall q, readable (num q) /\ ~ every (fun c => (48 <= code c <= 57)%nat) (num q).
Definition attribute_text (attribute : klink -> string -> option string) : Prop :=
  forall l n v, attribute l n = Some v -> readable v.
