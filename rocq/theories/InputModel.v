(** Input sites (terragraph_planner/common/data_io/input_sites.py 15-108 and input_sites_loader.py 46-204).
    A position (latitude, longitude, altitude) is any type with an equality test; str.casefold is applied
    beforehand to the device SKUs; hashing of site ids is a parameter. *)
From Verif Require Import Base Dict TopologyModel SetupModel.
Local Open Scope string_scope.
Local Open Scope list_scope.

(** common/configuration/enums.py 59-62 *)
Inductive loc_type := ROOFTOP | STREET_LEVEL | UNKNOWN_LOC.
Definition loc_beq (a b : loc_type) : bool := match a, b with ROOFTOP, ROOFTOP | STREET_LEVEL, STREET_LEVEL | UNKNOWN_LOC, UNKNOWN_LOC => true | _, _ => false end.
Lemma loc_spec a b : Bool.reflect (a = b) (loc_beq a b).
Proof. destruct a, b; constructor; congruence. Qed.
#[global] Instance EqB_loc : EqB loc_type := {| beq := loc_beq; beq_spec := loc_spec |}.

Section Input.
Context {P : Type} `{EqB P}.

(** a Site: [i_raw] is _name, [i_sku] the casefolded device SKU *)
Record isite := mkISite { i_pos : P; i_type : site_type; i_loc : loc_type; i_raw : string; i_sku : string; i_id : string }.
(** topology_models/site.py 183-191 *)
Definition name (s : isite) : string := if beq (i_raw s) "" then i_id s else i_raw s.
Definition set_name (s : isite) (n : string) : isite := mkISite (i_pos s) (i_type s) (i_loc s) n (i_sku s) (i_id s).
(** 68-76 *)
Definition key := (P * site_type * loc_type * string * string)%type.
Definition primary_key (s : isite) : key := (i_pos s, i_type s, i_loc s, name s, i_sku s).

(** InputSites: the sites are objects, the dictionaries hold their positions in the list *)
Record inputs := mkInputs {
  in_sites : list isite;
  in_skus : dict string (list string);
  in_names : dict string nat;
  in_ids : dict string nat;
  in_keys : list key
}.
Definition empty_inputs : inputs := mkInputs [] [] [] [] [].

Fixpoint set_nth {A} (l : list A) (i : nat) (a : A) : list A :=
  match l, i with
  | [], _ => []
  | _ :: t, O => a :: t
  | b :: t, S j => b :: set_nth t j a
  end.
(** 104-108 *)
Definition append_sku (w : list isite * dict string nat) (h : nat) : list isite * dict string nat :=
  let '(sites, names) := w in
  match nth_error sites h with
  | None => w
  | Some s =>
    let names := if dmem names (name s) then ddel names (name s) else names in
    let s' := set_name s (name s ++ "_" ++ i_sku s) in
    (set_nth sites h s', dset names (name s') h)
  end.
(** 81-102; [sites] ends with the new site.  The empty sets a defaultdict creates on reading are not kept. *)
Definition validate_site_name (sites : list isite) (skus : dict string (list string)) (names : dict string nat) (h : nat) (s : isite)
  : result (list isite * dict string (list string) * dict string nat) :=
  let n := name s in
  let old := match dget skus n with Some l => l | None => [] end in
  if mem (i_sku s) old then Err DataExn
  else
    do w <- (if Nat.eqb (List.length old) 1 then
               match dget names n with
               | Some h0 => Ok (append_sku (sites, names) h0)
               | None => Err PyKeyError
               end
             else Ok (sites, names)) ;
    let new := old ++ [i_sku s] in
    let skus := dset skus n new in
    let '(sites, names) := if (1 <? List.length new)%nat then append_sku w h else (fst w, dset (snd w) n h) in
    Ok (sites, skus, names).
(** 60-79; the exception, if any, with the state it leaves *)
Definition add_site (st : inputs) (s : isite) : inputs * option exn :=
  if mem (primary_key s) (in_keys st) then (st, None)
  else
    let keys := in_keys st ++ [primary_key s] in
    let h := List.length (in_sites st) in
    match validate_site_name (in_sites st ++ [s]) (in_skus st) (in_names st) h s with
    | Err e => (mkInputs (in_sites st) (in_skus st) (in_names st) (in_ids st) keys, Some e)
    | Ok (sites, skus, names) => (mkInputs sites skus names (dset (in_ids st) (i_id s) h) keys, None)
    end.
Fixpoint add_sites (st : inputs) (l : list isite) : result inputs :=
  match l with
  | [] => Ok st
  | s :: t => match add_site st s with
              | (st, None) => add_sites st t
              | (_, Some e) => Err e
              end
  end.
(** 54-58 *)
Definition get_site_by_name (st : inputs) (n : string) : option isite :=
  match dget (in_names st) n with Some h => nth_error (in_sites st) h | None => None end.
Definition get_site_by_id (st : inputs) (i : string) : option isite :=
  match dget (in_ids st) i with Some h => nth_error (in_sites st) h | None => None end.

(** ** input_sites_loader.py *)
(** a device of the configuration: casefolded SKU and whether it is a CN device *)
Record idevice := mkIDev { d_sku : string; d_cn : bool }.
Record raw_site := mkRaw { r_pos : P; r_type : site_type; r_loc : loc_type; r_building : option Z; r_name : option string; r_sku : option string }.
Variables (devices : list idevice) (inside : raw_site -> bool).
(** infer_input_site_location *)
Variable infer : option (raw_site -> result (P * loc_type)).
(** deterministic_hash *)
Variable hash_id : site_type -> P -> string -> string.
(** topology_models/site.py 77-99: the checks on construction *)
Definition make_site (t : site_type) (p : P) (d : idevice) (loc : loc_type) (building : option Z) (n : option string) : result isite :=
  do _ <- guard (negb (beq loc ROOFTOP && match building with None => true | _ => false end)) TopologyExn ;
  do _ <- guard (negb (negb (beq loc ROOFTOP) && match building with None => false | _ => true end)) TopologyExn ;
  do _ <- guard (Bool.eqb (beq t CN) (d_cn d)) TopologyExn ;
  Ok (mkISite p t loc (match n with Some n => n | None => "" end) (d_sku d) (hash_id t p (d_sku d))).
(** 52-56: sku_to_device; a later device replaces an earlier one of the same SKU *)
Definition sku_to_device : dict string idevice := fold_left (fun d x => dset d (d_sku x) x) devices [].
(** 131-204 *)
Definition construct_sites (r : raw_site) : result (list isite) :=
  do pl <- (match infer with Some f => do pl <- f r ; Ok (pl, if beq (snd pl) ROOFTOP then Some (-1)%Z else None)
                          | None => Ok ((r_pos r, r_loc r), r_building r) end) ;
  let '(p, loc, building) := (fst (fst pl), snd (fst pl), snd pl) in
  match r_sku r with
  | Some sku =>
    match dget sku_to_device sku with
    | None => Err DataExn
    | Some d => do s <- make_site (r_type r) p d loc building (r_name r) ; Ok [s]
    end
  | None => mapM (fun d => make_site (r_type r) p d loc building (r_name r)) (filter (fun d => Bool.eqb (beq (r_type r) CN) (d_cn d)) devices)
  end.
(** 105-129 *)
Fixpoint get_input_sites (st : inputs) (l : list raw_site) : result inputs :=
  match l with
  | [] => Ok st
  | r :: t =>
    if inside r then
      do sites <- construct_sites r ;
      do st <- add_sites st sites ;
      get_input_sites st t
    else get_input_sites st t
  end.
End Input.
Arguments isite P : clear implicits.
Arguments inputs P : clear implicits.
Arguments raw_site P : clear implicits.
