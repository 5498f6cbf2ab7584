(** Property theorems C31 and C68: topology files. *)
From Coq Require Import ZArith QArith Ascii Permutation Sorting.Sorted.
From Verif Require Import Base TopologyModel KmlModel KmlSpec KmlTextProofs KmlReadProofs KmlLayoutProofs KmlExamples.
Local Open Scope string_scope.

(** C31: text written through the escaping is read back unchanged *)
Theorem C31_text_recovered : forall s, readable s -> xml_text (escape s) = Some s.
Proof. exact text_recovered. Qed.
Print Assumptions C31_text_recovered.

(** C31: and it holds no character that opens or closes a tag *)
Theorem C31_text_opens_no_tag : forall s, every (fun c => c <> "<"%char /\ c <> ">"%char) (escape s).
Proof. exact escape_closed. Qed.
Print Assumptions C31_text_opens_no_tag.

(** C31: a topology that is written and read back has the same sites, links and demand sites, each site and link with its
    own status and type *)
Theorem C31_file_round_trip : forall num attribute pop t d,
  float_text num -> attribute_text attribute -> picks pop -> texts t -> no_markup (kt_name t) ->
  write_kml num attribute t = Ok d ->
  exists rs rl rd rs' rl', read_kml pop d = Ok (rs, rl, rd)
    /\ Permutation rs' rs /\ Forall2 same_site (kt_sites t) rs'
    /\ Permutation rl' rl /\ Forall2 same_link (kt_links t) rl'
    /\ Forall2 same_demand (kt_demands t) rd.
Proof. intros num attribute pop t d H1 H2 H3. exact (round_trip num attribute pop H1 H2 H3 t d). Qed.
Print Assumptions C31_file_round_trip.

(** C31: which topologies can be written *)
Theorem C31_written_iff : forall num attribute t,
  (exists d, write_kml num attribute t = Ok d) <-> (forall l, In l (kt_links t) -> link_writable l) /\ demands_writable (kt_demands t).
Proof. exact write_ok. Qed.
Print Assumptions C31_written_iff.

(** C31 fails for the name of the topology, which is written as it is *)
Theorem C31_topology_name_refuted : exists t d,
  texts t /\ (forall l, In l (kt_links t) -> link_writable l) /\ write_kml num0 attr0 t = Ok d /\ read_kml pop0 d = Err DataExn.
Proof. exact named_lost. Qed.
Print Assumptions C31_topology_name_refuted.

(** C31 fails for control characters, which are written as they are *)
Theorem C31_control_characters_refuted :
  (exists s r, xml_text (escape s) = Some r /\ r <> s) /\ exists s, xml_text (escape s) = None.
Proof. exact control_lost. Qed.
Print Assumptions C31_control_characters_refuted.

(** C31: confidence levels and buildings do not survive *)
Theorem C31_confidence_refuted : exists t l d rs r rd,
  In l (kt_links t) /\ e_confidence l = Some (9 # 10)%Q /\ texts t /\ write_kml num0 attr0 t = Ok d
  /\ read_kml pop0 d = Ok (rs, r :: nil, rd) /\ w_confidence r = None.
Proof. exact confidence_lost. Qed.
Print Assumptions C31_confidence_refuted.

Theorem C31_building_refuted : exists t s d r rl rd,
  In s (kt_sites t) /\ k_location s = ROOFTOP /\ k_building s = Some 7%Z /\ texts t /\ write_kml num0 attr0 t = Ok d
  /\ read_kml pop0 d = Ok (r :: nil, rl, rd) /\ r_location r = ROOFTOP /\ r_building r = None.
Proof. exact building_lost. Qed.
Print Assumptions C31_building_refuted.

(** C68: one folder for each status, and in it one for each type *)
Theorem C68_one_folder_each : forall num attribute t d, write_kml num attribute t = Ok d ->
  NoDup (map folder_name (d_folders d)) /\ forall f, In f (d_folders d) -> NoDup (map folder_name (subfolders f)).
Proof. intros num attribute t d E. exact (conj (folders_nodup num attribute t d E) (fun f => subfolders_nodup num attribute t d f E)). Qed.
Print Assumptions C68_one_folder_each.

(** C68: a folder of sites holds the sites of its type and status, by name *)
Theorem C68_sites_by_name : forall num attribute t d f g ty,
  texts t -> write_kml num attribute t = Ok d -> In f (d_folders d) -> In g (subfolders f) ->
  folder_name g = (site_type_name ty ++ " Sites")%string ->
  exists ss, (forall s, In s ss <-> In s (kt_sites t) /\ k_type s = ty /\ status_name (k_status s) = folder_name f)
    /\ StronglySorted name_before ss /\ Forall2 (fun s p => xml_text (p_name p) = Some (shown s)) ss (marks g).
Proof. exact site_folder_content. Qed.
Print Assumptions C68_sites_by_name.

(** C68: a folder of links holds the links of its type and status, and of links that overlap the most used comes first *)
Theorem C68_most_used_link_first : forall num attribute t d f g ty,
  write_kml num attribute t = Ok d -> In f (d_folders d) -> In g (subfolders f) ->
  folder_name g = (link_type_name ty ++ " Links")%string ->
  exists ls, (forall l, In l ls <-> In l (kt_links t) /\ kind l ty /\ status_name (e_status l) = folder_name f)
    /\ StronglySorted link_before ls /\ Forall2 (fun l p => p_name p = e_hash l) ls (marks g).
Proof. exact link_folder_content. Qed.
Print Assumptions C68_most_used_link_first.

(** C68: the style of a placemark is defined in the file, when no POP is UNREACHABLE, links used over 80 % are deployed and
    no demand is negative *)
Theorem C68_styles_defined_partial : forall num attribute t d p,
  write_kml num attribute t = Ok d -> in_document p d ->
  (forall s, In s (kt_sites t) -> k_type s = POP -> k_status s <> UNREACHABLE) ->
  (forall l, In l (kt_links t) -> e_wireless l = true -> used_over t l 80 -> deployed (e_status l)) ->
  (forall b, In b (kt_demands t) -> (0 <= value b)%Q) ->
  In (p_style p) (d_styles d).
Proof. exact styles_defined. Qed.
Print Assumptions C68_styles_defined_partial.

(** C68 fails otherwise *)
Theorem C68_styles_defined_refuted : exists t d p, write_kml num0 attr0 t = Ok d /\ in_document p d /\ ~ In (p_style p) (d_styles d).
Proof. exact style_missing. Qed.
Print Assumptions C68_styles_defined_refuted.
