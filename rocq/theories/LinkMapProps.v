(** Property theorems C69: the links of a candidate topology file. *)
From Coq Require Import QArith Permutation.
From Verif Require Import Base Dict ConfModel TopologyModel TopologySpec LinkMapModel LinkMapSpec LinkKmlModel LinkMapFileProofs LinkMapFinalProofs LinkMapExamples.
From Verif Require KmlModel KmlSpec.
Local Open Scope string_scope.
Local Open Scope list_scope.

(** C69: a loaded topology has a wireless link from one site to another exactly when the file asks for one between them, in
    either direction, and the first is not a client; the link has the status the file gives, and the sites are unchanged *)
Theorem C69_links_of_the_file : forall sites lookup nearest hash close t raws t',
  reachable t -> t_links t = [] -> sites_known sites lookup t -> map_links sites lookup nearest hash close raws t = Ok t' ->
  reachable t' /\ t_sites t' = t_sites t
  /\ forall k l, link_stored t' k l <->
       k = l_id l /\ exists x y st, asked sites lookup nearest hash close raws x y st /\ s_type x <> CN /\ plain_link x y st l.
Proof. exact links_of_file. Qed.
Print Assumptions C69_links_of_the_file.

(** C69: which files are loaded: there is a site, the ends of each wireless link are found, and each link that is asked for
    has one status, which suits the statuses of its ends *)
Theorem C69_loaded_iff : forall sites lookup nearest hash close t raws,
  reachable t -> t_links t = [] -> sites_known sites lookup t ->
  ((exists t', map_links sites lookup nearest hash close raws t = Ok t') <->
   (raws = [] \/ sites <> []) /\ (forall r, In r raws -> rw_type r <> ETHERNET -> resolvable lookup nearest r)
   /\ forall x y st, asked sites lookup nearest hash close raws x y st -> s_type x <> CN ->
        allowed (s_status x) (s_status y) st /\ forall st', asked sites lookup nearest hash close raws x y st' -> st' = st).
Proof. exact loads_iff. Qed.
Print Assumptions C69_loaded_iff.

(** C69: what can be raised *)
Theorem C69_errors : forall sites lookup nearest hash close t raws e,
  reachable t -> t_links t = [] -> sites_known sites lookup t -> map_links sites lookup nearest hash close raws t = Err e ->
  e = DataExn \/ e = TopologyExn \/ e = PyAssertion.
Proof. exact load_errors. Qed.
Print Assumptions C69_errors.

(** C69: a file with links and no sites is refused by a failed assertion, not by a data error *)
Theorem C69_no_sites_refuted : exists raws t, reachable t /\ t_links t = [] /\ sites_known [] (fun _ => None) t
  /\ map_links [] (fun _ => None) near0 hash0 close0 raws t = Err PyAssertion.
Proof. exact no_sites. Qed.
Print Assumptions C69_no_sites_refuted.

(** C69: links to sites other than clients come in both directions, with one status *)
Theorem C69_both_directions : forall sites lookup nearest hash close t raws t' k l y,
  reachable t -> t_links t = [] -> sites_known sites lookup t -> map_links sites lookup nearest hash close raws t = Ok t' ->
  link_stored t' k l -> dget (t_sites t') (l_rx l) = Some y -> s_type y <> CN ->
  exists k' l', link_stored t' k' l' /\ l_tx l' = l_rx l /\ l_rx l' = l_tx l /\ l_status l' = l_status l.
Proof. exact link_both_ways. Qed.
Print Assumptions C69_both_directions.

(** C69: the order of the links in the file does not matter *)
Theorem C69_order_irrelevant : forall sites lookup nearest hash close t raws raws' t',
  reachable t -> t_links t = [] -> sites_known sites lookup t -> Permutation raws raws' ->
  map_links sites lookup nearest hash close raws t = Ok t' ->
  exists t'', map_links sites lookup nearest hash close raws' t = Ok t'' /\ t_sites t'' = t_sites t' /\ same_content (t_links t'') (t_links t').
Proof. exact order_irrelevant. Qed.
Print Assumptions C69_order_irrelevant.

(** C69 fails for KML links that are only drawn: where the links of a KML file are drawn is never used ... *)
Theorem C69_drawing_ignored : forall sites lookup n h c n' h' c' ws ws' t, Forall2 same_but_drawn ws ws' ->
  map_links sites lookup n h c (map of_kml ws) t = map_links sites lookup n' h' c' (map of_kml ws') t.
Proof. exact drawing_ignored. Qed.
Print Assumptions C69_drawing_ignored.
(** ... and a link drawn between two sites, without their names, is refused *)
Theorem C69_drawn_link_refuted : exists d rs w rd,
  KmlModel.read_kml first_of d = Ok (rs, [w], rd)
  /\ In (KmlModel.w_tx_lat w, KmlModel.w_tx_lon w) (map (fun r => (KmlModel.r_lat r, KmlModel.r_lon r)) rs)
  /\ In (KmlModel.w_rx_lat w, KmlModel.w_rx_lon w) (map (fun r => (KmlModel.r_lat r, KmlModel.r_lon r)) rs)
  /\ near0 (KmlModel.w_tx_lat w, KmlModel.w_tx_lon w) = Some sp /\ near0 (KmlModel.w_rx_lat w, KmlModel.w_rx_lon w) = Some sd
  /\ map_links all by_name near0 hash0 close0 (map of_kml [w]) t_start = Err DataExn.
Proof. exact drawn_refused. Qed.
Print Assumptions C69_drawn_link_refuted.

(** C69 fails for links from a site to itself, which are loaded *)
Theorem C69_self_link_refuted : exists raws t t' k l, reachable t /\ t_links t = [] /\ sites_known all by_name t
  /\ map_links all by_name near0 hash0 close0 raws t = Ok t' /\ link_stored t' k l /\ l_tx l = l_rx l.
Proof. exact self_loaded. Qed.
Print Assumptions C69_self_link_refuted.

(** C69: a topology that was written as a KML file and is loaded again has the same wireless links, when links between sites
    other than clients were in both directions; [conv s] is the site the loader makes of a site of the file *)
Theorem C69_reloaded : forall num attribute pop kt d rs rl rd sites lookup nearest hash close conv t t',
  KmlSpec.float_text num -> KmlSpec.attribute_text attribute -> KmlSpec.picks pop -> KmlSpec.texts kt -> KmlSpec.no_markup (KmlModel.kt_name kt) ->
  KmlModel.write_kml num attribute kt = Ok d -> KmlModel.read_kml pop d = Ok (rs, rl, rd) ->
  (forall l s, In l (KmlModel.kt_links kt) -> s = KmlModel.e_tx l \/ s = KmlModel.e_rx l ->
     lookup (KmlSpec.shown s) = Some (conv s) /\ s_type (conv s) = KmlModel.k_type s) ->
  (forall l, In l (KmlModel.kt_links kt) -> KmlModel.k_type (KmlModel.e_tx l) <> CN) ->
  (forall l, In l (KmlModel.kt_links kt) -> KmlModel.e_wireless l = true -> KmlModel.k_type (KmlModel.e_rx l) <> CN ->
     exists r, In r (KmlModel.kt_links kt) /\ KmlModel.e_wireless r = true /\ KmlModel.e_tx r = KmlModel.e_rx l
       /\ KmlModel.e_rx r = KmlModel.e_tx l /\ KmlModel.e_status r = KmlModel.e_status l) ->
  reachable t -> t_links t = [] -> sites_known sites lookup t ->
  map_links sites lookup nearest hash close (map of_kml rl) t = Ok t' ->
  forall k l, link_stored t' k l <-> k = l_id l /\
    exists e, In e (KmlModel.kt_links kt) /\ KmlModel.e_wireless e = true
      /\ plain_link (conv (KmlModel.e_tx e)) (conv (KmlModel.e_rx e)) (KmlModel.e_status e) l.
Proof. exact reloaded. Qed.
Print Assumptions C69_reloaded.

(** C69: the same for the pairs of a CSV file, whose links are all CANDIDATE *)
Theorem C69_links_of_the_csv_file : forall sites lookup ps t, reachable t -> t_links t = [] -> sites_known sites lookup t ->
  match LosRangeModel.foldM (map_pair lookup) t ps with
  | Ok t' => reachable t' /\ t_sites t' = t_sites t
      /\ (forall k l, link_stored t' k l <-> k = l_id l /\ exists x y, asked_pair lookup ps x y /\ s_type x <> CN /\ plain_link x y CANDIDATE l)
      /\ Forall (fun p => lookup (fst p) <> None /\ lookup (snd p) <> None) ps
      /\ (forall x y, asked_pair lookup ps x y -> s_type x <> CN -> allowed (s_status x) (s_status y) CANDIDATE)
  | Err e => ~ (Forall (fun p => lookup (fst p) <> None /\ lookup (snd p) <> None) ps
      /\ (forall x y, asked_pair lookup ps x y -> s_type x <> CN -> allowed (s_status x) (s_status y) CANDIDATE))
  end.
Proof. intros sites lookup ps t. exact (map_pairs_spec sites lookup t ps). Qed.
Print Assumptions C69_links_of_the_csv_file.

(** C69: the pairs of a CSV file: blanks around names do not count, and a pair listed twice is refused *)
Theorem C69_csv_pairs : forall l,
  match load_pairs (TxRx l) with
  | Ok ps => ps = map (fun p => (strip (fst p), strip (snd p))) l /\ NoDup ps
  | Err e => e = DataExn /\ ~ NoDup (map (fun p => (strip (fst p), strip (snd p))) l)
  end.
Proof. exact load_txrx. Qed.
Print Assumptions C69_csv_pairs.
Theorem C69_csv_two_sites : forall l, load_pairs (TwoSites l) = load_pairs (TxRx (flat_map (fun p => [p; (snd p, fst p)]) l)).
Proof. exact load_two. Qed.
Print Assumptions C69_csv_two_sites.
Theorem C69_csv_cells : forall l, Forall (fun p => no_arrow (fst p) /\ no_arrow (snd p)) l ->
  load_pairs (SitePairs (map (fun p => (fst p ++ "-->" ++ snd p)%string) l)) = load_pairs (TxRx l).
Proof. exact load_cells. Qed.
Print Assumptions C69_csv_cells.
