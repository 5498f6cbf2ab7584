(** Concrete files. *)
From Coq Require Import QArith Permutation.
From Verif Require Import Base Dict SetupModel LosRangeModel TopologyModel TopologySpec LinkMapModel LinkMapSpec LinkKmlModel LinkMapFinalProofs.
From Verif Require KmlModel.
Local Open Scope string_scope.
Local Open Scope list_scope.

Definition sp := mkSite "p" POP EXISTING (0, 0, 0)%Z UNASSIGNED false.
Definition sd := mkSite "d" DN CANDIDATE (1, 0, 0)%Z UNASSIGNED false.
Definition sc := mkSite "c" CN CANDIDATE (2, 0, 0)%Z UNASSIGNED false.
Definition all := [sp; sd; sc].
Definition by_name (n : string) : option site :=
  if beq n "pop" then Some sp else if beq n "dn" then Some sd else if beq n "cn" then Some sc else None.
Definition near0 (p : Q * Q) : option site := if Qeq_bool (fst p) 0 then Some sp else if Qeq_bool (fst p) 1 then Some sd else None.
Definition hash0 (s : site) : string := s_id s.
Definition close0 (p : Q * Q) (s : site) : bool := true.
Definition t_start : topo := run [AddSite sp; AddSite sd; AddSite sc] empty_topo.

Definition by_names (a b : string) (st : status) : raw := mkRaw WIRELESS_BACKHAUL st (Some a) (Some b) (0, 0)%Q (0, 0)%Q.
Definition wired : raw := mkRaw ETHERNET CANDIDATE (Some "nobody") (Some "dn") (0, 0)%Q (0, 0)%Q.
Definition drawn : raw := mkRaw WIRELESS_BACKHAUL CANDIDATE None None (0, 0)%Q (1, 0)%Q.
Definition file := [by_names "pop" "dn" CANDIDATE; wired; by_names "cn" "dn" CANDIDATE; drawn].

Example start_reachable : reachable t_start /\ t_links t_start = [] /\ sites_known all by_name t_start.
Proof.
  split; [|split; [reflexivity|]].
  - exists [AddSite sp; AddSite sd; AddSite sc]. split; [|reflexivity]. repeat constructor; unfold op_ok, no_dash; cbn; intros [H|[]]; discriminate H.
  - split.
    + intros s [<-|[<-|[<-|[]]]]; reflexivity.
    + intros n s. unfold by_name. repeat (destruct (beq n _); [intros E; injection E as <-; reflexivity|]). discriminate.
Qed.
(** The file is loaded: both directions between the POP and the DN, and only the direction to the client *)
Example file_loaded : exists t, map_links all by_name near0 hash0 close0 file t_start = Ok t /\ dkeys (t_links t) = ["p-d"; "d-p"; "d-c"].
Proof. eexists. split; vm_compute; reflexivity. Qed.
Example file_drawn : joins all by_name near0 hash0 close0 drawn sp sd.
Proof. right. split; [intros [H _]; now apply H|]. split; [exists sp|exists sd]; split; try reflexivity; split; try (cbn; auto; fail); split; reflexivity. Qed.
(** What is refused *)
Example unknown_name : map_links all by_name near0 hash0 close0 [by_names "pop" "nobody" CANDIDATE] t_start = Err DataExn.
Proof. reflexivity. Qed.
Example conflicting : map_links all by_name near0 hash0 close0 [by_names "pop" "dn" CANDIDATE; by_names "dn" "pop" UNAVAILABLE] t_start = Err DataExn.
Proof. reflexivity. Qed.
Example too_early : map_links all by_name near0 hash0 close0 [by_names "pop" "dn" PROPOSED] t_start = Err TopologyExn.
Proof. reflexivity. Qed.
Example file_permuted : Permutation file (rev file).
Proof. apply Permutation_rev. Qed.
(** A file with links and no sites *)
Lemma no_sites : exists raws t, reachable t /\ t_links t = [] /\ sites_known [] (fun _ => None) t
  /\ map_links [] (fun _ => None) near0 hash0 close0 raws t = Err PyAssertion.
Proof.
  exists [wired], empty_topo. split; [exists []; split; [constructor|reflexivity]|]. split; [reflexivity|]. split; [|reflexivity]. split; [intros s []|]. discriminate.
Qed.
(** A link from a site to itself *)
Lemma self_loaded : exists raws t t' k l, reachable t /\ t_links t = [] /\ sites_known all by_name t
  /\ map_links all by_name near0 hash0 close0 raws t = Ok t' /\ link_stored t' k l /\ l_tx l = l_rx l.
Proof.
  exists [by_names "dn" "dn" CANDIDATE], t_start. eexists. exists "d-d". eexists. destruct start_reachable as (A & B & C).
  split; [exact A|]. split; [exact B|]. split; [exact C|]. split; [vm_compute; reflexivity|]. split; vm_compute; reflexivity.
Qed.

(** A KML file with two sites and a link drawn between them *)
Definition drawn_doc : KmlModel.document :=
  KmlModel.mkDoc "net" [] [KmlModel.Folder "CANDIDATE" []
    [KmlModel.Folder "POP Sites" [KmlModel.mkMark "pop" "" [] "clampToGround" (KmlModel.Point 0 0 0)] [];
     KmlModel.Folder "DN Sites" [KmlModel.mkMark "dn" "" [] "clampToGround" (KmlModel.Point 0 1 0)] [];
     KmlModel.Folder "WIRELESS_BACKHAUL Links" [KmlModel.mkMark "a link" "" [] "clampToGround" (KmlModel.Line 0 0 0 0 1 0)] []]].
Definition first_of (l : list string) : string := match l with x :: _ => x | [] => "" end.
Lemma drawn_refused : exists d rs w rd,
  KmlModel.read_kml first_of d = Ok (rs, [w], rd)
  /\ In (KmlModel.w_tx_lat w, KmlModel.w_tx_lon w) (map (fun r => (KmlModel.r_lat r, KmlModel.r_lon r)) rs)
  /\ In (KmlModel.w_rx_lat w, KmlModel.w_rx_lon w) (map (fun r => (KmlModel.r_lat r, KmlModel.r_lon r)) rs)
  /\ near0 (KmlModel.w_tx_lat w, KmlModel.w_tx_lon w) = Some sp /\ near0 (KmlModel.w_rx_lat w, KmlModel.w_rx_lon w) = Some sd
  /\ map_links all by_name near0 hash0 close0 (map of_kml [w]) t_start = Err DataExn.
Proof.
  exists drawn_doc. eexists. eexists. eexists. split; [vm_compute; reflexivity|]. split; [now left|]. split; [right; now left|]. split; [reflexivity|]. split; reflexivity.
Qed.

(** CSV *)
Example cells : load_pairs (SitePairs ["pop --> dn"; "dn-->cn"]) = Ok [("pop", "dn"); ("dn", "cn")].
Proof. reflexivity. Qed.
Example csv_loaded : exists t, map_csv by_name (TwoSites [("pop", " dn ")]) t_start = Ok t /\ dkeys (t_links t) = ["p-d"; "d-p"].
Proof. eexists. split; vm_compute; reflexivity. Qed.
Example csv_twice : map_csv by_name (TwoSites [("pop", "dn"); ("dn", "pop")]) t_start = Err DataExn.
Proof. reflexivity. Qed.
Example cell_arrow : no_arrow "a-" /\ no_arrow " b".
Proof. split; cbn; repeat split; try (intros (q & E); discriminate E). Qed.

(** A topology that is written, read and loaded again *)
From Verif Require KmlSpec KmlExamples.
Definition conv0 (s : KmlModel.ksite) : site :=
  mkSite (KmlModel.k_id s) (KmlModel.k_type s) (KmlModel.k_status s) (0, 0, 0)%Z UNASSIGNED false.
Definition again : list site := map conv0 (KmlModel.kt_sites KmlExamples.topo0).
Definition by_shown (n : string) : option site :=
  option_map conv0 (find (fun s => beq (KmlSpec.shown s) n) (KmlModel.kt_sites KmlExamples.topo0)).
Definition t_again : topo := run (map AddSite again) empty_topo.
Example reload_case : exists d rs rl rd t',
  KmlModel.write_kml KmlExamples.num0 KmlExamples.attr0 KmlExamples.topo0 = Ok d /\ KmlModel.read_kml KmlExamples.pop0 d = Ok (rs, rl, rd)
  /\ (forall l s, In l (KmlModel.kt_links KmlExamples.topo0) -> s = KmlModel.e_tx l \/ s = KmlModel.e_rx l ->
        by_shown (KmlSpec.shown s) = Some (conv0 s) /\ s_type (conv0 s) = KmlModel.k_type s)
  /\ reachable t_again /\ t_links t_again = [] /\ sites_known again by_shown t_again
  /\ map_links again by_shown near0 hash0 close0 (map of_kml rl) t_again = Ok t' /\ dkeys (t_links t') = ["s1-s2"; "s2-s1"; "s2-s3"].
Proof.
  do 5 eexists. split; [vm_compute; reflexivity|]. split; [vm_compute; reflexivity|]. split; [|split; [|split; [|split; [|split]]]].
  - intros l s [<-|[<-|[<-|[]]]] [->| ->]; split; reflexivity.
  - exists (map AddSite again). split; [|reflexivity]. repeat constructor; unfold op_ok, no_dash; cbn; intros [H|[H|[]]]; discriminate H.
  - reflexivity.
  - split.
    + intros s [<-|[<-|[<-|[]]]]; reflexivity.
    + intros n s. unfold by_shown. cbn [find KmlModel.kt_sites KmlExamples.topo0].
      repeat (destruct (beq _ n); [intros E; injection E as <-; reflexivity|]). discriminate.
  - vm_compute. reflexivity.
  - reflexivity.
Qed.
