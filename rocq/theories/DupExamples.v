(** Networks that meet, and networks that defeat, the claims of C77. *)
From Coq Require Import ZArith QArith.
From Verif Require Import Base Dict TopologyModel TopologySpec GraphSpec IlpExamples DupModel DupSpec.
From Verif Require TopologyProofs TopologyLemmas GraphProofs DupProofs.
Local Open Scope list_scope.

(** deciding what the call needs *)
Section Check.
Variable pop_id : string -> string.
Definition chosens (t : topo) (dec : dict string Z) : list string := map fst (filter (fun p => copied dec (fst p) (snd p)) (t_sites t)).
Definition type_of (t : topo) (i : string) : option site_type := option_map s_type (dget (t_sites t) i).
Definition new_ids_freeb (t : topo) (dec : dict string Z) : bool :=
  forallb (fun d => negb (dmem (t_sites t) (pop_id d))) (chosens t dec) &&
  forallb (fun d => forallb (fun e => beq d e || negb (beq (pop_id d) (pop_id e))) (chosens t dec)) (chosens t dec).
Definition sectors_soundb (t : topo) : bool :=
  forallb (fun p => match type_of t (x_site (snd p)) with Some DN => negb (k_cn (x_key (snd p))) | _ => true end) (t_sectors t) &&
  forallb (fun p => match type_of t (l_tx (snd p)) with Some CN => false | _ => true end) (t_links t) &&
  forallb (fun p => match l_sectors (snd p) with Some (a, b) => dmem (t_sectors t) (key_id a) && dmem (t_sectors t) (key_id b) | None => true end) (t_links t).
Definition usableb (t : topo) (i : string) : bool :=
  match dget (t_sites t) i with Some n => beq (s_type n) POP || (negb (beq (s_status n) UNAVAILABLE) && negb (beq (s_status n) UNREACHABLE)) | None => true end.
Definition neighbours_usableb (t : topo) (dec : dict string Z) : bool :=
  forallb (fun p => match l_sectors (snd p) with None => true | Some _ =>
    (negb (mem (l_tx (snd p)) (chosens t dec)) || usableb t (l_rx (snd p))) && (negb (mem (l_rx (snd p)) (chosens t dec)) || usableb t (l_tx (snd p))) end) (t_links t).
Definition not_popb (t : topo) (i : string) : bool := match type_of t i with Some POP => false | Some _ => true | None => false end.
Definition has_way_outb (t : topo) (dec : dict string Z) : bool :=
  forallb (fun d => existsb (fun p => beq (l_tx (snd p)) d && not_popb t (l_rx (snd p))) (t_links t)) (chosens t dec).
Variable t : topo.
Variable dec : dict string Z.
Hypothesis Hr : reachable t.
Lemma chosens_in d s : chosen t dec d s -> In d (chosens t dec).
Proof using. intros C. unfold chosens. apply in_map_iff. exists (d, s). split; [reflexivity|]. apply filter_In. split; [apply dget_In, C|]. now apply (DupProofs.copied_iff t dec _ _ (proj1 C)). Qed.
Lemma new_ids_freeb_sound : new_ids_freeb t dec = true -> new_ids_free pop_id t dec.
Proof using.
  unfold new_ids_freeb. rewrite andb_true_iff, !forallb_forall. intros (A & B). split.
  - intros d s C. apply chosens_in in C. specialize (A _ C). apply negb_true_iff in A. now apply dmem_None.
  - intros d e sd se C D E. apply chosens_in in C, D. specialize (B _ C). rewrite forallb_forall in B. specialize (B _ D). rewrite E, beq_refl in B. cbn in B. rewrite orb_false_r in B. now apply beq_true.
Qed.
Lemma sectors_soundb_sound : sectors_soundb t = true -> sectors_sound t.
Proof using.
  unfold sectors_soundb, type_of. rewrite !andb_true_iff, !forallb_forall. intros ((A & B) & C). split; [|split].
  - intros k x s Ex Es Ty. apply dget_In in Ex. specialize (A _ Ex). cbn in A. rewrite Es in A. cbn in A. rewrite Ty in A. now apply negb_true_iff.
  - intros k l s El Es Ty. apply dget_In in El. specialize (B _ El). cbn in B. rewrite Es in B. cbn in B. rewrite Ty in B. discriminate.
  - intros k l a b El Es. apply dget_In in El. specialize (C _ El). cbn in C. rewrite Es in C. apply andb_true_iff in C. destruct C as (C & D). apply dmem_Some in C, D. auto.
Qed.
Lemma usableb_sound i n : dget (t_sites t) i = Some n -> usableb t i = true -> s_type n = POP \/ (s_status n <> UNAVAILABLE /\ s_status n <> UNREACHABLE).
Proof using. unfold usableb. intros -> H. apply orb_true_iff in H. destruct H as [H|H]; [left; now apply beq_true|right]. apply andb_true_iff in H. rewrite !negb_true_iff in H. destruct H as (A & B). split; now apply beq_false. Qed.
Lemma neighbours_usableb_sound : neighbours_usableb t dec = true -> neighbours_usable t dec.
Proof using.
  unfold neighbours_usableb. rewrite forallb_forall. intros A d sd k l n C El Ns H. apply dget_In in El. specialize (A _ El). cbn in A. destruct (l_sectors l); [|now destruct Ns]. apply andb_true_iff in A. destruct A as (A & B). apply chosens_in in C. apply mem_In in C.
  destruct H as [(<- & En)|(<- & En)]; [rewrite C in A|rewrite C in B]; cbn in *; eapply usableb_sound; eauto.
Qed.
Lemma has_way_outb_sound : has_way_outb t dec = true -> has_way_out t dec.
Proof using Hr.
  unfold has_way_outb. rewrite forallb_forall. intros A d sd l0 C _ _. apply chosens_in in C. specialize (A _ C). apply existsb_exists in A. destruct A as ((k & l) & Hin & A). cbn in A. apply andb_true_iff in A. destruct A as (A & B). apply beq_true in A.
  exists l. split; [exists k; apply (In_dget _ _ _ (TopologyProofs.iw_links _ (TopologyProofs.inv_reachable _ Hr)) Hin)|]. split; [exact A|]. unfold not_popb, type_of in B. destruct (dget (t_sites t) (l_rx l)) as [s|] eqn:E; [|discriminate]. exists s. split; [exact E|]. cbn in B. intros T. rewrite T in B. discriminate.
Qed.
End Check.

(** POP [p], DNs [d], [e], [f], CN [c] *)
Definition pop_name (i : string) : string := if beq i "d"%string then "dp"%string else if beq i "e"%string then "ep"%string else "zp"%string.
Lemma pop_name_dashless i : no_dash (pop_name i).
Proof. unfold pop_name. destruct (beq i "d"%string); [|destruct (beq i "e"%string)]; unfold no_dash; cbn; intuition discriminate. Qed.
Definition du_ops (c : status) (links : list link) : list op :=
  [AddSite (x_site_ "p" POP CANDIDATE 0); AddSite (x_site_ "d" DN CANDIDATE 1); AddSite (x_site_ "e" DN CANDIDATE 2); AddSite (x_site_ "f" DN CANDIDATE 3); AddSite (x_site_ "c" CN c 4);
   AddSector (mkSector (x_key_ "p" false) CANDIDATE); AddSector (mkSector (x_key_ "d" false) CANDIDATE);
   AddSector (mkSector (x_key_ "e" false) CANDIDATE); AddSector (mkSector (x_key_ "c" true) c)] ++ map AddLink links ++ [AddDemand (mkDemand "z" ["c"; "d"]%string)].
Definition du_topo (c : status) (links : list link) : topo := run (du_ops c links) empty_topo.
Definition du_dec : dict string Z := [("p", 1%Z); ("d", 1%Z); ("e", 0%Z)]%string.
Definition both (a b : string) : list link := [x_link a b false CANDIDATE; x_link b a false CANDIDATE].
Definition wire (a b : string) : list link := [mkLink a b false false None CANDIDATE; mkLink b a false false None CANDIDATE].
Definition k_good : list link := both "p" "d" ++ both "d" "e" ++ [x_link "d" "c" true CANDIDATE].
Definition k_unavailable : list link := both "p" "d" ++ both "d" "e" ++ [x_link "d" "c" true UNAVAILABLE].
Definition k_wire : list link := both "d" "e" ++ wire "d" "f".
Definition k_oneway : list link := [x_link "e" "d" false CANDIDATE].
Lemma du_reachable c links : In links [k_good; k_unavailable; k_wire; k_oneway] -> reachable (du_topo c links).
Proof.
  intros H. exists (du_ops c links). split; [|reflexivity]. unfold du_ops, k_good, k_unavailable, k_wire, k_oneway, both, wire in *.
  repeat destruct H as [<-|H]; try destruct H; cbn [map app];
    repeat (constructor; [first [exact Logic.I | split; reflexivity | unfold op_ok, no_dash; simpl; intuition discriminate]|]); constructor.
Qed.
Lemma du_needs c links : In links [k_good; k_unavailable; k_wire; k_oneway] -> new_ids_freeb pop_name (du_topo c links) du_dec = true -> sectors_soundb (du_topo c links) = true ->
  new_ids_free pop_name (du_topo c links) du_dec /\ sectors_sound (du_topo c links).
Proof. intros H A B. split; [now apply new_ids_freeb_sound|now apply sectors_soundb_sound]. Qed.
Definition du_result (c : status) (links : list link) : topo := match add_duplicate_pops pop_name (du_topo c links) du_dec with Ok t => t | Err _ => empty_topo end.
Lemma du_good : add_duplicate_pops pop_name (du_topo CANDIDATE k_good) du_dec = Ok (du_result CANDIDATE k_good) /\
  dkeys (t_sites (du_result CANDIDATE k_good)) = ["p"; "d"; "e"; "f"; "c"; "dp"]%string /\
  dkeys (t_links (du_result CANDIDATE k_good)) = ["p-d"; "d-p"; "d-e"; "e-d"; "d-c"; "dp-e"; "dp-c"; "e-dp"]%string.
Proof. split; [vm_compute; reflexivity|]. split; vm_compute; reflexivity. Qed.
Lemma du_good_needs : new_ids_free pop_name (du_topo CANDIDATE k_good) du_dec /\ sectors_sound (du_topo CANDIDATE k_good) /\ neighbours_usable (du_topo CANDIDATE k_good) du_dec /\ has_way_out (du_topo CANDIDATE k_good) du_dec.
Proof.
  split; [apply new_ids_freeb_sound; vm_compute; reflexivity|]. split; [apply sectors_soundb_sound; vm_compute; reflexivity|]. split; [apply neighbours_usableb_sound; vm_compute; reflexivity|].
  apply has_way_outb_sound; [apply du_reachable; now left|vm_compute; reflexivity].
Qed.
Lemma du_unavailable : reachable (du_topo UNAVAILABLE k_unavailable) /\ new_ids_free pop_name (du_topo UNAVAILABLE k_unavailable) du_dec /\ sectors_sound (du_topo UNAVAILABLE k_unavailable) /\
  has_way_out (du_topo UNAVAILABLE k_unavailable) du_dec /\ add_duplicate_pops pop_name (du_topo UNAVAILABLE k_unavailable) du_dec = Err TopologyExn.
Proof.
  assert (R : reachable (du_topo UNAVAILABLE k_unavailable)) by (apply du_reachable; cbn [In]; tauto). split; [exact R|].
  split; [apply new_ids_freeb_sound; vm_compute; reflexivity|]. split; [apply sectors_soundb_sound; vm_compute; reflexivity|]. split; [apply has_way_outb_sound; [exact R|vm_compute; reflexivity]|vm_compute; reflexivity].
Qed.
Lemma du_oneway : reachable (du_topo CANDIDATE k_oneway) /\ new_ids_free pop_name (du_topo CANDIDATE k_oneway) du_dec /\ sectors_sound (du_topo CANDIDATE k_oneway) /\
  neighbours_usable (du_topo CANDIDATE k_oneway) du_dec /\ add_duplicate_pops pop_name (du_topo CANDIDATE k_oneway) du_dec = Err PyNameError.
Proof.
  split; [apply du_reachable; cbn [In]; tauto|]. split; [apply new_ids_freeb_sound; vm_compute; reflexivity|]. split; [apply sectors_soundb_sound; vm_compute; reflexivity|].
  split; [apply neighbours_usableb_sound; vm_compute; reflexivity|vm_compute; reflexivity].
Qed.
Lemma du_wire : add_duplicate_pops pop_name (du_topo CANDIDATE k_wire) du_dec = Ok (du_result CANDIDATE k_wire) /\
  link_stored (du_topo CANDIDATE k_wire) "e-d" (x_link "e" "d" false CANDIDATE) /\
  link_stored (du_result CANDIDATE k_wire) "e-dp" (mkLink "e" "dp" false false (Some (x_key_ "e" false, x_key_ "dp" false)) CANDIDATE).
Proof. split; [vm_compute; reflexivity|]. split; vm_compute; reflexivity. Qed.
Lemma du_wire_chosen : exists s, chosen (du_topo CANDIDATE k_wire) du_dec "d" s.
Proof. exists (x_site_ "d" DN CANDIDATE 1). split; [vm_compute; reflexivity|]. split; reflexivity. Qed.
