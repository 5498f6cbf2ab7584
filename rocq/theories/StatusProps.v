(** Property theorems C06, C07 and C46 (statuses). *)
From Verif Require Import Base Dict StatusModel StatusProofs.
Local Open Scope string_scope.
Local Open Scope list_scope.

Definition hops0 := [NewSite "a" EXISTING; NewSite "b" PROPOSED; NewSector "xa" "a" EXISTING; NewSector "xb" "b" PROPOSED;
  NewLink "ab" "a" "b" (Some ("xa", "xb")) CANDIDATE; SetLink "ab" PROPOSED; SetSite "a" CANDIDATE].
Definition h0 := hrun hops0 empty_heap.
Example h0_content : h_sites h0 = [("a", EXISTING); ("b", PROPOSED)] /\ dget (h_links h0) "ab" = Some (mkHLink "a" "b" (Some ("xa", "xb")) PROPOSED).
Proof. vm_compute. auto. Qed.

(** C06: an immutable status is kept for ever, and is never acquired after creation. *)
Theorem C06_site_immutable_status_kept : forall ops h i s, dget (h_sites h) i = Some s ->
  exists s', dget (h_sites (hrun ops h)) i = Some s' /\
   (immutable s = true -> s' = s) /\ (immutable s' = true -> s' = s).
Proof. exact hrun_site. Qed.
Print Assumptions C06_site_immutable_status_kept.
Theorem C06_sector_immutable_status_kept : forall ops h i x, dget (h_sectors h) i = Some x ->
  exists x', dget (h_sectors (hrun ops h)) i = Some x' /\ hx_site x' = hx_site x /\
   (immutable (hx_status x) = true -> hx_status x' = hx_status x) /\
   (immutable (hx_status x') = true -> hx_status x' = hx_status x).
Proof. exact hrun_sector. Qed.
Print Assumptions C06_sector_immutable_status_kept.
Theorem C06_link_immutable_status_kept : forall ops h i l, dget (h_links h) i = Some l ->
  exists l', dget (h_links (hrun ops h)) i = Some l' /\ hl_tx l' = hl_tx l /\ hl_rx l' = hl_rx l /\
   (immutable (hl_status l) = true -> hl_status l' = hl_status l) /\
   (immutable (hl_status l') = true -> hl_status l' = hl_status l).
Proof. exact hrun_link. Qed.
Print Assumptions C06_link_immutable_status_kept.
Example C06_example : dget (h_sites (hrun [SetSite "a" PROPOSED; SetSite "b" CANDIDATE; SetSite "b" EXISTING] h0)) "a" = Some EXISTING
  /\ dget (h_sites (hrun [SetSite "a" PROPOSED; SetSite "b" CANDIDATE; SetSite "b" EXISTING] h0)) "b" = Some CANDIDATE.
Proof. vm_compute. auto. Qed.

(** C07.  Proved for histories that never demote an active site, and only for the end
    sites and for a sector's own site. *)
Theorem C07_active_link_joins_active_sites_partial : forall ops, no_demotion ops empty_heap ->
  (forall i l, dget (h_links (hrun ops empty_heap)) i = Some l -> active (hl_status l) = true ->
     site_is (hrun ops empty_heap) (hl_tx l) active /\ site_is (hrun ops empty_heap) (hl_rx l) active) /\
  (forall i x, dget (h_sectors (hrun ops empty_heap)) i = Some x -> active (hx_status x) = true ->
     site_is (hrun ops empty_heap) (hx_site x) active).
Proof. exact active_run. Qed.
Print Assumptions C07_active_link_joins_active_sites_partial.
Example C07_example : no_demotion [NewSite "a" CANDIDATE; NewSite "b" EXISTING; SetSite "a" PROPOSED;
  NewLink "ab" "a" "b" None PROPOSED] empty_heap.
Proof. repeat split; intros i s old E; inversion E; subst; auto. Qed.
Theorem C07_existing_link_joins_existing_sites : forall ops i l,
  dget (h_links (hrun ops empty_heap)) i = Some l -> hl_status l = EXISTING ->
  dget (h_sites (hrun ops empty_heap)) (hl_tx l) = Some EXISTING /\
  dget (h_sites (hrun ops empty_heap)) (hl_rx l) = Some EXISTING.
Proof. exact existing_run. Qed.
Print Assumptions C07_existing_link_joins_existing_sites.
Example C07_existing_example : exists l, dget (h_links (hrun [NewSite "a" EXISTING; NewSite "b" EXISTING;
  NewLink "ab" "a" "b" None EXISTING; SetSite "b" CANDIDATE] empty_heap)) "ab" = Some l /\ hl_status l = EXISTING.
Proof. eexists. vm_compute. split; reflexivity. Qed.
(** A PROPOSED site can be demoted under a PROPOSED link. *)
Theorem C07_demoted_site_refuted : exists ops i l, dget (h_links (hrun ops empty_heap)) i = Some l /\
  active (hl_status l) = true /\ ~ site_is (hrun ops empty_heap) (hl_rx l) active.
Proof.
  exists (hops0 ++ [SetSite "b" CANDIDATE]), "ab". eexists. split; [vm_compute; reflexivity|]. split; [reflexivity|].
  intros (s & E & Ha). vm_compute in E. inversion E; subst. discriminate.
Qed.
Print Assumptions C07_demoted_site_refuted.
(** A link may be active on a sector that is not. *)
Theorem C07_inactive_sector_refuted : exists ops i l a b x, dget (h_links (hrun ops empty_heap)) i = Some l /\
  active (hl_status l) = true /\ hl_secs l = Some (a, b) /\ dget (h_sectors (hrun ops empty_heap)) b = Some x /\
  active (hx_status x) = false.
Proof.
  exists (hops0 ++ [SetSector "xb" CANDIDATE]), "ab". repeat eexists; vm_compute; reflexivity.
Qed.
Print Assumptions C07_inactive_sector_refuted.
(** An EXISTING sector can end up on a site that is not active, where it can never be changed again. *)
Theorem C07_existing_sector_on_candidate_site_refuted : exists ops i x,
  dget (h_sectors (hrun ops empty_heap)) i = Some x /\ hx_status x = EXISTING /\
  dget (h_sites (hrun ops empty_heap)) (hx_site x) = Some CANDIDATE.
Proof.
  exists [NewSite "a" PROPOSED; NewSector "x" "a" EXISTING; SetSite "a" CANDIDATE], "x".
  eexists. vm_compute. repeat split.
Qed.
Print Assumptions C07_existing_sector_on_candidate_site_refuted.

(** C46: no status at all is accepted for a link between an UNAVAILABLE and an UNREACHABLE site. *)
Theorem C46_link_between_unavailable_and_unreachable_always_raises : forall h i a b secs s,
  dget (h_sites h) a = Some UNAVAILABLE -> dget (h_sites h) b = Some UNREACHABLE ->
  rok (fst (hstep (NewLink i a b secs s) h)) = false /\ rok (fst (hstep (NewLink i b a secs s) h)) = false.
Proof.
  intros h i a b secs s Ea Eb. simpl. rewrite Ea, Eb.
  destruct (no_link_status_between_unavailable_unreachable s) as [-> ->].
  destruct (dmem (h_links h) i); [auto|]. destruct (negb (secs_ok h a b secs)); destruct (negb (secs_ok h b a secs)); auto.
Qed.
Print Assumptions C46_link_between_unavailable_and_unreachable_always_raises.
Example C46_example : let h := hrun [NewSite "a" UNAVAILABLE; NewSite "b" UNREACHABLE] empty_heap in
  dget (h_sites h) "a" = Some UNAVAILABLE /\ dget (h_sites h) "b" = Some UNREACHABLE.
Proof. vm_compute. auto. Qed.
