(** Property theorems C29 and C57; vocabulary in SecLinkSpec.v. *)
From Coq Require Import QArith Qabs Qminmax Lqa.
From Verif Require Import Base Dict SecLinkModel SecLinkSpec SecLinkProofs SecLinkExamples.
Local Open Scope Q_scope.
Local Open Scope string_scope.
Local Open Scope list_scope.

(** Every link ends with both sectors or none.  A wireless link that had sectors keeps them and they cover
    its direction; one that had none gets closest sectors covering its direction, or has no such sectors
    and is not active.  The exception: a link gets what was chosen for the link back.  Missing: that the
    sectors then cover the direction of the link itself, which is false (below). *)
Theorem C29_both_or_none_partial : forall stype sstatus scan bearing full_cn channels w w' a b l, wf_world stype bearing w ->
  add_sectors_to_links stype sstatus scan bearing full_cn channels w = Ok w' -> dget (w_links w) (a, b) = Some l ->
  exists l' p, dget (w_links w') (a, b) = Some l' /\ sl_wireless l' = sl_wireless l /\ sl_status l' = sl_status l /\ sectors_are l' p /\
    outcome_ok stype scan bearing full_cn w a b l p.
Proof. intros. eapply assigned_ok; eauto. Qed.
Print Assumptions C29_both_or_none_partial.
Theorem C29_links_back_agree : forall stype sstatus scan bearing full_cn channels w w' a b l r l' r', wf_world stype bearing w ->
  add_sectors_to_links stype sstatus scan bearing full_cn channels w = Ok w' -> a <> b ->
  dget (w_links w) (a, b) = Some l -> dget (w_links w) (b, a) = Some r -> dget (w_links w') (a, b) = Some l' -> dget (w_links w') (b, a) = Some r' ->
  sl_wireless l = true -> sl_wireless r = true -> sectors_are l None -> sectors_are r None -> sl_rx r' = sl_tx l' /\ sl_tx r' = sl_rx l'.
Proof. intros. eapply mirrored; eauto. Qed.
Print Assumptions C29_links_back_agree.
Theorem C29_sectors_stay : forall stype sstatus scan bearing full_cn channels w w', wf_world stype bearing w ->
  add_sectors_to_links stype sstatus scan bearing full_cn channels w = Ok w' ->
  dkeys (w_links w') = dkeys (w_links w) /\ dkeys (w_secs w') = dkeys (w_secs w) /\
  forall i x, dget (w_secs w) i = Some x -> exists x', dget (w_secs w') i = Some x' /\ ss_site x' = ss_site x /\ ss_az x' = ss_az x.
Proof. intros. eapply sectors_stay; eauto. Qed.
Print Assumptions C29_sectors_stay.
(** a sector whose status or channel changes is proposed, with the channel planned for an active link that
    is given the sector *)
Theorem C29_channels : forall stype sstatus scan bearing full_cn channels w w' i x, wf_world stype bearing w ->
  add_sectors_to_links stype sstatus scan bearing full_cn channels w = Ok w' -> dget (w_secs w') i = Some x ->
  dget (w_secs w) i = Some x \/
  exists m a b tx rx l, channels = Some m /\ dget (w_links w) (a, b) = Some l /\ sl_wireless l = true /\ active (sl_status l) = true /\ sectors_are l None /\
    best_pair stype scan bearing full_cn (w_secs w) a b tx rx /\ (i = tx \/ i = rx) /\ dget m (a, b) = Some (ss_chan x) /\ ss_status x = PROPOSED.
Proof. intros. eapply channels_ok; eauto. Qed.
Print Assumptions C29_channels.
(** A link may be given sectors that do not cover it: bearings there and back differ a little, and the
    sectors chosen for the link back are put on a link already found to have none. *)
Theorem C29_covers_own_direction_refuted : exists stype sstatus scan bearing w w' l' tx rx, wf_world stype bearing w /\
  add_sectors_to_links stype sstatus scan bearing true None w = Ok w' /\ dget (w_links w') ("A", "B") = Some l' /\ sl_wireless l' = true /\ sectors_are l' (Some (tx, rx)) /\
  ~ covers stype scan true (w_secs w) "A" false (bearing "A" "B") tx.
Proof.
  exists ex_type, ex_site_status, ex_scan, (ex_bearing (105011 # 1000) (-2 # 1000)), (ex_world ab_links).
  eexists. eexists. exists "A-1", "B-0". split; [apply ex_wf; [apply ab_nodup|apply ab_no_cn|lra..]|]. split; [vm_compute; reflexivity|]. split; [reflexivity|]. split; [reflexivity|]. split; [split; reflexivity|].
  intros (x & Hx & _ & R). cbn in Hx. injection Hx as <-. vm_compute in R. discriminate.
Qed.
Print Assumptions C29_covers_own_direction_refuted.
Example C29_example : forall full_cn, exists w', wf_world ex_type (ex_bearing 40 0) (ex_world ab_links) /\
  add_sectors_to_links ex_type ex_site_status ex_scan (ex_bearing 40 0) full_cn None (ex_world ab_links) = Ok w' /\
  dget (w_links w') ("A", "B") = Some (mkSLink true CANDIDATE (Some "A-1") (Some "B-0")) /\
  dget (w_links w') ("B", "A") = Some (mkSLink true CANDIDATE (Some "B-0") (Some "A-1")) /\
  dget (w_links w') ("A", "C") = Some (mkSLink true CANDIDATE (if full_cn then Some "A-1" else None) (if full_cn then Some "C-0" else None)).
Proof. intros full_cn. destruct full_cn; eexists; (split; [apply ex_wf; [apply ab_nodup|apply ab_no_cn|lra..]|]); (split; [vm_compute; reflexivity|]); repeat split. Qed.

(** If the bearings of the two ends of a link are exactly opposite, no link has sectors yet and every
    active link has sectors to use, then assigning sectors succeeds. *)
Theorem C57_assigning_succeeds_partial : forall stype sstatus scan bearing full_cn w, wf_world stype bearing w ->
  (forall e l, dget (w_links w) e = Some l -> sectors_are l None) ->
  (forall a b l, dget (w_links w) (a, b) = Some l -> sl_wireless l = true -> active (sl_status l) = true ->
     exists tx rx, in_range stype scan bearing full_cn (w_secs w) a b tx rx) ->
  (forall a b l r, dget (w_links w) (a, b) = Some l -> dget (w_links w) (b, a) = Some r -> opposite (bearing a b) (bearing b a)) ->
  exists w', add_sectors_to_links stype sstatus scan bearing full_cn None w = Ok w'.
Proof. intros. eapply add_total; eauto. Qed.
Print Assumptions C57_assigning_succeeds_partial.
(** Bearings on a sphere are not exactly opposite: the sectors just chosen for a link are then checked
    against the bearing back, and the whole preparation fails although no link is active. *)
Theorem C57_assigning_succeeds_refuted : exists (stype : string -> site_type) (sstatus : string -> status) (scan : string -> Q) (bearing : string -> string -> Q) (w : sworld), wf_world stype bearing w /\
  (forall e l, dget (w_links w) e = Some l -> sectors_are l None /\ active (sl_status l) = false) /\
  Qabs (bearing "A" "B" + 180 - bearing "B" "A") == 2 # 1000 /\
  add_sectors_to_links stype sstatus scan bearing true None w = Err OptExn.
Proof.
  exists ex_type, ex_site_status, ex_scan, (ex_bearing (105009 # 1000) (2 # 1000)), (ex_world ab_links).
  split; [apply ex_wf; [apply ab_nodup|apply ab_no_cn|lra..]|]. split; [|split; vm_compute; reflexivity].
  intros e l H. apply dget_In in H. cbn in H. repeat (destruct H as [H|H]; [injection H as _ <-; repeat split|]). destruct H.
Qed.
Print Assumptions C57_assigning_succeeds_refuted.
Example C57_example : wf_world ex_type (ex_bearing 40 0) (ex_world ab_links) /\ opposite (ex_bearing 40 0 "A" "B") (ex_bearing 40 0 "B" "A").
Proof. split; [apply ex_wf; [apply ab_nodup|apply ab_no_cn|lra..]|]. split; [split; vm_compute; congruence|left; reflexivity]. Qed.
