From Verif Require Import Base Dict StatusModel.

(** ** Immutability *)
Lemma hstep_site o h i s : dget (h_sites h) i = Some s ->
  exists s', dget (h_sites (snd (hstep o h))) i = Some s' /\ (s' = s \/ assign_ok s s' = true).
Proof.
  intros E. destruct o; simpl; repeat match goal with
    | |- context [match ?x with _ => _ end] => destruct x eqn:?
    end; simpl; eauto.
  - exists s. rewrite dget_set. destruct (beq_spec i i0) as [->|]; [|auto].
    apply dmem_None in Heqb. congruence.
  - rewrite dget_set. destruct (beq_spec i i0) as [->|]; [|eauto].
    exists s0. split; [reflexivity|right; congruence].
Qed.
Lemma hstep_sector o h i x : dget (h_sectors h) i = Some x ->
  exists x', dget (h_sectors (snd (hstep o h))) i = Some x' /\ hx_site x' = hx_site x /\
   (hx_status x' = hx_status x \/ assign_ok (hx_status x) (hx_status x') = true).
Proof.
  intros E. destruct o; simpl; repeat match goal with
    | |- context [match ?y with _ => _ end] => destruct y eqn:?
    end; simpl; eauto 6.
  - rewrite dget_set. destruct (beq_spec i i0) as [->|]; [|eauto].
    match goal with H : dmem _ _ = false |- _ => apply dmem_None in H end. congruence.
  - rewrite dget_set. destruct (beq_spec i i0) as [->|]; [|eauto].
    eexists. split; [reflexivity|]. simpl.
    match goal with H : negb _ = false |- _ => apply negb_false_iff in H end.
    replace h0 with x in * by congruence. auto.
Qed.
Lemma hstep_link o h i l : dget (h_links h) i = Some l ->
  exists l', dget (h_links (snd (hstep o h))) i = Some l' /\ hl_tx l' = hl_tx l /\ hl_rx l' = hl_rx l /\
   (hl_status l' = hl_status l \/ assign_ok (hl_status l) (hl_status l') = true).
Proof.
  intros E. destruct o; simpl; repeat match goal with
    | |- context [match ?y with _ => _ end] => destruct y eqn:?
    end; simpl; eauto 7.
  - rewrite dget_set. destruct (beq_spec i i0) as [->|]; [|eauto 7].
    match goal with H : dmem _ _ = false |- _ => apply dmem_None in H end. congruence.
  - rewrite dget_set. destruct (beq_spec i i0) as [->|]; [|eauto 7].
    eexists. split; [reflexivity|]. simpl.
    match goal with H : negb _ = false |- _ => apply negb_false_iff in H end.
    replace h0 with l in * by congruence. auto.
  - rewrite dget_set. destruct (beq_spec i i0) as [->|]; [|eauto 7].
    eexists. split; [reflexivity|]. simpl. replace h0 with l in * by congruence. auto.
Qed.

Lemma assign_immut a b : assign_ok a b = true -> immutable a = false /\ immutable b = false.
Proof. unfold assign_ok. rewrite andb_true_iff, !negb_true_iff. tauto. Qed.

Lemma hrun_site ops : forall h i s, dget (h_sites h) i = Some s ->
  exists s', dget (h_sites (hrun ops h)) i = Some s' /\
   (immutable s = true -> s' = s) /\ (immutable s' = true -> s' = s).
Proof.
  unfold hrun. induction ops as [|o r IH]; intros h i s E; simpl; [eauto|].
  destruct (hstep_site o h i s E) as (s1 & E1 & H1).
  destruct (IH _ _ _ E1) as (s2 & E2 & A & B). exists s2. split; [exact E2|].
  destruct H1 as [->|H1]; [auto|]. apply assign_immut in H1. destruct H1 as [Ha Hb].
  split; [congruence|]. intros Hi. rewrite (B Hi) in Hi. congruence.
Qed.
Lemma hrun_sector ops : forall h i x, dget (h_sectors h) i = Some x ->
  exists x', dget (h_sectors (hrun ops h)) i = Some x' /\ hx_site x' = hx_site x /\
   (immutable (hx_status x) = true -> hx_status x' = hx_status x) /\
   (immutable (hx_status x') = true -> hx_status x' = hx_status x).
Proof.
  unfold hrun. induction ops as [|o r IH]; intros h i s E; simpl; [eauto 6|].
  destruct (hstep_sector o h i s E) as (s1 & E1 & Hs & H1).
  destruct (IH _ _ _ E1) as (s2 & E2 & Hs2 & A & B). exists s2. split; [exact E2|]. split; [congruence|].
  destruct H1 as [H1|H1]; [rewrite <- H1; auto|]. apply assign_immut in H1. destruct H1 as [Ha Hb].
  split; [congruence|]. intros Hi. rewrite (B Hi) in Hi. congruence.
Qed.
Lemma hrun_link ops : forall h i l, dget (h_links h) i = Some l ->
  exists l', dget (h_links (hrun ops h)) i = Some l' /\ hl_tx l' = hl_tx l /\ hl_rx l' = hl_rx l /\
   (immutable (hl_status l) = true -> hl_status l' = hl_status l) /\
   (immutable (hl_status l') = true -> hl_status l' = hl_status l).
Proof.
  unfold hrun. induction ops as [|o r IH]; intros h i s E; simpl; [eauto 7|].
  destruct (hstep_link o h i s E) as (s1 & E1 & Ht & Hr & H1).
  destruct (IH _ _ _ E1) as (s2 & E2 & Ht2 & Hr2 & A & B). exists s2. split; [exact E2|].
  split; [congruence|]. split; [congruence|].
  destruct H1 as [H1|H1]; [rewrite <- H1; auto|]. apply assign_immut in H1. destruct H1 as [Ha Hb].
  split; [congruence|]. intros Hi. rewrite (B Hi) in Hi. congruence.
Qed.

(** ** Active links *)
Lemma link_compat_active tx rx st : link_compat tx rx st = true -> active st = true ->
  active tx = true /\ active rx = true.
Proof. destruct tx, rx, st; vm_compute; auto; discriminate. Qed.
Lemma link_compat_existing tx rx : link_compat tx rx EXISTING = true -> tx = EXISTING /\ rx = EXISTING.
Proof. destruct tx, rx; vm_compute; auto; discriminate. Qed.
Lemma sector_compat_active s st : sector_compat s st = true -> active st = true -> active s = true.
Proof. destruct s, st; vm_compute; auto; discriminate. Qed.

(** Which status a site currently has *)
Definition site_is (h : heap) (i : string) (P : status -> bool) : Prop :=
  exists s, dget (h_sites h) i = Some s /\ P s = true.

Definition existing_inv (h : heap) : Prop :=
  forall i l, dget (h_links h) i = Some l -> hl_status l = EXISTING ->
    dget (h_sites h) (hl_tx l) = Some EXISTING /\ dget (h_sites h) (hl_rx l) = Some EXISTING.

Lemma existing_kept o h i : dget (h_sites h) i = Some EXISTING -> dget (h_sites (snd (hstep o h))) i = Some EXISTING.
Proof.
  intros E. destruct (hstep_site o h i _ E) as (s' & E' & [->|H]); [exact E'|].
  apply assign_immut in H. destruct H. discriminate.
Qed.

(** The links after a step: unchanged, created or reassigned with a compatible status. *)
Lemma hstep_links_after o h i l : dget (h_links (snd (hstep o h))) i = Some l ->
  (exists l0, dget (h_links h) i = Some l0 /\ hl_tx l0 = hl_tx l /\ hl_rx l0 = hl_rx l /\ hl_status l0 = hl_status l) \/
  (exists st sr, dget (h_sites (snd (hstep o h))) (hl_tx l) = Some st /\ dget (h_sites (snd (hstep o h))) (hl_rx l) = Some sr /\
     link_compat st sr (hl_status l) = true).
Proof.
  destruct o; simpl; repeat match goal with
    | |- context [match ?y with _ => _ end] => destruct y eqn:?
    end; simpl; eauto 7.
  - rewrite dget_set. destruct (beq_spec i i0) as [->|]; [|eauto 7].
    intros E; inversion E; subst; simpl. right. eauto 6.
  - rewrite dget_set. destruct (beq_spec i i0) as [->|]; [|eauto 7].
    intros E; inversion E; subst; simpl. right. eauto 6.
  - rewrite dget_set. destruct (beq_spec i i0) as [->|]; [|eauto 7].
    intros E; inversion E; subst; simpl. left. eauto 7.
Qed.

Lemma existing_step o h : existing_inv h -> existing_inv (snd (hstep o h)).
Proof.
  intros HI i l El Hs. destruct (hstep_links_after o h i l El) as [(l0 & E0 & Ht & Hr & Hst)|(st & sr & Et & Er & Hc)].
  - rewrite <- Ht, <- Hr. rewrite Hs in Hst. destruct (HI i l0 E0 Hst). split; now apply existing_kept.
  - rewrite Hs in Hc. apply link_compat_existing in Hc. destruct Hc as [-> ->]. auto.
Qed.
Lemma existing_run ops : existing_inv (hrun ops empty_heap).
Proof.
  assert (H : forall h, existing_inv h -> existing_inv (hrun ops h)).
  { unfold hrun. induction ops as [|o r IH]; intros h Hh; simpl; [exact Hh|]. apply IH. now apply existing_step. }
  apply H. intros i l E. discriminate.
Qed.

(** Active sites are never demoted along the history. *)
Fixpoint no_demotion (ops : list hop) (h : heap) : Prop :=
  match ops with
  | [] => True
  | o :: r =>
    (forall i s old, o = SetSite i s -> dget (h_sites h) i = Some old -> active old = true -> active s = true) /\
    no_demotion r (snd (hstep o h))
  end.
Definition active_inv (h : heap) : Prop :=
  (forall i l, dget (h_links h) i = Some l -> active (hl_status l) = true ->
     site_is h (hl_tx l) active /\ site_is h (hl_rx l) active) /\
  (forall i x, dget (h_sectors h) i = Some x -> active (hx_status x) = true -> site_is h (hx_site x) active).

Lemma active_kept o h i :
  (forall i s old, o = SetSite i s -> dget (h_sites h) i = Some old -> active old = true -> active s = true) ->
  site_is h i active -> site_is (snd (hstep o h)) i active.
Proof.
  intros Hd (s & E & Ha). unfold site_is. destruct o; simpl; repeat match goal with
    | |- context [match ?x with _ => _ end] => destruct x eqn:?
    end; simpl; eauto.
  - rewrite dget_set. destruct (beq_spec i i0) as [->|]; [|eauto].
    apply dmem_None in Heqb. congruence.
  - rewrite dget_set. destruct (beq_spec i i0) as [->|]; [|eauto].
    eexists. split; [reflexivity|]. exact (Hd _ _ s eq_refl E Ha).
Qed.
Lemma hstep_sectors_after o h i x : dget (h_sectors (snd (hstep o h))) i = Some x ->
  dget (h_sectors h) i = Some x \/
  (exists ss, dget (h_sites (snd (hstep o h))) (hx_site x) = Some ss /\ sector_compat ss (hx_status x) = true).
Proof.
  destruct o; simpl; repeat match goal with
    | |- context [match ?y with _ => _ end] => destruct y eqn:?
    end; simpl; eauto 7.
  - rewrite dget_set. destruct (beq_spec i i0) as [->|]; [|eauto 7].
    intros E; inversion E; subst; simpl. right. eauto 6.
  - rewrite dget_set. destruct (beq_spec i i0) as [->|]; [|eauto 7].
    intros E; inversion E; subst; simpl. right. eauto 6.
Qed.
Lemma active_step o h :
  (forall i s old, o = SetSite i s -> dget (h_sites h) i = Some old -> active old = true -> active s = true) ->
  active_inv h -> active_inv (snd (hstep o h)).
Proof.
  intros Hd [HI HX]. split.
  - intros i l El Hs. destruct (hstep_links_after o h i l El) as [(l0 & E0 & Ht & Hr & Hst)|(st & sr & Et & Er & Hc)].
    + rewrite <- Ht, <- Hr. rewrite <- Hst in Hs. destruct (HI i l0 E0 Hs). split; now apply active_kept.
    + apply link_compat_active in Hc; [|exact Hs]. destruct Hc. split; eexists; eauto.
  - intros i x Ex Hs. destruct (hstep_sectors_after o h i x Ex) as [E0|(ss & Es & Hc)].
    + apply active_kept; [exact Hd|]. now apply (HX i x).
    + eexists. split; [exact Es|]. eapply sector_compat_active; eauto.
Qed.
Lemma active_run ops : no_demotion ops empty_heap -> active_inv (hrun ops empty_heap).
Proof.
  assert (H : forall h, active_inv h -> no_demotion ops h -> active_inv (hrun ops h)).
  { unfold hrun. induction ops as [|o r IH]; intros h Hh Hn; simpl in *; [exact Hh|].
    destruct Hn as [Hn1 Hn2]. apply IH; [now apply active_step|exact Hn2]. }
  intros Hn. apply H; [|exact Hn]. split; intros i l E; discriminate.
Qed.

(** At the moment a link becomes active its end sites are active. *)
Lemma set_link_checks h i s h' : hstep (SetLink i s) h = (Ok tt, h') -> active s = true ->
  exists l, dget (h_links h) i = Some l /\ site_is h (hl_tx l) active /\ site_is h (hl_rx l) active.
Proof.
  simpl. destruct (dget (h_links h) i) as [l|]; [|discriminate].
  destruct (dget (h_sites h) (hl_tx l)) as [st|] eqn:Et; [|discriminate].
  destruct (dget (h_sites h) (hl_rx l)) as [sr|] eqn:Er; [|discriminate].
  destruct (negb (assign_ok (hl_status l) s)); [discriminate|].
  destruct (link_compat st sr s) eqn:Ec; [|discriminate].
  intros _ Ha. apply link_compat_active in Ec; [|exact Ha]. destruct Ec.
  exists l. split; [reflexivity|]. split; eexists; eauto.
Qed.

Lemma no_link_status_between_unavailable_unreachable st :
  link_compat UNAVAILABLE UNREACHABLE st = false /\ link_compat UNREACHABLE UNAVAILABLE st = false.
Proof. destruct st; auto. Qed.
