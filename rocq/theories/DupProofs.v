(** Lemmas on turning chosen DNs into POPs. *)
From Coq Require Import ZArith.
From Verif Require Import Base Dict TopologyModel TopologySpec StatusModel SetupModel ExtractModel ExtractProofs MonadLib PopModel DupModel DupSpec.
From Verif Require TopologyProofs TopologyLemmas.
Local Open Scope list_scope.

Lemma foldM_prefix {A S} (f : S -> A -> result S) (P : list A -> S -> Prop) l : forall pre s s',
  (forall done x rest s s', pre ++ l = done ++ x :: rest -> P done s -> f s x = Ok s' -> P (done ++ [x]) s') -> P pre s -> foldM f l s = Ok s' -> P (pre ++ l) s'.
Proof.
  induction l as [|x l IH]; intros pre s s' H0 HP E; cbn [foldM] in E.
  - injection E as <-. now rewrite app_nil_r.
  - apply rbind_ok in E. destruct E as (s1 & E1 & E). replace (pre ++ x :: l) with ((pre ++ [x]) ++ l) in * by now rewrite <- app_assoc.
    apply (IH (pre ++ [x]) s1 s'); [exact H0| |exact E]. apply (H0 pre x l s s1); auto. now rewrite <- app_assoc.
Qed.
Lemma after_ok o t : after o = Ok t <-> o = (Ok tt, t).
Proof. destruct o as [[[]|e] t0]; cbn; split; intros H; try discriminate; congruence. Qed.
Lemma reachable_op o t t' : reachable t -> op_ok o -> run_op o t = (Ok tt, t') -> reachable t'.
Proof.
  intros (ops & F & ->) Ho E. exists (ops ++ [o]). split; [apply Forall_app; auto|]. rewrite TopologyLemmas.run_app. change (t' = snd (run_op o (run ops empty_topo))). now rewrite E.
Qed.
Lemma guard_iff (b : bool) e : guard b e = Ok tt <-> b = true.
Proof. destruct b; cbn; split; congruence. Qed.

Lemma dmem_none {V} (d : dict string V) k : dmem d k = false <-> dget d k = None.
Proof. unfold dmem. destruct (dget d k); split; congruence. Qed.

Section Dup.
Variable pop_id : string -> string.
Hypothesis dashless : forall i, no_dash (pop_id i).
Variable t0 : topo.
Hypothesis Hr : reachable t0.
Variable dec : dict string Z.
Let chosen := chosen t0 dec.

Lemma copied_iff i s : dget (t_sites t0) i = Some s -> (copied dec i s = true <-> chosen i s).
Proof using.
  intros E. unfold copied, chosen, DupSpec.chosen. rewrite andb_true_iff, !beq_eq. destruct (dget dec i) as [z|]; split.
  - intros (-> & H). auto. - intros (_ & H & X). injection X as ->. auto.
  - intros (X & _). discriminate. - intros (_ & _ & X). discriminate.
Qed.
Lemma chosen_id d s : chosen d s -> s_id s = d.
Proof using Hr. intros (E & _). now apply (TopologyProofs.i_sites _ (TopologyProofs.inv_reachable _ Hr)) in E. Qed.
Lemma chosen_fun d s s' : chosen d s -> chosen d s' -> s = s'.
Proof using. intros (E & _) (E' & _). congruence. Qed.

(** ** sectors of one DN *)
Definition rest_same (t t' : topo) : Prop :=
  t_links t' = t_links t /\ t_conn t' = t_conn t /\ t_rconn t' = t_rconn t /\ t_demands t' = t_demands t.
Definition sec_inv (p : string) (ta : topo) (Xa : dict string seckey) (done : list sector) (st : topo * dict string seckey) : Prop :=
  reachable (fst st) /\ rest_same ta (fst st) /\ t_sites (fst st) = t_sites ta /\
  (forall k x, dget (t_sectors (fst st)) k = Some x <-> dget (t_sectors ta) k = Some x \/ exists y, In y done /\ x = mkSector (copy_key p (x_key y)) CANDIDATE /\ k = x_id x) /\
  (forall k c, dget (snd st) k = Some c -> dget Xa k = Some c \/ exists y, In y done /\ k = x_id y /\ c = copy_key p (x_key y)) /\
  (forall y, In y done -> exists c, dget (snd st) (x_id y) = Some c) /\ (forall k, dmem Xa k = true -> dmem (snd st) k = true).
Lemma sec_step p ta Xa done x st st' : sec_inv p ta Xa done st -> copy_sector p st x = Ok st' -> sec_inv p ta Xa (done ++ [x]) st'.
Proof using.
  intros (R & (S1 & S2 & S3 & S4) & Si & Sx & Sk & Sd & Sm) E. unfold copy_sector in E. apply rbind_ok in E. destruct E as (t & Et & E). injection E as <-. apply after_ok in Et. cbn [fst snd].
  assert (R' : reachable t) by (apply (reachable_op (AddSector (mkSector (copy_key p (x_key x)) CANDIDATE)) _ _ R); [exact Logic.I|exact Et]).
  unfold add_sector in Et. set (y := mkSector (copy_key p (x_key x)) CANDIDATE) in *. destruct (dmem (t_sectors (fst st)) (x_id y)) eqn:Em; [discriminate|].
  destruct (negb _); [discriminate|]. unfold ok in Et. injection Et as <-. unfold sec_inv, rest_same. cbn [fst snd set_secidx set_sectors t_sectors t_links t_conn t_rconn t_demands t_sites] in *. split; [exact R'|]. split; [repeat split; assumption|]. split; [exact Si|]. split; [|split; [|split]].
  - intros k z. rewrite dget_set. destruct (beq k (x_id y)) eqn:Ek.
    + apply beq_true in Ek. subst k. split.
      * intros X. injection X as <-. right. exists x. split; [apply in_or_app; right; now left|]. auto.
      * intros [X|(y' & Hy & -> & Ez)].
        -- exfalso. assert (Y : dget (t_sectors (fst st)) (x_id y) = Some z) by (apply Sx; auto). apply dmem_none in Em. congruence.
        -- apply in_app_or in Hy. destruct Hy as [Hy|[<-|[]]]; [|reflexivity]. exfalso.
           assert (Y : dget (t_sectors (fst st)) (x_id y) = Some (mkSector (copy_key p (x_key y')) CANDIDATE)) by (apply Sx; right; exists y'; auto). apply dmem_none in Em. congruence.
    + rewrite Sx. split.
      * intros [X|(y' & Hy & X)]; [auto|right; exists y'; split; [apply in_or_app; now left|exact X]].
      * intros [X|(y' & Hy & X)]; [auto|]. right. apply in_app_or in Hy. destruct Hy as [Hy|[<-|[]]]; [eauto|]. exfalso. destruct X as (-> & ->). fold y in Ek. rewrite beq_refl in Ek. discriminate.
  - intros k c. rewrite dget_set. destruct (beq k (x_id x)) eqn:Ek.
    + apply beq_true in Ek. intros X. injection X as <-. right. exists x. split; [apply in_or_app; right; now left|]. auto.
    + intros X. destruct (Sk _ _ X) as [Y|(y' & Hy & Y)]; [auto|]. right. exists y'. split; [apply in_or_app; now left|exact Y].
  - intros z Hz. rewrite dget_set. destruct (beq (x_id z) (x_id x)) eqn:Ez; [eauto|]. apply in_app_or in Hz. destruct Hz as [Hz|[<-|[]]]; [now apply Sd|]. rewrite beq_refl in Ez. discriminate.
  - intros k Hk. rewrite TopologyProofs.dmem_set, (Sm _ Hk). apply orb_true_r.
Qed.
Lemma sec_loop p l t X st : reachable t -> foldM (copy_sector p) l (t, X) = Ok st -> sec_inv p t X l st.
Proof using.
  intros R E. apply (foldM_prefix (copy_sector p) (sec_inv p t X) l [] (t, X) st); [|  |exact E].
  - intros done x rest s s' _ H0 H1. now apply (sec_step _ _ _ _ _ s).
  - split; [exact R|]. split; [repeat split|]. split; [reflexivity|]. cbn. split; [|split; [auto|split; [intros y []|auto]]]. intros k x. split; [auto|]. intros [H|(y & [] & _)]. exact H.
Qed.
Lemma in_sectors_of i x : In x (sectors_of t0 i) <-> dget (t_sectors t0) (x_id x) = Some x /\ x_site x = i.
Proof using Hr.
  pose proof (TopologyProofs.inv_reachable _ Hr) as HI. unfold sectors_of. rewrite filter_In, beq_eq. split; intros (H & E); (split; [|exact E]).
  - apply in_map_iff in H. destruct H as ((k & x') & Ex & H). cbn in Ex. subst x'. apply (In_dget _ _ _ (TopologyProofs.iw_sectors _ HI)) in H.
    pose proof H as H'. apply (TopologyProofs.i_sectors _ HI) in H'. destruct H' as (-> & _). exact H.
  - apply dget_In in H. apply in_map_iff. exists (x_id x, x). auto.
Qed.

(** ** sites and sectors *)
Definition site_inv (done : list string) (st : topo * dict string site * dict string seckey) : Prop :=
  let '(t, new, X) := st in
  reachable t /\ rest_same t0 t /\
  (forall d sd, In d done -> chosen d sd -> dget (t_sites t0) (pop_id d) = None) /\
  (forall d e sd se, In d done -> In e done -> chosen d sd -> chosen e se -> pop_id d = pop_id e -> d = e) /\
  (forall i s, dget (t_sites t) i = Some s <-> dget (t_sites t0) i = Some s \/ exists d sd, In d done /\ chosen d sd /\ i = pop_id d /\ s = pop_for pop_id sd) /\
  (forall k x, dget (t_sectors t) k = Some x <-> dget (t_sectors t0) k = Some x \/
     exists d sd y, In d done /\ chosen d sd /\ dget (t_sectors t0) (x_id y) = Some y /\ x_site y = d /\ x = mkSector (sector_for pop_id d (x_key y)) CANDIDATE /\ k = x_id x) /\
  dwf new /\ (forall d s, dget new d = Some s <-> In d done /\ exists sd, chosen d sd /\ s = pop_for pop_id sd) /\
  (forall k c, dget X k = Some c -> exists d sd y, In d done /\ chosen d sd /\ dget (t_sectors t0) (x_id y) = Some y /\ x_site y = d /\ k = x_id y /\ c = sector_for pop_id d (x_key y)) /\
  (forall d sd y, In d done -> chosen d sd -> dget (t_sectors t0) (x_id y) = Some y -> x_site y = d -> dmem X (x_id y) = true).

Lemma site_step done i st st' : dmem (t_sites t0) i = true -> ~ In i done -> site_inv done st -> copy_site pop_id t0 dec st i = Ok st' -> site_inv (done ++ [i]) st'.
Proof using Hr dashless.
  destruct st as ((t, new), X). intros Hi Nd (R & (L1 & L2 & L3 & L4) & Fr & Ap & Si & Se & Wn & Ne & Xs & Xd) E. cbn [copy_site] in E. apply rbind_ok in E. destruct E as (s & Es & E).
  apply dmem_Some in Hi. destruct Hi as (s0 & E0).
  assert (Et : dget (t_sites t) i = Some s0) by (apply Si; auto). unfold lookup_site in Es. rewrite Et in Es. injection Es as <-.
  destruct (copied dec i s0) eqn:Ec.
  2:{ injection E as <-. assert (Nc : forall s, ~ chosen i s). { intros s C. pose proof C as (Es & _). rewrite E0 in Es. injection Es as <-. apply (copied_iff _ _ E0) in C. congruence. }
      assert (Same : forall (A : string -> site -> Prop) , (exists d sd, In d done /\ chosen d sd /\ A d sd) <-> exists d sd, In d (done ++ [i]) /\ chosen d sd /\ A d sd).
      { intros A. split; intros (d & sd & H & C & HA); exists d, sd; (split; [|auto]); [apply in_or_app; now left|]. apply in_app_or in H. destruct H as [H|[<-|[]]]; [exact H|destruct (Nc _ C)]. }
      assert (Back : forall d sd, In d (done ++ [i]) -> chosen d sd -> In d done) by (intros d sd H C; apply in_app_or in H; destruct H as [H|[<-|[]]]; [exact H|destruct (Nc _ C)]).
      split; [exact R|]. split; [repeat split; assumption|]. split; [eauto|]. split; [intros d e sd se Hd He Cd Ce; apply (Ap d e sd se); eauto|].
      split; [intros j s; rewrite Si; now rewrite <- (Same (fun d sd => j = pop_id d /\ s = pop_for pop_id sd))|].
      split; [intros k x; rewrite Se; split; (intros [H|(d & sd & y & Hd & H)]; [auto|right; exists d, sd, y; split; [|exact H]]); [apply in_or_app; now left|apply (Back d sd Hd), H]|].
      split; [exact Wn|]. split; [intros d s; rewrite Ne; split; (intros (Hd & sd & C & H); split; [|eauto]); [apply in_or_app; now left|now apply (Back d sd)]|].
      split; [intros k c H; destruct (Xs _ _ H) as (d & sd & y & Hd & H'); exists d, sd, y; split; [apply in_or_app; now left|exact H']|].
      intros d sd y Hd C. now apply (Xd d sd), C; apply (Back d sd). }
  pose proof (proj1 (copied_iff _ _ E0) Ec) as C0. pose proof (chosen_id _ _ C0) as Id. rewrite Id in E.
  apply rbind_ok in E. destruct E as (t1 & E1 & E). apply after_ok in E1. apply rbind_ok in E. destruct E as ((t2 & X2) & E2 & E). injection E as <-. cbn [fst snd].
  assert (R1 : reachable t1) by (apply (reachable_op (AddSite (new_pop pop_id s0)) _ _ R); [apply dashless|exact E1]).
  unfold add_site in E1. cbn [new_pop s_detected s_id] in E1. rewrite Id in E1. destruct (dmem (t_sites t) (pop_id i)) eqn:Em; [discriminate|]. unfold ok in E1. injection E1 as <-.
  apply sec_loop in E2; [|exact R1]. destruct E2 as (R2 & (S1 & S2 & S3 & S4) & Si2 & Sx2 & Sk2 & Sd2 & Sm2). cbn [fst snd set_sites t_sites t_sectors t_links t_conn t_rconn t_demands] in *.
  assert (Fi : dget (t_sites t) (pop_id i) = None) by (now apply dmem_none).
  assert (Np : new_pop pop_id s0 = pop_for pop_id s0) by reflexivity.
  assert (Wk : forall d sd, chosen d sd -> In d done -> In d (done ++ [i])) by (intros; apply in_or_app; now left).
  assert (Last : In i (done ++ [i])) by (apply in_or_app; right; now left).
  split; [exact R2|]. split; [repeat split; congruence|]. split; [|split; [|split; [|split; [|split; [|split; [|split]]]]]].
  - intros d sd Hd C. apply in_app_or in Hd. destruct Hd as [Hd|[<-|[]]]; [eauto|]. destruct (dget (t_sites t0) (pop_id i)) as [s|] eqn:Ex; [|reflexivity]. assert (Y : dget (t_sites t) (pop_id i) = Some s) by (apply Si; auto). congruence.
  - assert (One : forall d sd, In d done -> chosen d sd -> pop_id d <> pop_id i). { intros d sd Hd C Eq. assert (Y : dget (t_sites t) (pop_id i) = Some (pop_for pop_id sd)) by (apply Si; right; exists d, sd; auto). congruence. }
    intros d e sd se Hd He Cd Ce Eq. apply in_app_or in Hd, He. destruct Hd as [Hd|[<-|[]]], He as [He|[<-|[]]]; [now apply (Ap d e sd se)|destruct (One _ _ Hd Cd Eq)|symmetry in Eq; destruct (One _ _ He Ce Eq)|reflexivity].
  - intros j s. rewrite Si2, dget_set. destruct (beq j (pop_id i)) eqn:Ej.
    + apply beq_true in Ej. subst j. split.
      * intros H. injection H as <-. right. exists i, s0. auto.
      * intros [H|(d & sd & Hd & C & Eq & ->)]; [exfalso; assert (Y : dget (t_sites t) (pop_id i) = Some s) by (apply Si; auto); congruence|].
        apply in_app_or in Hd. destruct Hd as [Hd|[<-|[]]]; [exfalso; assert (Y : dget (t_sites t) (pop_id i) = Some (pop_for pop_id sd)) by (apply Si; right; exists d, sd; auto); congruence|]. rewrite (chosen_fun _ _ _ C C0). now rewrite Np.
    + rewrite Si. split; (intros [H|(d & sd & Hd & C & Eq & ->)]; [auto|]); right; exists d, sd.
      * split; [now apply (Wk d sd)|auto].
      * apply in_app_or in Hd. destruct Hd as [Hd|[<-|[]]]; [auto|]. subst j. rewrite beq_refl in Ej. discriminate.
  - intros k x. rewrite Sx2, Se. split.
    + intros [[H|(d & sd & y & Hd & C & H)]|(y & Hy & -> & ->)]; [auto|right; exists d, sd, y; split; [now apply (Wk d sd)|auto]|].
      right. apply in_sectors_of in Hy. destruct Hy as (Ey & Sy). exists i, s0, y. auto 8.
    + intros [H|(d & sd & y & Hd & C & Ey & Sy & H)]; [auto|]. apply in_app_or in Hd. destruct Hd as [Hd|[<-|[]]]; [left; right; exists d, sd, y; auto|]. right. exists y. split; [now apply in_sectors_of|exact H].
  - now apply dwf_set.
  - intros d s. rewrite dget_set. destruct (beq d i) eqn:Ed.
    + apply beq_true in Ed. subst d. split; [intros H; injection H as <-; split; [exact Last|]; exists s0; auto|]. intros (_ & sd & C & ->). now rewrite (chosen_fun _ _ _ C C0).
    + rewrite Ne. split; intros (Hd & H); (split; [|exact H]); [apply in_or_app; now left|]. apply in_app_or in Hd. destruct Hd as [Hd|[<-|[]]]; [exact Hd|]. rewrite beq_refl in Ed. discriminate.
  - intros k c H. destruct (Sk2 _ _ H) as [H'|(y & Hy & -> & ->)].
    + destruct (Xs _ _ H') as (d & sd & y & Hd & C & H2). exists d, sd, y. split; [now apply (Wk d sd)|auto].
    + apply in_sectors_of in Hy. destruct Hy as (Ey & Sy). exists i, s0, y. auto 8.
  - intros d sd y Hd C Ey Sy. apply in_app_or in Hd. destruct Hd as [Hd|[<-|[]]].
    + apply Sm2. now apply (Xd d sd).
    + apply dmem_Some. apply Sd2. now apply in_sectors_of.
Qed.
Lemma copy_sites_ok st : copy_sites pop_id t0 dec = Ok st -> site_inv (dkeys (t_sites t0)) st.
Proof using Hr dashless.
  intros E. unfold copy_sites in E. pose proof (TopologyProofs.inv_reachable _ Hr) as HI. apply (foldM_prefix _ site_inv _ [] _ _) with (3 := E).
  - intros done x rest s s' El H0 H1. cbn [app] in El. apply (site_step done x s s'); [| |exact H0|exact H1].
    + apply dmem_keys. rewrite El. apply in_or_app. right. now left.
    + intros H. pose proof (TopologyProofs.iw_sites _ HI) as W. unfold dwf in W. rewrite El in W. apply NoDup_remove_2 in W. apply W, in_or_app. now left.
  - split; [exact Hr|]. split; [repeat split|]. split; [intros ? ? []|]. split; [intros ? ? ? ? []|]. split; [intros i s; split; [auto|intros [H|(d & sd & [] & _)]; exact H]|].
    split; [intros k x; split; [auto|intros [H|(d & sd & y & [] & _)]; exact H]|]. split; [constructor|]. split; [intros d s; split; [discriminate|intros ([] & _)]|]. split; [discriminate|intros ? ? ? []].
Qed.
End Dup.
