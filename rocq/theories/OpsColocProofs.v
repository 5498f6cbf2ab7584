(** Proofs for C62. *)
From Verif Require Import Base Dict MonadLib TopologyModel TopologySpec TopologyProofs TopologyQueryProofs GraphModel GraphSpec GraphProofs OpsModel OpsSpec OpsProofs.
Local Open Scope list_scope.

Lemma max_types tys : forall m, let r := fold_left max_type tys m in
  (r = POP <-> m = POP \/ In POP tys) /\ (r = DN <-> ~ (m = POP \/ In POP tys) /\ (m = DN \/ In DN tys)).
Proof.
  induction tys as [|a tys IH]; intros m; cbv zeta; cbn [fold_left In]; [destruct m; intuition congruence|].
  destruct (IH (max_type m a)) as [A B]. rewrite A, B. destruct m, a; unfold max_type; cbn; intuition (try discriminate; auto).
Qed.
Section Coloc.
Variable t : topo.
Hypothesis W : well_formed t.
Let Ws : dwf (t_sites t). Proof. apply W. Qed.
Notation act := (get_site_ids t (Some [PROPOSED; EXISTING]) None).
Lemma act_In i : In i act <-> exists s, dget (t_sites t) i = Some s /\ active_status (s_status s).
Proof.
  rewrite (proj2 (get_site_ids_wf t (Some [PROPOSED; EXISTING]) None W)). unfold active_status. cbn. split; intros (s & E & H); exists s; intuition.
Qed.
Lemma mem_act i s : dget (t_sites t) i = Some s -> (mem i act = true <-> active_status (s_status s)).
Proof. intros E. rewrite mem_In, act_In. split; [intros (s' & E' & H); congruence|eauto]. Qed.
Lemma at_loc_In c i : In i (at_loc c (t_sites t)) <-> exists s, dget (t_sites t) i = Some s /\ s_loc s = c.
Proof.
  unfold at_loc. rewrite in_map_iff. split.
  - intros ([j s] & <- & Hq). apply filter_In in Hq. cbn in *. destruct Hq as [Hq Hb]. exists s. split; [now apply In_dget|]. now apply beq_true in Hb.
  - intros (s & Es & <-). exists (i, s). split; [reflexivity|]. apply filter_In. split; [now apply dget_In|]. apply beq_refl.
Qed.
Lemma group_exact c : exists r, group_removals t act (at_loc c (t_sites t)) = Ok r /\
  forall i, In i r <-> exists s, dget (t_sites t) i = Some s /\ s_loc s = c /\ excluded t s.
Proof.
  unfold group_removals. set (ids := at_loc c (t_sites t)). set (here := filter (fun i => mem i act) ids). cbv zeta.
  assert (Hh : forall i, In i here <-> exists s, dget (t_sites t) i = Some s /\ s_loc s = c /\ active_status (s_status s)).
  { intros i. unfold here. rewrite filter_In. unfold ids. rewrite at_loc_In. split.
    - intros [(s & E & L) M]. exists s. apply (mem_act i s E) in M. auto.
    - intros (s & E & L & A). split; [eauto|]. now apply (mem_act i s E). }
  assert (TY : forall i s, dget (t_sites t) i = Some s -> type_of t i = Ok (s_type s)) by (intros i s E; unfold type_of; now rewrite E).
  assert (HA : forall ty, active_here t c ty <-> exists i s, In i here /\ dget (t_sites t) i = Some s /\ s_type s = ty).
  { intros ty. split; [intros (i & s & E & L & T & A); exists i, s; split; [apply Hh; eauto|auto]|]. intros (i & s & Hi & E & T). apply Hh in Hi. destruct Hi as (s' & E' & L & A). rewrite E in E'. injection E' as <-. exists i, s. auto. }
  destruct here as [|h0 hs] eqn:Eh.
  - exists []. split; [reflexivity|]. intros i. split; [intros []|]. intros (s & E & L & X). subst c. unfold excluded in X. rewrite !HA in X. cbn in X.
    destruct X as [((? & ? & [] & _) & _)|[(_ & (? & ? & [] & _) & _)|(_ & _ & (? & ? & [] & _) & _)]].
  - rewrite <- Eh in *. destruct (mapM_total (type_of t) here) as [tys Et]. { intros i Hi. apply Hh in Hi. destruct Hi as (s & E & _). eauto. }
    rewrite Et. cbn [rbind]. set (m := fold_left max_type tys CN).
    assert (Hty : forall ty, In ty tys <-> active_here t c ty).
    { intros ty. rewrite HA. split.
      - intros Hin. destruct (mapM_inv _ _ _ _ Et Hin) as (i & Hi & Ei). exists i. unfold type_of in Ei. destruct (dget (t_sites t) i) as [s|] eqn:Es; [|discriminate]. injection Ei as <-. exists s. auto.
      - intros (i & s & Hi & E & <-). destruct (mapM_In _ _ _ _ Et Hi) as (ty & Ety & Hin). rewrite (TY _ _ E) in Ety. injection Ety as <-. exact Hin. }
    destruct (max_types tys CN) as [Mp Md]. fold m in Mp, Md. rewrite (Hty POP) in Mp. rewrite (Hty POP), (Hty DN) in Md.
    assert (Some_here : active_here t c POP \/ active_here t c DN \/ active_here t c CN).
    { assert (Hi : In h0 here) by (rewrite Eh; now left). pose proof Hi as Hi'. apply Hh in Hi'. destruct Hi' as (s & E & L & A). destruct (s_type s) eqn:T; [right; right|right; left|left]; apply HA; exists h0, s; auto. }
    assert (Fm : (m = POP /\ active_here t c POP) \/ (m = DN /\ ~ active_here t c POP /\ active_here t c DN) \/ (m = CN /\ ~ active_here t c POP /\ ~ active_here t c DN /\ active_here t c CN)).
    { assert (NP : m <> POP -> ~ active_here t c POP) by (intros N H; apply N, Mp; now right).
      assert (ND : m <> POP -> m <> DN -> ~ active_here t c DN). { intros N N' H. apply N', Md. split; [|now right]. intros [F|F]; [discriminate|]. now apply (NP N). }
      destruct m.
      - right; right. assert (A : ~ active_here t c POP) by (apply NP; discriminate). assert (B : ~ active_here t c DN) by (apply ND; discriminate). tauto.
      - right; left. destruct (proj1 Md eq_refl) as [A [B|B]]; [discriminate|]. split; [reflexivity|]. split; [|exact B]. intros H. apply A. now right.
      - left. destruct (proj1 Mp eq_refl) as [A|A]; [discriminate|auto]. }
    assert (F : forall (f : string -> result bool) l, (forall x, In x l -> exists b, f x = Ok b) -> exists r, filterM f l = Ok r).
    { intros f l. induction l as [|x l IHl]; intros H; cbn; [eauto|]. destruct (H x (or_introl eq_refl)) as [b ->]. cbn. destruct IHl as [r ->]; [intros; apply H; now right|]. cbn. eauto. }
    match goal with |- exists r, filterM ?f ids = _ /\ _ => set (g := f); destruct (F g ids) as [r Er] end.
    { intros i Hi. unfold ids in Hi. apply at_loc_In in Hi. destruct Hi as (s & E & _). unfold g. rewrite (TY _ _ E). cbn. eauto. }
    exists r. split; [exact Er|]. destruct (filterM_ok _ _ _ Er) as (_ & Hr & _). intros i. rewrite Hr. unfold ids. rewrite at_loc_In.
    assert (K : forall s, dget (t_sites t) i = Some s -> s_loc s = c -> (g i = Ok true <-> excluded t s)).
    { intros s E L. unfold g. rewrite (TY _ _ E). cbn [rbind]. pose proof (mem_act i s E) as MA.
      assert (X : Ok (negb (mem (s_type s) (valid_types m)) || beq (s_type s) m && negb (mem i act)) = Ok true <-> negb (mem (s_type s) (valid_types m)) || beq (s_type s) m && negb (mem i act) = true) by (split; [intros Y; now injection Y|intros ->; reflexivity]).
      rewrite X. unfold excluded. rewrite L. clear X. revert MA. generalize (active_status (s_status s)). intros A MA. revert Fm. generalize (active_here t c POP) (active_here t c DN) (active_here t c CN). intros PH DH CH Fm.
      assert (N1 : CN <> POP) by discriminate. assert (N2 : CN <> DN) by discriminate. assert (N3 : DN <> POP) by discriminate. assert (N4 : DN <> CN) by discriminate. assert (N5 : POP <> CN) by discriminate. assert (N6 : POP <> DN) by discriminate. assert (N7 : false <> true) by discriminate.
      assert (R1 : CN = CN) by reflexivity. assert (R2 : DN = DN) by reflexivity. assert (R3 : POP = POP) by reflexivity. assert (R4 : true = true) by reflexivity.
      clear - Fm MA N1 N2 N3 N4 N5 N6 N7 R1 R2 R3 R4.
      destruct Fm as [(-> & Fm)|[(-> & Fm)|(-> & Fm)]], (mem i act), (s_type s);
        match goal with |- ?b = true <-> _ => let v := eval vm_compute in b in change b with v end; tauto. }
    split.
    + intros [(s & E & L) Hg]. exists s. split; [exact E|]. split; [exact L|]. now apply (K s E L).
    + intros (s & E & L & X). split; [eauto|]. now apply (K s E L).
Qed.
Lemma groups_In g : In g (dvals (get_colocated_sites t)) <-> exists c, g = at_loc c (t_sites t) /\ g <> [].
Proof.
  assert (Wc : dwf (get_colocated_sites t)).
  { unfold get_colocated_sites. assert (G : forall (l : dict string site) d, dwf d -> dwf (fold_left (fun acc p => dappend acc (s_loc (snd p)) (fst p)) l d)); [|apply G; constructor].
    induction l as [|q l IH]; intros d Hd; cbn; [exact Hd|]. apply IH. unfold dappend. now apply dwf_set. }
  rewrite (In_dvals _ _ Wc). unfold get_colocated_sites. split.
  - intros (c & E). rewrite (colocated_fold (t_sites t) [] c) in E. cbn in E. exists c. destruct (at_loc c (t_sites t)); [discriminate|]. injection E as <-. split; [reflexivity|discriminate].
  - intros (c & -> & N). exists c. rewrite (colocated_fold (t_sites t) [] c). cbn. destruct (at_loc c (t_sites t)); [congruence|reflexivity].
Qed.
Lemma removals_exact : exists r, colocated_sites_to_remove t = Ok r /\ NoDup r /\ forall i, In i r <-> exists s, dget (t_sites t) i = Some s /\ excluded t s.
Proof.
  unfold colocated_sites_to_remove. destruct (mapM_total (group_removals t act) (dvals (get_colocated_sites t))) as [ls El].
  { intros g Hg. apply groups_In in Hg. destruct Hg as (c & -> & _). destruct (group_exact c) as (r & E & _). eauto. }
  rewrite El. cbn [rbind]. eexists. split; [reflexivity|]. split; [apply fold_sadd_NoDup; constructor|].
  intros i. rewrite fold_sadd_In. rewrite in_concat. split.
  - intros [(l & Hl & Hi)|[]]. destruct (mapM_inv _ _ _ _ El Hl) as (g & Hg & Eg). apply groups_In in Hg. destruct Hg as (c & -> & _). destruct (group_exact c) as (r & Er & H). rewrite Eg in Er. injection Er as <-. apply H in Hi. destruct Hi as (s & E & _ & X). eauto.
  - intros (s & E & X). left. destruct (group_exact (s_loc s)) as (r & Er & H).
    assert (Hg : In (at_loc (s_loc s) (t_sites t)) (dvals (get_colocated_sites t))). { apply groups_In. exists (s_loc s). split; [reflexivity|]. intros N. assert (Hi : In i (at_loc (s_loc s) (t_sites t))) by (apply at_loc_In; eauto). rewrite N in Hi. exact Hi. }
    destruct (mapM_In _ _ _ _ El Hg) as (l & Eg & Hl). rewrite Er in Eg. injection Eg as <-. exists r. split; [exact Hl|]. apply H. eauto.
Qed.
End Coloc.
