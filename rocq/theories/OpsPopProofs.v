(** Proofs for C61. *)
From Coq Require Import QArith Qminmax Lqa.
From Verif Require Import Base Dict QLib SumLib TopologyModel TopologySpec TopologyProofs GraphModel GraphSpec GraphProofs ApplySpec ApplyProofs OpsModel OpsSpec OpsProofs SetupProofs.
Local Open Scope Q_scope.
Local Open Scope list_scope.
Notation total := SumLib.total.

Lemma sum_q_total l : sum_q l == total (fun q => q) l.
Proof.
  unfold sum_q. assert (G : forall l a, fold_left Qplus l a == a + total (fun q => q) l); [|rewrite G; lra].
  induction l0 as [|x l0 IH]; intros a; cbn [fold_left]; rewrite ?tot_cons, ?tot_nil; [lra|]. rewrite IH. lra.
Qed.
Lemma fold_max r : forall x, x <= fold_left Qmax r x /\ (forall y, In y r -> y <= fold_left Qmax r x) /\ (fold_left Qmax r x == x \/ exists y, In y r /\ fold_left Qmax r x == y).
Proof.
  induction r as [|z r IH]; intros x; cbn [fold_left]; [split; [lra|]; split; [intros y []|left; reflexivity]|].
  destruct (IH (Qmax x z)) as (A & B & C). pose proof (Q.le_max_l x z). pose proof (Q.le_max_r x z). split; [lra|]. split.
  - intros y [<-|Hy]; [lra|auto].
  - destruct C as [C|(y & Hy & C)]; [|right; exists y; split; [now right|exact C]]. destruct (Q.max_spec x z) as [[_ E]|[_ E]]; [right; exists z; split; [now left|]|left]; now rewrite C.
Qed.
Lemma max_q_ub l y : In y l -> y <= max_q l.
Proof. destruct l as [|x r]; [contradiction|]. cbn [max_q]. destruct (fold_max r x) as (A & B & _). intros [<-|H]; auto. Qed.
Lemma max_q_in l : l <> [] -> exists y, In y l /\ max_q l == y.
Proof. destruct l as [|x r]; [congruence|]. intros _. cbn [max_q]. destruct (fold_max r x) as (_ & _ & [C|(y & Hy & C)]); [exists x|exists y]; split; cbn; auto. Qed.

Section Pop.
Variables (cap : string -> Q) (sf : list status) (t : topo).
Hypothesis W : well_formed t.
Let Wl : dwf (t_links t). Proof. apply W. Qed.
Definition is_pop (p : string) : Prop := exists s, dget (t_sites t) p = Some s /\ s_type s = POP.
Definition wired_at (p : string) (q : string * link) : bool := carries t sf p (snd q) && negb (l_wireless (snd q)).
Definition sec_of (l : link) : string := match l_sectors l with Some (a, _) => key_id a | None => EmptyString end.
Definition air_at (p : string) (q : string * link) : bool := carries t sf p (snd q) && l_wireless (snd q).
Definition air_pairs (p : string) (ls : dict string link) : list (string * Q) := map (fun q => (sec_of (snd q), cap (fst q))) (filter (air_at p) ls).
Definition dapp (d : dict string (list Q)) (p : string * Q) := dappend d (fst p) (snd p).
Lemma eth l : beq (l_type l) ETHERNET = negb (l_wireless l).
Proof. unfold l_type. destruct (l_wireless l), (l_rx_cn l); reflexivity. Qed.
Lemma row_dset {V} (d : dict string (list V)) k v p : row (dset d k v) p = if beq p k then v else row d p.
Proof. unfold row. rewrite dget_set. now destruct (beq p k). Qed.
Lemma pop_links_spec ls : incl ls (t_links t) -> forall st, exists st', pop_links cap sf t ls st = Ok st' /\
  (forall p, is_pop p -> row (fst st') p = fold_left dapp (air_pairs p ls) (row (fst st) p)) /\
  (forall p, is_pop p -> row (snd st') p = row (snd st) p ++ map (fun q => cap (fst q)) (filter (wired_at p) ls)).
Proof.
  induction ls as [|[k l] ls IH]; intros Hi st; cbn [pop_links].
  { exists st. split; [reflexivity|]. split; intros p _; [reflexivity|cbn; now rewrite app_nil_r]. }
  assert (Hi' : incl ls (t_links t)) by (intros x Hx; apply Hi; now right). specialize (IH Hi').
  assert (El : dget (t_links t) k = Some l) by (apply In_dget; [exact Wl|apply Hi; now left]).
  destruct (wf_link _ _ _ W El) as (a & b & Ea & Eb).
  unfold air_pairs. cbn [filter]. unfold air_at at 1, wired_at at 1. cbn [snd fst]. unfold carries. rewrite Ea, Eb.
  assert (Skip : forall c : string -> bool, (forall p, is_pop p -> c p = false) -> exists st', pop_links cap sf t ls st = Ok st' /\
    (forall p, is_pop p -> row (fst st') p = fold_left dapp (map (fun q => (sec_of (snd q), cap (fst q))) (if c p && l_wireless l then (k, l) :: filter (air_at p) ls else filter (air_at p) ls)) (row (fst st) p)) /\
    (forall p, is_pop p -> row (snd st') p = row (snd st) p ++ map (fun q => cap (fst q)) (if c p && negb (l_wireless l) then (k, l) :: filter (wired_at p) ls else filter (wired_at p) ls))).
  { intros c Hc. destruct (IH st) as (st' & E & A & B). exists st'. split; [exact E|]. split; intros p Hp; rewrite (Hc p Hp); cbn [andb]; [apply A|apply B]; exact Hp. }
  destruct (mem (l_status l) sf) eqn:M1; cbn [negb]; [|apply Skip; intros; now rewrite andb_false_r].
  destruct (beq_spec (s_type a) POP) as [Tp|Tp]; cbn [negb].
  2:{ apply Skip. intros p (s & Es & Ts). destruct (beq_spec (l_tx l) p) as [<-|]; [|reflexivity]. congruence. }
  destruct (mem (s_status a) sf) eqn:M2; cbn [negb orb]; [|apply Skip; intros; now rewrite andb_false_r].
  destruct (mem (s_status b) sf) eqn:M3; cbn [negb orb]; [|apply Skip; intros; now rewrite andb_false_r].
  rewrite eth. destruct (l_wireless l) eqn:Wl'; cbn [negb orb andb].
  - destruct (l_sectors l) as [[x y]|] eqn:Es; [|apply (Skip (fun p => beq (l_tx l) p && true && true && false)); intros; now rewrite andb_false_r].
    destruct (IH (dset (fst st) (l_tx l) (dappend (row (fst st) (l_tx l)) (key_id x) (cap k)), snd st)) as (st' & E & A & B).
    exists st'. split; [exact E|]. split; intros p Hp.
    + rewrite (A p Hp). cbn [fst]. rewrite row_dset, (beq_sym p). rewrite !andb_true_r. destruct (beq_spec (l_tx l) p) as [<-|N]; cbn [map fold_left]; [|reflexivity].
      unfold air_pairs, dapp at 2. cbn [fst snd]. unfold sec_of at 3. rewrite Es. reflexivity.
    + rewrite (B p Hp). cbn [snd]. now rewrite !andb_false_r.
  - destruct (IH (fst st, dappend (snd st) (l_tx l) (cap k))) as (st' & E & A & B).
    exists st'. split; [exact E|]. split; intros p Hp.
    + rewrite (A p Hp). cbn [fst]. now rewrite !andb_false_r.
    + rewrite (B p Hp). cbn [snd]. unfold dappend. rewrite row_dset, (beq_sym p). rewrite !andb_true_r. destruct (beq_spec (l_tx l) p) as [<-|N]; cbn [map]; [|reflexivity].
      unfold row. now rewrite <- app_assoc.
Qed.

Variable p : string.
Hypothesis Hp : is_pop p.
Notation L := (t_links t).
Notation D := (fold_left dapp (air_pairs p L) []).
Notation group x := (filter (fun q : string * link => beq (sec_of (snd q)) x) (filter (air_at p) L)).
Lemma D_wf : dwf D.
Proof.
  assert (G : forall l d, dwf d -> dwf (fold_left dapp l d)). { induction l as [|a l IH]; intros d Hd; cbn; [exact Hd|]. apply IH. unfold dapp, dappend. now apply dwf_set. }
  apply G. constructor.
Qed.
Lemma filter_map_comm {A B} (f : A -> B) p0 l : filter p0 (map f l) = map f (filter (fun x => p0 (f x)) l).
Proof. induction l as [|a l IH]; cbn; [reflexivity|]. destruct (p0 (f a)); cbn; now rewrite IH. Qed.
Lemma D_get x c : dget D x = Some c -> c = map (fun q => cap (fst q)) (group x).
Proof.
  intros E. pose proof (fold_dappend (air_pairs p L) [] x) as R. change (fun d q => dappend d (fst q) (snd q)) with dapp in R. unfold under in R. rewrite E in R. cbn [dget app] in R. rewrite R.
  unfold air_pairs. rewrite filter_map_comm, map_map. reflexivity.
Qed.
Lemma D_dom x : In x (dkeys D) <-> exists q, In q (filter (air_at p) L) /\ sec_of (snd q) = x.
Proof.
  rewrite <- dmem_keys. pose proof (fold_dappend_dom (air_pairs p L) [] x) as R. change (fun d q => dappend d (fst q) (snd q)) with dapp in R. rewrite R. cbn [dmem dget orb]. rewrite mem_In. unfold air_pairs. rewrite map_map. cbn [fst]. rewrite in_map_iff.
  split; intros (q & A & B); exists q; auto.
Qed.
Lemma D_max : sum_q (map max_q (dvals D)) == total (fun x => max_q (map (fun q => cap (fst q)) (group x))) (dkeys D).
Proof.
  rewrite sum_q_total, tot_map. unfold dvals, dkeys. rewrite !tot_map. apply tot_ext. intros [x c] Hin. cbn [fst snd]. apply In_dget in Hin; [|exact D_wf]. now rewrite (D_get _ _ Hin).
Qed.
Lemma outgoing st : pop_links cap sf t L ([], []) = Ok st ->
  pop_outgoing st p == total (fun x => max_q (map (fun q => cap (fst q)) (group x))) (dkeys D) + total (fun q => cap (fst q)) (filter (wired_at p) L).
Proof.
  intros E. destruct (pop_links_spec L (incl_refl _) ([], [])) as (st' & E' & A & B). rewrite E in E'. injection E' as <-. specialize (A p Hp). specialize (B p Hp). unfold row in A, B. cbn [fst snd dget app] in A, B.
  unfold pop_outgoing. rewrite <- D_max.
  assert (X : match dget (fst st) p with Some d => sum_q (map max_q (dvals d)) | None => 0 end = sum_q (map max_q (dvals D))). { destruct (dget (fst st) p) as [d|]; [now rewrite A|]. rewrite <- A. reflexivity. }
  assert (Y : match dget (snd st) p with Some c => sum_q c | None => 0 end == total (fun q => cap (fst q)) (filter (wired_at p) L)).
  { destruct (dget (snd st) p) as [c|]; [rewrite B, sum_q_total, tot_map; reflexivity|]. rewrite <- (tot_map (fun q : string * link => cap (fst q)) (fun q => q)), <- B. reflexivity. }
  now rewrite X, Y.
Qed.
Lemma carries_split (f : string * link -> Q) : total f (filter (fun q => carries t sf p (snd q)) L) == total f (filter (air_at p) L) + total f (filter (wired_at p) L).
Proof. rewrite !tot_filter, <- tot_plus. apply tot_ext. intros q _. unfold air_at, wired_at. destruct (carries t sf p (snd q)), (l_wireless (snd q)); cbn; lra. Qed.
Lemma groups (f : string * link -> Q) : total f (filter (air_at p) L) == total (fun x => total f (group x)) (dkeys D).
Proof. apply (tot_group (fun q => sec_of (snd q))); [apply D_wf|]. intros q Hq. apply D_dom. eauto. Qed.
Lemma air_sectors q : air_at p q = true -> exists a b, l_sectors (snd q) = Some (a, b).
Proof. unfold air_at, carries. intros H. apply andb_true_iff in H. destruct H as [H Hw]. rewrite Hw in H. apply andb_true_iff in H. destruct H as [_ H]. cbn in H. destruct (l_sectors (snd q)) as [[a b]|]; [eauto|discriminate]. Qed.
Lemma group_through x : group x = filter (fun q => carries t sf p (snd q) && sends_through x (snd q)) L.
Proof.
  clear Wl. induction L as [|q l IH]; cbn [filter]; [reflexivity|]. unfold sends_through at 1. destruct (air_at p q) eqn:Ea.
  - destruct (air_sectors q Ea) as (a & b & Es). unfold air_at in Ea. apply andb_true_iff in Ea. destruct Ea as [Ec Ew]. cbn [filter]. unfold sec_of at 1. rewrite Es, Ec, Ew. cbn [andb]. destruct (beq (key_id a) x); now rewrite IH.
  - rewrite IH. unfold air_at in Ea. apply andb_false_iff in Ea. destruct Ea as [->| ->]; cbn [andb]; rewrite ?andb_false_r; reflexivity.
Qed.
Hypothesis capnn : forall k, 0 <= cap k.
Lemma pop_bound share st : pop_links cap sf t L ([], []) = Ok st -> schedule t sf share -> pop_traffic t sf cap share p <= pop_outgoing st p.
Proof.
  intros E (S0 & S1 & S2). rewrite (outgoing st E). unfold pop_traffic. rewrite carries_split, groups. apply Qplus_le_compat.
  - apply tot_le. intros x Hx. set (m := max_q _).
    assert (Hm : 0 <= m). { apply D_dom in Hx. destruct Hx as (q & Hq & Ex). apply Qle_trans with (cap (fst q)); [apply capnn|]. apply max_q_ub. apply in_map_iff. exists q. split; [reflexivity|]. apply filter_In. split; [exact Hq|]. rewrite Ex. apply beq_refl. }
    apply Qle_trans with (total (fun q => m * share (fst q)) (group x)).
    + apply tot_le. intros q Hq. rewrite Qmult_comm. apply Qmult_le_compat_r; [|apply S0]. apply max_q_ub. apply in_map_iff. eauto.
    + rewrite tot_scale. specialize (S2 p x). rewrite <- group_through in S2. setoid_replace m with (m * 1) at 2 by lra. rewrite !(Qmult_comm m). now apply Qmult_le_compat_r.
  - apply tot_le. intros [k l] Hq. apply filter_In in Hq. destruct Hq as [Hin Hw]. cbn [fst]. unfold wired_at in Hw. cbn [snd] in Hw. apply andb_true_iff in Hw. destruct Hw as [Hc Hw]. apply negb_true_iff in Hw.
    setoid_replace (cap k) with (1 * cap k) at 2 by lra. apply Qmult_le_compat_r; [|apply capnn]. apply (S1 k l p); auto. now apply In_dget.
Qed.
End Pop.

(** ** the best schedule *)
Section Best.
Variables (cap : string -> Q) (sf : list status) (t : topo).
Hypothesis W : well_formed t.
Let Wl : dwf (t_links t). Proof. apply W. Qed.
Notation L := (t_links t).
Notation group p x := (filter (fun q : string * link => beq (sec_of (snd q)) x) (filter (air_at sf t p) L)).
Definition best (p x : string) : option (string * link) := find (fun q => Qeq_bool (cap (fst q)) (max_q (map (fun q => cap (fst q)) (group p x)))) (group p x).
Definition share (k : string) : Q :=
  match dget L k with
  | Some l => if l_wireless l then match best (l_tx l) (sec_of l) with Some q => if beq (fst q) k then 1 else 0 | None => 0 end else 1
  | None => 0
  end.
Lemma group_link p x q : In q (group p x) -> dget L (fst q) = Some (snd q) /\ l_tx (snd q) = p /\ l_wireless (snd q) = true /\ sec_of (snd q) = x.
Proof.
  intros H. apply filter_In in H. destruct H as [H Hx]. apply filter_In in H. destruct H as [H Ha]. apply beq_true in Hx. unfold air_at, carries in Ha. apply andb_true_iff in Ha. destruct Ha as [Ha Hw]. apply andb_true_iff in Ha. destruct Ha as [Ha _]. apply andb_true_iff in Ha. destruct Ha as [Ha _]. apply andb_true_iff in Ha. destruct Ha as [Ha _]. apply beq_true in Ha.
  destruct q as [k l]. cbn in *. split; [now apply In_dget|auto].
Qed.
Lemma best_some p x q0 : In q0 (group p x) -> exists q, best p x = Some q /\ In q (group p x) /\ cap (fst q) == max_q (map (fun q => cap (fst q)) (group p x)).
Proof.
  intros H. destruct (best p x) as [q|] eqn:E.
  - exists q. split; [reflexivity|]. apply find_some in E. destruct E as [A B]. split; [exact A|now apply qeq_true].
  - exfalso. destruct (max_q_in (map (fun q => cap (fst q)) (group p x))) as (y & Hy & Ey). { intros N. apply map_eq_nil in N. rewrite N in H. exact H. }
    apply in_map_iff in Hy. destruct Hy as (q & <- & Hq). pose proof (find_none _ _ E q Hq) as F. cbn beta in F. apply qeq_false in F. apply F. now symmetry.
Qed.
Lemma tot_one (f : string -> Q) b (g : dict string link) : dwf g -> total (fun q => if beq b (fst q) then f (fst q) else 0) g == (if dmem g b then f b else 0).
Proof.
  unfold dwf, dkeys. induction g as [|[k l] g IH]; cbn [map]; intros N; [rewrite tot_nil; reflexivity|]. inversion N as [|? ? Nk N']; subst. rewrite tot_cons, IH by exact N'. cbn [fst]. unfold dmem. cbn [dget]. destruct (beq_spec b k) as [->|].
  - change (match dget g k with Some _ => true | None => false end) with (dmem g k). rewrite (proj2 (dmem_None _ _)); [lra|]. now apply dget_None_keys.
  - lra.
Qed.
Lemma filter_wf {V} (d : dict string V) f : dwf d -> dwf (filter f d).
Proof. unfold dwf, dkeys. apply NoDup_map_filter. Qed.
Lemma group_share p x (f : string -> Q) : total (fun q => share (fst q) * f (fst q)) (group p x) == match best p x with Some q => f (fst q) | None => 0 end.
Proof.
  assert (E : total (fun q => share (fst q) * f (fst q)) (group p x) == total (fun q => match best p x with Some b => if beq (fst b) (fst q) then f (fst q) else 0 | None => 0 end) (group p x)).
  { apply tot_ext. intros q Hq. destruct (group_link p x q Hq) as (E & Et & Ew & Es). unfold share. rewrite E, Ew, Et, Es. destruct (best p x) as [b|]; [|lra]. destruct (beq (fst b) (fst q)); lra. }
  rewrite E. destruct (best p x) as [b|] eqn:Eb; [|apply tot_zero; reflexivity]. rewrite tot_one by (apply filter_wf, filter_wf, Wl).
  assert (M : dmem (group p x) (fst b) = true). { apply dmem_keys. apply in_map. unfold best in Eb. apply find_some in Eb. tauto. }
  now rewrite M.
Qed.
Lemma share_valid : schedule t sf share.
Proof.
  split; [|split].
  - intros k. unfold share. destruct (dget L k) as [l|]; [|lra]. destruct (l_wireless l); [|lra]. destruct (best _ _) as [q|]; [|lra]. destruct (beq (fst q) k); lra.
  - intros k l p E _ Hw. unfold share. unfold link_stored in E. rewrite E, Hw. lra.
  - intros p x. rewrite <- group_through. pose proof (group_share p x (fun _ => 1)) as G.
    assert (E : total (fun q => share (fst q)) (group p x) == total (fun q => share (fst q) * 1) (group p x)) by (apply tot_ext; intros; lra).
    rewrite E, G. destruct (best p x); lra.
Qed.
Lemma pop_reached p st : is_pop t p -> pop_links cap sf t L ([], []) = Ok st -> pop_traffic t sf cap share p == pop_outgoing st p.
Proof.
  intros Hp E. rewrite (outgoing cap sf t W p Hp st E). unfold pop_traffic. rewrite (carries_split sf t p), (groups cap sf t p). apply Qplus_comp.
  - apply tot_ext. intros x Hx. rewrite (group_share p x cap). apply (D_dom cap sf t p) in Hx. destruct Hx as (q0 & Hq & Ex).
    destruct (best_some p x q0) as (q & -> & _ & Eq); [|exact Eq]. apply filter_In. split; [exact Hq|]. rewrite Ex. apply beq_refl.
  - apply tot_ext. intros [k l] Hq. apply filter_In in Hq. destruct Hq as [Hin Hw]. unfold wired_at in Hw. cbn [snd] in Hw. apply andb_true_iff in Hw. destruct Hw as [_ Hw]. apply negb_true_iff in Hw.
    cbn [fst]. unfold share. rewrite (In_dget _ _ _ Wl Hin), Hw. lra.
Qed.
End Best.

Lemma max_pop_exact cap sf pc t ps : well_formed t -> (forall k, 0 <= cap k) -> all_pops t ps -> exists m, max_pop_capacity cap sf pc t = Ok m /\
  (forall share, schedule t sf share -> sent t sf cap share pc ps <= m) /\ (exists share, schedule t sf share /\ sent t sf cap share pc ps == m).
Proof.
  intros W Hc (N & Hps). unfold max_pop_capacity. destruct (pop_links_spec cap sf t W (t_links t) (incl_refl _) ([], [])) as (st & E & _). rewrite E. cbn [rbind].
  destruct (get_site_ids_wf t None (Some [POP]) W) as [N' Hg].
  assert (Same : forall f : string -> Q, total f ps == total f (get_site_ids t None (Some [POP]))).
  { intros f. apply tot_same; auto. intros i. rewrite Hps, Hg. cbn. split; [intros (s & Es & Ts)|intros (s & Es & _ & Ts)]; exists s; intuition. }
  eexists. split; [reflexivity|]. unfold sent.
  assert (M : sum_q (map (fun i => Qmin (pop_outgoing st i) pc) (get_site_ids t None (Some [POP]))) == total (fun i => Qmin (pop_outgoing st i) pc) ps) by (rewrite sum_q_total, tot_map, <- (Same (fun i => Qmin (pop_outgoing st i) pc)); reflexivity).
  split.
  - intros share S. rewrite M. apply tot_le. intros p Hp. apply Q.min_le_compat_r. apply pop_bound; auto. now apply Hps.
  - exists (share cap sf t). split; [now apply share_valid|]. rewrite M. apply tot_ext. intros p Hp. rewrite (pop_reached cap sf t W p st); [reflexivity| |exact E]. now apply Hps.
Qed.
