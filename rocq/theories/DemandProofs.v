From Coq Require Import QArith ZArith Lia.
From Verif Require Import Base Dict QLib MonadLib TopologyModel TopologyProofs SetupModel SetupProofs GraphProofs DemandModel DemandSpec.
Local Open Scope list_scope.

(** *** the growing list *)
Lemma new_ids_spec dns : forall ids, NoDup (new_ids dns ids) /\ (forall j, In j (new_ids dns ids) <-> In j dns /\ ~ In j ids).
Proof.
  induction dns as [|a dns IH]; intros ids; cbn [new_ids].
  - split; [constructor|]. intros j. cbn. tauto.
  - destruct (mem a ids) eqn:E.
    + apply mem_In in E. destruct (IH ids) as [N H]. split; [exact N|]. intros j. pose proof (H j) as Hj. cbn [In]. split; [tauto|].
      intros [[->|Hi] Hn]; [contradiction|tauto].
    + apply mem_not_In in E. destruct (IH (sadd a ids)) as [N H]. split.
      * constructor; [|exact N]. intros Hi. apply H in Hi. destruct Hi as [_ Hi]. apply Hi. apply sadd_In. now left.
      * intros j. pose proof (H j) as Hj. pose proof (sadd_In a j ids) as Hs. cbn [In]. split.
        { intros [->|Hi]; [tauto|]. tauto. }
        { intros [[->|Hi] Hn]; [tauto|]. destruct (beq_spec a j) as [->|Hne]; [now left|]. right. apply Hj. split; [exact Hi|]. intros Hx. apply Hs in Hx. destruct Hx; [congruence|contradiction]. }
Qed.
Lemma closure_ext m (b b' : string -> Prop) i : (forall j, b j -> closure m b' j) -> closure m b i -> closure m b' i.
Proof. intros H C. induction C as [i Hi|i j Ci IH Hm]; [auto|]. exact (closure_step m b' i j IH Hm). Qed.
Definition arrow (m : dict string (list string)) (i j : string) : Prop := In j (row m i).

Lemma grow_ok sites m fuel : forall todo ids all r,
  (forall i, In i ids <-> In i all) -> incl todo all -> (forall i, In i all -> In i todo \/ incl (row m i) all) ->
  grow sites fuel m todo ids all = Ok r ->
  (forall i, In i r <-> closure (arrow m) (fun j => In j all) i)
  /\ exists e, r = all ++ e /\ NoDup e /\ (forall i, In i e -> ~ In i all) /\ (forall i, In i e -> dmem sites i = true).
Proof.
  induction fuel as [|fuel IH]; intros todo ids all r Hi Ht Hc E; cbn [grow] in E; [discriminate|].
  destruct todo as [|a todo].
  - injection E as <-. split.
    + intros i. split; [intros; now constructor|]. intros C. induction C as [i Hb|i j Ci IHc Hm]; [exact Hb|].
      destruct (Hc i IHc) as [[]|H]. exact (H j Hm).
    + exists []. rewrite app_nil_r. split; [reflexivity|]. split; [constructor|]. split; intros i [].
  - destruct (new_ids_spec (row m a) ids) as [Nn Hn]. remember (new_ids (row m a) ids) as n eqn:En. clear En.
    destruct (guard _ _) as [u|] eqn:G in E; [|discriminate]. cbn [rbind] in E. apply guard_ok in G. rewrite forallb_forall in G.
    apply IH in E.
    + destruct E as [E1 (e & -> & Ne & De & Se)]. split.
      * intros i. pose proof (E1 i) as Ei. rewrite Ei. split.
        { apply closure_ext. intros j Hj. apply in_app_iff in Hj. destruct Hj as [Hj|Hj]; [now constructor|].
          apply Hn in Hj. apply closure_step with a; [constructor; apply Ht; now left|]. exact (proj1 Hj). }
        { apply closure_ext. intros j Hj. constructor. apply in_app_iff. now left. }
      * exists (n ++ e). split; [now rewrite app_assoc|]. split.
        { clear -Nn Ne De. induction n as [|x n IHn]; [exact Ne|]. cbn. inversion Nn as [|? ? Hx Nn']; subst. constructor.
          - intros H. apply in_app_iff in H. destruct H as [H|H]; [contradiction|]. apply (De x H). apply in_app_iff. right. now left.
          - apply IHn; [|exact Nn']. intros i Hi H. apply (De i Hi). apply in_app_iff in H. apply in_app_iff. cbn. tauto. }
        split; intros i Hx; apply in_app_iff in Hx; destruct Hx as [Hx|Hx].
        { apply Hn in Hx. rewrite <- (Hi i). exact (proj2 Hx). }
        { intros Ha. apply (De i Hx). apply in_app_iff. now left. }
        { now apply G. }
        { now apply Se. }
    + intros i. pose proof (fold_sadd_In n ids i) as F. pose proof (in_app_iff all n i) as F2. pose proof (Hi i) as F3. tauto.
    + intros i Hx. apply in_app_iff in Hx. apply in_app_iff. destruct Hx as [Hx|Hx]; [left; apply Ht; now right|now right].
    + intros i Hx. apply in_app_iff in Hx. destruct Hx as [Hx|Hx].
      * destruct (Hc i Hx) as [[->|H]|H].
        { right. intros j Hj. apply in_app_iff. destruct (in_dec string_dec j ids) as [Hd|Hd]; [left; now apply Hi|right; apply Hn; tauto]. }
        { left. apply in_app_iff. now left. }
        { right. intros j Hj. apply in_app_iff. left. now apply H. }
      * left. apply in_app_iff. now right.
Qed.

(** termination: the fuel suffices *)
Definition unseen (ids vals : list string) : nat := List.length (filter (fun v => negb (mem v ids)) vals).
Lemma filter_split {A} (f : A -> bool) l : List.length l = (List.length (filter f l) + List.length (filter (fun x => negb (f x)) l))%nat.
Proof. induction l as [|a l IH]; cbn; [reflexivity|]. destruct (f a); cbn; lia. Qed.
Lemma unseen_less ids n vals : NoDup n -> (forall i, In i n -> In i vals /\ ~ In i ids) ->
  (unseen (fold_left (fun acc i => sadd i acc) n ids) vals + List.length n <= unseen ids vals)%nat.
Proof.
  intros N H. unfold unseen. rewrite (filter_split (fun v => mem v n) (filter (fun v => negb (mem v ids)) vals)).
  assert (L1 : (List.length n <= List.length (filter (fun v => mem v n) (filter (fun v => negb (mem v ids)) vals)))%nat).
  { apply NoDup_incl_length; [exact N|]. intros i Hi. destruct (H i Hi) as [Hv Hn]. apply filter_In. split; [|now apply mem_In].
    apply filter_In. split; [exact Hv|]. apply mem_not_In in Hn. now rewrite Hn. }
  assert (L2 : filter (fun v => negb (mem v (fold_left (fun acc i => sadd i acc) n ids))) vals
               = filter (fun x => negb (mem x n)) (filter (fun v => negb (mem v ids)) vals)).
  { clear. induction vals as [|v vals IH]; [reflexivity|]. cbn [filter].
    assert (E : mem v (fold_left (fun acc i => sadd i acc) n ids) = mem v ids || mem v n).
    { pose proof (fold_sadd_In n ids v) as F. destruct (mem v ids) eqn:E1; [|destruct (mem v n) eqn:E2].
      - apply mem_In in E1. apply mem_In. tauto.
      - apply mem_In in E2. apply mem_In. tauto.
      - apply mem_not_In in E1. apply mem_not_In in E2. apply mem_not_In. tauto. }
    rewrite E. destruct (mem v ids) eqn:E1; cbn [negb orb filter]; [exact IH|]. destruct (mem v n) eqn:E2; cbn [negb]; [exact IH|]. now rewrite IH. }
  rewrite L2. lia.
Qed.
Lemma grow_total sites m fuel : forall todo ids all,
  (forall i j, In j (row m i) -> dmem sites j = true) ->
  (List.length todo + unseen ids (List.concat (dvals m)) < fuel)%nat ->
  exists r, grow sites fuel m todo ids all = Ok r.
Proof.
  induction fuel as [|fuel IH]; intros todo ids all Hm Hf; [lia|]. cbn [grow].
  destruct todo as [|a todo]; [eauto|].
  destruct (new_ids_spec (row m a) ids) as [Nn Hn]. remember (new_ids (row m a) ids) as n eqn:En. clear En.
  assert (G : forallb (fun i => dmem sites i) n = true).
  { apply forallb_forall. intros i Hi. apply Hn in Hi. apply (Hm a). exact (proj1 Hi). }
  rewrite G. cbn [guard rbind]. apply IH; [exact Hm|].
  pose proof (unseen_less ids n (List.concat (dvals m)) Nn) as U.
  assert (P : forall i, In i n -> In i (List.concat (dvals m)) /\ ~ In i ids).
  { intros i Hi. apply Hn in Hi. destruct Hi as [Hi Hd]. split; [|exact Hd]. unfold row in Hi. destruct (dget m a) as [l|] eqn:E; [|destruct Hi].
    apply in_concat. exists l. split; [|exact Hi]. apply dget_In in E. apply in_map_iff. exists (a, l). auto. }
  specialize (U P). rewrite app_length. cbn [List.length] in Hf. lia.
Qed.
Lemma unseen_le ids vals : (unseen ids vals <= List.length vals)%nat.
Proof. unfold unseen. rewrite (filter_split (fun v => negb (mem v ids)) vals). lia. Qed.

Lemma connect_colocated_spec sites m D R : connect_colocated sites m D = Ok R ->
  dkeys R = dkeys D
  /\ forall k d', In (k, d') R -> exists d l, In (k, d) D /\ d' = with_sites d l
     /\ (forall i, In i l <-> closure (arrow m) (fun j => In j (q_sites d)) i)
     /\ (NoDup (q_sites d) -> NoDup l)
     /\ exists e, l = q_sites d ++ e.
Proof.
  revert R. induction D as [|[k d] D IH]; intros R E; cbn [connect_colocated] in E.
  - injection E as <-. split; [reflexivity|]. intros k d' [].
  - apply rbind_ok in E. destruct E as (l & El & E). apply rbind_ok in E. destruct E as (R' & ER & E). injection E as <-.
    destruct (IH _ ER) as [K H]. split; [cbn; now f_equal|].
    intros k0 d0 [Hin|Hin].
    + injection Hin as <- <-. exists d, l. split; [now left|]. split; [reflexivity|].
      apply grow_ok in El.
      * destruct El as [E1 (e & -> & Ne & De & _)]. split; [exact E1|]. split; [|eauto].
        intros Nd. clear -Nd Ne De. induction (q_sites d) as [|x q IHq]; [exact Ne|]. cbn. inversion Nd as [|? ? Hx Nd']; subst. constructor.
        { intros H. apply in_app_iff in H. destruct H as [H|H]; [contradiction|]. apply (De x H). now left. }
        { apply IHq; [|exact Nd']. intros i Hi H. apply (De i Hi). now right. }
      * intros i. pose proof (fold_sadd_In (q_sites d) [] i) as F. cbn in F. tauto.
      * apply incl_refl.
      * intros i Hi. now left.
    + destruct (H _ _ Hin) as (d1 & l1 & Hd & Q). exists d1, l1. split; [now right|exact Q].
Qed.
Lemma connect_colocated_total sites m D : (forall i j, In j (row m i) -> dmem sites j = true) -> exists R, connect_colocated sites m D = Ok R.
Proof.
  intros Hm. induction D as [|[k d] D IH]; cbn [connect_colocated]; [eauto|].
  destruct (grow_total sites m (grow_fuel m (q_sites d)) (q_sites d) (fold_left (fun acc i => sadd i acc) (q_sites d) []) (q_sites d) Hm) as [l El].
  { unfold grow_fuel. pose proof (unseen_le (fold_left (fun acc i => sadd i acc) (q_sites d) []) (List.concat (dvals m))). lia. }
  rewrite El. cbn [rbind]. destruct IH as [R ER]. rewrite ER. cbn [rbind]. eauto.
Qed.

(** *** sites that share a location or a building *)
Lemma add_pairs_row cns dns : forall m i j, In j (row (add_pairs cns dns m) i) <-> In j (row m i) \/ (In i cns /\ In j dns).
Proof.
  intros m i j. unfold add_pairs. rewrite <- in_prod_iff. generalize (list_prod cns dns) as L. intros L. revert m.
  induction L as [|[a b] L IH]; intros m; cbn [fold_left In fst snd]; [tauto|].
  pose proof (IH (dset m a (sadd b (row m a)))) as H. rewrite H.
  destruct (beq_spec a i) as [->|Hn].
  - rewrite row_set_eq. pose proof (sadd_In b j (row m i)) as S'. split.
    + intros [H1|H1]; [|tauto]. apply S' in H1. destruct H1 as [->|H1]; tauto.
    + intros [H1|[H1|H1]]; [left; tauto| |tauto]. injection H1 as ->. left. tauto.
  - rewrite row_set_neq by congruence. split; [tauto|]. intros [H1|[H1|H1]]; [tauto| |tauto]. injection H1 as -> _. congruence.
Qed.
Section Map.
Variable sites : dict string site.
Hypothesis Wf : dwf sites.
Lemma of_type_true f i : of_type sites f i = true <-> exists s, In (i, s) sites /\ f (s_type s) = true.
Proof using Wf.
  unfold of_type. destruct (dget sites i) as [s|] eqn:E.
  - apply dget_In in E as Ei. split; [eauto|]. intros (s' & Hi & Hf). apply (In_dget _ _ _ Wf) in Hi. congruence.
  - split; [discriminate|]. intros (s' & Hi & _). apply (In_dget _ _ _ Wf) in Hi. congruence.
Qed.
Lemma colocated_get loc l : In (loc, l) (colocated sites) -> forall i, In i l <-> exists s, In (i, s) sites /\ s_loc s = loc.
Proof using Wf.
  intros Hin. unfold colocated in Hin.
  assert (E : forall d, fold_left (fun acc q => dappend acc (s_loc (snd q)) (fst q)) sites d
              = fold_left (fun d p => dappend d (fst p) (snd p)) (map (fun q => (s_loc (snd q), fst q)) sites) d).
  { clear. induction sites as [|q s IH]; intros d; [reflexivity|]. cbn [fold_left map]. apply IH. }
  rewrite E in Hin.
  assert (W : forall (L : list (Z*Z*Z*string)) d, dwf d -> dwf (fold_left (fun d p => dappend d (fst p) (snd p)) L d)).
  { clear. induction L as [|q s IH]; intros d Hd; [exact Hd|]. cbn [fold_left]. apply IH. now apply dwf_set. }
  apply In_dget in Hin; [|apply W; constructor].
  pose proof (fold_dappend (map (fun q => (s_loc (snd q), fst q)) sites) [] loc) as F. unfold under in F. rewrite Hin in F. cbn [dget app] in F.
  intros i. rewrite F. rewrite in_map_iff. split.
  - intros ((a & b) & Hb & Hf). apply filter_In in Hf. destruct Hf as [Hf Hq]. apply beq_true in Hq. cbn in Hb, Hq. subst.
    apply in_map_iff in Hf. destruct Hf as ((i' & s) & He & Hs). cbn in He. injection He as E1 E2. subst. eauto.
  - intros (s & Hs & Hl). exists (loc, i). split; [reflexivity|]. apply filter_In. split; [|apply beq_refl]. apply in_map_iff. exists (i, s). cbn. now rewrite Hl.
Qed.
Lemma colocated_some i s : In (i, s) sites -> exists l, In (s_loc s, l) (colocated sites).
Proof using.
  intros Hi. unfold colocated.
  assert (H : forall (L : dict string site) d, (exists l, dget d (s_loc s) = Some l) \/ In (i, s) L ->
     exists l, dget (fold_left (fun acc q => dappend acc (s_loc (snd q)) (fst q)) L d) (s_loc s) = Some l).
  { induction L as [|q L IH]; intros d H; cbn [fold_left].
    - destruct H as [H|[]]. exact H.
    - apply IH. destruct H as [(l & H)|[->|H]].
      + left. unfold dappend. rewrite dget_set. destruct (beq _ _); eauto.
      + left. unfold dappend. cbn [fst snd]. rewrite dget_set_eq. eauto.
      + now right. }
  destruct (H sites [] (or_intror Hi)) as [l Hl]. exists l. now apply dget_In.
Qed.
Lemma length_two {A} (l : list A) a b : In a l -> In b l -> a <> b -> Nat.leb (List.length l) 1 = false.
Proof. destruct l as [|x [|y l]]; cbn; [tauto| |reflexivity]. intros [->|[]] [->|[]]. congruence. Qed.
Lemma hybrid_row m i j : In j (row (hybrid sites m) i) <->
  In j (row m i) \/ exists s s', In (i, s) sites /\ In (j, s') sites /\ s_type s = CN /\ s_type s' <> CN /\ s_loc s = s_loc s'.
Proof using Wf.
  unfold hybrid.
  assert (H : forall (L : list (Z * Z * Z * list string)) m, In j (row (fold_left (fun m g => if Nat.leb (List.length (snd g)) 1 then m
       else add_pairs (filter (of_type sites is_cn) (snd g)) (filter (of_type sites is_dist) (snd g)) m) L m) i)
     <-> In j (row m i) \/ exists g, In g L /\ Nat.leb (List.length (snd g)) 1 = false /\ (In i (snd g) /\ of_type sites is_cn i = true) /\ (In j (snd g) /\ of_type sites is_dist j = true)).
  { clear m. induction L as [|g L IH]; intros m; cbn [fold_left].
    - split; [tauto|]. intros [H|(g & [] & _)]. exact H.
    - rewrite IH. destruct (Nat.leb (List.length (snd g)) 1) eqn:E.
      + split; (intros [H|(g' & Hg & H)]; [now left|]).
        * right. exists g'. split; [now right|exact H].
        * right. destruct Hg as [<-|Hg]; [rewrite E in H; destruct H; discriminate|]. eauto.
      + rewrite add_pairs_row, !filter_In. split.
        * intros [[H|H]|(g' & Hg & H)]; [tauto| |].
          { right. exists g. split; [now left|]. split; [exact E|]. tauto. }
          { right. exists g'. split; [now right|exact H]. }
        * intros [H|(g' & [<-|Hg] & H)]; [tauto| |].
          { left. right. tauto. }
          { right. eauto. } }
  rewrite H. clear H. split; (intros [H|H]; [now left|right]).
  - destruct H as ([loc l] & Hg & _ & [Hi Ti] & Hj & Tj). cbn [snd] in *.
    pose proof (colocated_get _ _ Hg) as C. apply C in Hi. apply C in Hj. destruct Hi as (s & Hs & Ls). destruct Hj as (s' & Hs' & Ls').
    apply of_type_true in Ti. apply of_type_true in Tj. destruct Ti as (s1 & Hs1 & Ti). destruct Tj as (s2 & Hs2 & Tj).
    apply (In_dget _ _ _ Wf) in Hs as G1. apply (In_dget _ _ _ Wf) in Hs' as G2. apply (In_dget _ _ _ Wf) in Hs1. apply (In_dget _ _ _ Wf) in Hs2.
    rewrite G1 in Hs1. rewrite G2 in Hs2. injection Hs1 as <-. injection Hs2 as <-.
    exists s, s'. split; [exact Hs|]. split; [exact Hs'|]. split; [now apply beq_true in Ti|]. split; [|congruence].
    intros T. rewrite T in Tj. discriminate.
  - destruct H as (s & s' & Hs & Hs' & Ti & Tj & L). destruct (colocated_some _ _ Hs) as [l Hl].
    exists (s_loc s, l). cbn [snd]. pose proof (colocated_get _ _ Hl) as C. split; [exact Hl|].
    assert (Ii : In i l) by (apply C; eauto). assert (Ij : In j l) by (apply C; eauto).
    split; [|split; (split; [assumption|])].
    + apply (length_two l i j Ii Ij). intros ->. apply (In_dget _ _ _ Wf) in Hs. apply (In_dget _ _ _ Wf) in Hs'. congruence.
    + apply of_type_true. exists s. split; [exact Hs|]. unfold is_cn. rewrite Ti. reflexivity.
    + apply of_type_true. exists s'. split; [exact Hs'|]. destruct (s_type s'); [congruence|reflexivity|reflexivity].
Qed.

Variables (rooftop : string -> bool) (building : string -> option Z).
Definition zrow (d : dict Z (list string)) (b : Z) : list string := match dget d b with Some v => v | None => [] end.
Lemma zrow_set d b v b' : zrow (dset d b v) b' = if beq b' b then v else zrow d b'.
Proof. unfold zrow. rewrite dget_set. now destruct (beq b' b). Qed.
Lemma by_building_spec l : forall c d c' d', by_building rooftop building l c d = Ok (c', d') ->
  (dwf c -> dwf c')
  /\ (forall b i, In i (zrow c' b) <-> In i (zrow c b) \/ exists s, In (i, s) l /\ s_type s = CN /\ rooftop i = true /\ building i = Some b /\ (0 <= b)%Z)
  /\ (forall b i, In i (zrow d' b) <-> In i (zrow d b) \/ exists s, In (i, s) l /\ s_type s <> CN /\ rooftop i = true /\ building i = Some b /\ (0 <= b)%Z).
Proof using.
  induction l as [|[i s] l IH]; intros c d c' d' E; cbn [by_building] in E.
  - injection E as <- <-. repeat split; try tauto; intros [H|(s & [] & _)]; exact H.
  - destruct (rooftop i) eqn:Er.
    2:{ destruct (IH _ _ _ _ E) as (W & H1 & H2). split; [exact W|]. split; intros b j; [rewrite H1|rewrite H2]; (split; (intros [H|(s' & Hs & H)]; [now left|right; exists s'])).
        all: try (split; [now right|exact H]). all: destruct Hs as [Hs|Hs]; [injection Hs as <- <-; destruct H as (_ & H & _); congruence|auto]. }
    destruct (building i) as [b0|] eqn:Eb; [|discriminate].
    destruct (-1 <? b0)%Z eqn:Ez.
    2:{ apply Z.ltb_ge in Ez. destruct (IH _ _ _ _ E) as (W & H1 & H2). split; [exact W|]. split; intros b j; [rewrite H1|rewrite H2]; (split; (intros [H|(s' & Hs & H)]; [now left|right; exists s'])).
        all: try (split; [now right|exact H]). all: destruct Hs as [Hs|Hs]; [injection Hs as <- <-; destruct H as (_ & _ & H & Hz); rewrite Eb in H; injection H as ->; lia|auto]. }
    apply Z.ltb_lt in Ez.
    change (match dget c b0 with Some v => v | None => [] end) with (zrow c b0) in E.
    change (match dget d b0 with Some v => v | None => [] end) with (zrow d b0) in E.
    destruct (beq (s_type s) CN) eqn:Et.
    + apply beq_true in Et. destruct (IH _ _ _ _ E) as (W & H1 & H2). split; [intros Hw; apply W; now apply dwf_set|]. split; intros b j.
      * rewrite H1, zrow_set. destruct (beq_spec b b0) as [->|Hb].
        { rewrite sadd_In. split.
          - intros [[->|H]|(s' & Hs & H)]; [right; exists s|now left|right; exists s'].
            + split; [now left|]. split; [exact Et|]. split; [exact Er|]. split; [exact Eb|lia].
            + split; [now right|exact H].
          - intros [H|(s' & Hs & H)]; [tauto|]. destruct Hs as [Hs|Hs]; [injection Hs as <- <-; tauto|]. right. eauto. }
        { split; (intros [H|(s' & Hs & H)]; [now left|right; exists s']).
          - split; [now right|exact H].
          - destruct Hs as [Hs|Hs]; [injection Hs as <- <-; destruct H as (_ & _ & H & _); congruence|auto]. }
      * rewrite H2. split; (intros [H|(s' & Hs & H)]; [now left|right; exists s']); [split; [now right|exact H]|].
        destruct Hs as [Hs|Hs]; [injection Hs as <- <-; destruct H as [H _]; contradiction|auto].
    + apply beq_false in Et. destruct (IH _ _ _ _ E) as (W & H1 & H2). split; [exact W|]. split; intros b j.
      * rewrite H1. split; (intros [H|(s' & Hs & H)]; [now left|right; exists s']); [split; [now right|exact H]|].
        destruct Hs as [Hs|Hs]; [injection Hs as <- <-; destruct H as [H _]; contradiction|auto].
      * rewrite H2, zrow_set. destruct (beq_spec b b0) as [->|Hb].
        { rewrite sadd_In. split.
          - intros [[->|H]|(s' & Hs & H)]; [right; exists s|now left|right; exists s'].
            + split; [now left|]. split; [exact Et|]. split; [exact Er|]. split; [exact Eb|lia].
            + split; [now right|exact H].
          - intros [H|(s' & Hs & H)]; [tauto|]. destruct Hs as [Hs|Hs]; [injection Hs as <- <-; tauto|]. right. eauto. }
        { split; (intros [H|(s' & Hs & H)]; [now left|right; exists s']).
          - split; [now right|exact H].
          - destruct Hs as [Hs|Hs]; [injection Hs as <- <-; destruct H as (_ & _ & H & _); congruence|auto]. }
Qed.
Lemma by_building_total l : (forall i s, In (i, s) l -> rooftop i = true -> building i <> None) -> forall c d, exists r, by_building rooftop building l c d = Ok r.
Proof using.
  induction l as [|[i s] l IH]; intros H c d; cbn [by_building]; [eauto|].
  assert (H' : forall i s, In (i, s) l -> rooftop i = true -> building i <> None) by (intros; eapply H; [right; eassumption|assumption]).
  destruct (rooftop i) eqn:Er; [|now apply IH].
  destruct (building i) as [b|] eqn:Eb; [|exfalso; exact (H i s (or_introl eq_refl) Er Eb)].
  destruct (-1 <? b)%Z; [destruct (beq (s_type s) CN)|]; now apply IH.
Qed.
Lemma rooftops_row m m' : rooftops rooftop building sites m = Ok m' -> forall i j, In j (row m' i) <->
  In j (row m i) \/ exists s s', In (i, s) sites /\ In (j, s') sites /\ s_type s = CN /\ s_type s' <> CN /\ same_building rooftop building i j.
Proof using.
  unfold rooftops. intros E i j. apply rbind_ok in E. destruct E as ([c d] & Eb & E). injection E as <-. cbn [fst snd].
  apply by_building_spec in Eb. destruct Eb as (W & Hc & Hd). specialize (W (dwf_nil (K:=Z) (V:=list string))).
  assert (H : forall (L : list (Z * list string)) m, In j (row (fold_left (fun m g => match dget d (fst g) with Some dns => add_pairs (snd g) dns m | None => m end) L m) i)
      <-> In j (row m i) \/ exists g, In g L /\ In i (snd g) /\ In j (zrow d (fst g))).
  { clear. induction L as [|g L IH]; intros m; cbn [fold_left].
    - split; [tauto|]. intros [H|(g & [] & _)]. exact H.
    - rewrite IH. unfold zrow at 2. destruct (dget d (fst g)) as [dns|] eqn:E.
      + rewrite add_pairs_row. split.
        * intros [[H|H]|(g' & Hg & H)]; [tauto| |].
          { right. exists g. split; [now left|]. rewrite E. tauto. }
          { right. exists g'. split; [now right|exact H]. }
        * intros [H|(g' & [<-|Hg] & H)]; [tauto| |].
          { left. right. rewrite E in H. tauto. }
          { right. eauto. }
      + split; (intros [H|(g' & Hg & H)]; [now left|right; exists g']).
        * split; [now right|exact H].
        * destruct Hg as [<-|Hg]; [rewrite E in H; destruct H as [_ []]|auto]. }
  rewrite H. clear H. split; (intros [H|H]; [now left|right]).
  - destruct H as ([b l] & Hg & Hi & Hj). cbn [fst snd] in *. apply (In_dget _ _ _ W) in Hg.
    assert (Hi' : In i (zrow c b)) by (unfold zrow; now rewrite Hg). apply Hc in Hi'. apply Hd in Hj.
    destruct Hi' as [[]|(s & Hs & Ts & R1 & B1 & Z1)]. destruct Hj as [[]|(s' & Hs' & Ts' & R2 & B2 & Z2)].
    exists s, s'. unfold same_building. repeat match goal with |- _ /\ _ => split end; try assumption. exists b. auto.
  - destruct H as (s & s' & Hs & Hs' & Ts & Ts' & R1 & R2 & b & B1 & B2 & Hz).
    assert (Hi : In i (zrow c b)) by (apply Hc; right; eauto 10). assert (Hj : In j (zrow d b)) by (apply Hd; right; eauto 10).
    unfold zrow in Hi. destruct (dget c b) as [l|] eqn:E; [|destruct Hi]. exists (b, l). cbn [fst snd]. split; [now apply dget_In|auto].
Qed.
Lemma map_shares m : rooftops rooftop building sites (hybrid sites []) = Ok m -> forall i j, In j (row m i) <-> shares rooftop building sites i j.
Proof using Wf.
  intros E i j. rewrite (rooftops_row _ _ E). rewrite hybrid_row. unfold shares. split.
  - intros [[[]|(s & s' & H)]|(s & s' & H)]; exists s, s'; tauto.
  - intros (s & s' & H1 & H2 & H3 & H4 & [H5|H5]); [left; right|right]; exists s, s'; tauto.
Qed.
End Map.
