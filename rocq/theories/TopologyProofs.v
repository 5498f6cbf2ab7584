(** Invariant and proofs for the topology store. *)
From Coq Require Import Permutation Sorted DecimalString DecimalNat.
From Verif Require Import Base Dict TopologyModel TopologySpec.
Local Open Scope string_scope.
Local Open Scope list_scope.

(** ** Strings *)
Lemma no_dash_cons c s : no_dash (String c s) -> c <> "-"%char /\ no_dash s.
Proof. unfold no_dash; simpl. intuition congruence. Qed.

Lemma dash_split a c b d :
  no_dash a -> no_dash c -> (a ++ "-" ++ b = c ++ "-" ++ d)%string -> a = c /\ b = d.
Proof.
  revert c. induction a as [|x a IH]; intros c Ha Hc E; destruct c as [|y c]; simpl in *.
  - inversion E; auto.
  - inversion E; subst. apply no_dash_cons in Hc. destruct Hc as [Hc _]; congruence.
  - inversion E; subst. apply no_dash_cons in Ha. destruct Ha as [Ha _]; congruence.
  - inversion E; subst. apply no_dash_cons in Ha. apply no_dash_cons in Hc.
    destruct (IH c) as [-> ->]; tauto.
Qed.

Lemma link_id_inj a b c d : no_dash a -> no_dash c -> link_id_of a b = link_id_of c d -> a = c /\ b = d.
Proof. unfold link_id_of. apply dash_split. Qed.

Lemma string_of_uint_no_dash u : no_dash (NilEmpty.string_of_uint u).
Proof. unfold no_dash. induction u; simpl; try (intros [E|E]; [discriminate|auto]). tauto. Qed.
Lemma dec_no_dash n : no_dash (dec n).
Proof. apply string_of_uint_no_dash. Qed.
Lemma dec_inj n m : dec n = dec m -> n = m.
Proof.
  unfold dec. intros E.
  assert (E' : Nat.to_uint n = Nat.to_uint m).
  { assert (H : Some (Nat.to_uint n) = Some (Nat.to_uint m)).
    { rewrite <- (NilEmpty.usu (Nat.to_uint n)), <- (NilEmpty.usu (Nat.to_uint m)). now rewrite E. }
    congruence. }
  now apply Unsigned.to_uint_inj.
Qed.
Lemma key_id_site_inj a b : no_dash (k_site a) -> no_dash (k_site b) -> key_id a = key_id b -> k_site a = k_site b.
Proof. unfold key_id. intros Ha Hb E. now apply dash_split in E. Qed.
Lemma key_id_inj a b : no_dash (k_site a) -> no_dash (k_site b) -> key_id a = key_id b -> a = b.
Proof.
  unfold key_id. intros Ha Hb E. apply dash_split in E; auto. destruct E as [E1 E].
  apply dash_split in E; try apply dec_no_dash. destruct E as [E2 E].
  apply dash_split in E; try apply dec_no_dash. destruct E as [E3 E].
  apply dec_inj in E2. apply dec_inj in E3.
  destruct a as [? ? ? []], b as [? ? ? []]; simpl in *; subst; auto; discriminate.
Qed.

(** ** Two-level dictionaries *)
Definition get2 (c : dict string (dict string string)) (a b : string) : option string := dget (row c a) b.
Definition wf2 (c : dict string (dict string string)) : Prop :=
  dwf c /\ forall a r, dget c a = Some r -> dwf r.
Lemma edge_get2 c a b k : edge_in c a b k <-> get2 c a b = Some k.
Proof.
  unfold edge_in, get2, row. destruct (dget c a) as [r|]; simpl.
  - split; [intros [r' [E1 E2]]; inversion E1; now subst|eauto].
  - split; [intros [r' [E1 _]]; discriminate|discriminate].
Qed.
Lemma wf2_row c a : wf2 c -> dwf (row c a).
Proof. intros [_ Hr]. unfold row. destruct (dget c a) eqn:E; [eauto|constructor]. Qed.
Lemma row_set_eq {V} (c : dict string (list V)) a r : row (dset c a r) a = r.
Proof. unfold row. now rewrite dget_set_eq. Qed.
Lemma row_set_neq {V} (c : dict string (list V)) a a' r : a' <> a -> row (dset c a r) a' = row c a'.
Proof. intros Hn. unfold row. now rewrite dget_set_neq. Qed.
Lemma get2_set2 c a b v a' b' :
  get2 (set2 c a b v) a' b' = if beq a' a && beq b' b then Some v else get2 c a' b'.
Proof.
  unfold get2, set2. destruct (beq_spec a' a) as [->|Ha]; simpl.
  - rewrite row_set_eq, dget_set. reflexivity.
  - now rewrite row_set_neq.
Qed.
Lemma wf2_set2 c a b v : wf2 c -> wf2 (set2 c a b v).
Proof.
  intros Hw. destruct Hw as [H1 H2]. split; [now apply dwf_set|].
  intros a' r. unfold set2. rewrite dget_set. destruct (beq a' a); [|apply H2].
  intros E; inversion E; subst. apply dwf_set. apply wf2_row. now split.
Qed.
Lemma del2_Some c a b c' : del2 c a b = Some c' ->
  (wf2 c -> wf2 c') /\ (exists v, get2 c a b = Some v) /\
  forall a' b', get2 c' a' b' = if beq a' a && beq b' b then None else get2 c a' b'.
Proof.
  unfold del2, get2. unfold row at 1. destruct (dget c a) as [r|] eqn:E; [|discriminate].
  destruct (dmem r b) eqn:Eb; [|discriminate]. intros E'; inversion E'; subst; clear E'.
  split; [|split].
  - intros [H1 H2]. split; [now apply dwf_set|]. intros a' r'. rewrite dget_set.
    destruct (beq a' a); [|apply H2]. intros E'; inversion E'; subst. apply dwf_del. eauto.
  - now apply dmem_Some.
  - intros a' b'. destruct (beq_spec a' a) as [->|Ha]; simpl.
    + rewrite row_set_eq, dget_del. unfold row. now rewrite E.
    + now rewrite row_set_neq.
Qed.
Lemma del2_None c a b : del2 c a b = None -> get2 c a b = None.
Proof.
  unfold del2, get2, row. destruct (dget c a) as [r|]; [|reflexivity].
  destruct (dmem r b) eqn:Eb; [discriminate|]. intros _. now apply dmem_None.
Qed.

(** ** The invariant *)
Record Inv (t : topo) : Prop := {
  iw_sites : dwf (t_sites t); iw_demands : dwf (t_demands t); iw_sectors : dwf (t_sectors t);
  iw_links : dwf (t_links t); iw_secidx : dwf (t_secidx t);
  iw_conn : wf2 (t_conn t); iw_rconn : wf2 (t_rconn t);
  i_sites : forall i s, dget (t_sites t) i = Some s -> s_id s = i /\ no_dash i;
  i_links : forall k l, dget (t_links t) k = Some l ->
     k = l_id l /\ dmem (t_sites t) (l_tx l) = true /\ dmem (t_sites t) (l_rx l) = true /\ link_args_ok l;
  i_conn : forall a b k, get2 (t_conn t) a b = Some k <->
     exists l, dget (t_links t) k = Some l /\ l_tx l = a /\ l_rx l = b;
  i_rconn : forall a b k, get2 (t_rconn t) b a = Some k <->
     exists l, dget (t_links t) k = Some l /\ l_tx l = a /\ l_rx l = b;
  i_sectors : forall i x, dget (t_sectors t) i = Some x ->
     i = x_id x /\ dmem (t_sites t) (x_site x) = true /\ In i (row (t_secidx t) (x_site x));
  i_secidx : forall s i, In i (row (t_secidx t) s) ->
     no_dash s /\ exists k, key_id k = i /\ k_site k = s;
  i_secidx_nodup : forall s, NoDup (row (t_secidx t) s) }.

Lemma inv_empty : Inv empty_topo.
Proof.
  constructor; simpl; try apply dwf_nil; try (split; [apply dwf_nil|discriminate]);
    try discriminate; try (unfold get2, row; simpl; split; [discriminate|intros [l [E _]]; discriminate]).
  - unfold row; simpl; tauto.
  - intros s; constructor.
Qed.

Lemma site_no_dash t i : Inv t -> dmem (t_sites t) i = true -> no_dash i.
Proof. intros HI Hm. apply dmem_Some in Hm. destruct Hm as [s E]. now apply (i_sites t HI) in E. Qed.

Lemma link_unique t k l k' l' : Inv t -> dget (t_links t) k = Some l -> dget (t_links t) k' = Some l' ->
  l_tx l = l_tx l' -> l_rx l = l_rx l' -> k = k' /\ l = l'.
Proof.
  intros HI E E' Ht Hr. destruct (i_links t HI _ _ E) as [-> _]. destruct (i_links t HI _ _ E') as [-> _].
  assert (Hid : l_id l = l_id l') by (unfold l_id; congruence).
  split; [exact Hid|]. rewrite Hid in E. congruence.
Qed.

Lemma dget_none_neq {V} (d : dict string V) k k' v : dget d k = None -> dget d k' = Some v -> k' <> k.
Proof. intros E E' ->. congruence. Qed.

Lemma dmem_set {V} (d : dict string V) k v k' : dmem (dset d k v) k' = beq k' k || dmem d k'.
Proof. unfold dmem. rewrite dget_set. destruct (beq k' k); reflexivity. Qed.

Lemma inv_add_site s t : Inv t -> no_dash (s_id s) -> Inv (snd (add_site s t)).
Proof.
  intros HI Hs. unfold add_site. destruct (s_detected s); [exact HI|].
  destruct (dmem (t_sites t) (s_id s)) eqn:E; [exact HI|]. simpl.
  destruct HI; constructor; simpl; auto.
  - now apply dwf_set.
  - intros i s'. rewrite dget_set. destruct (beq_spec i (s_id s)) as [->|Hn]; [|auto].
    intros E'; inversion E'; subst; auto.
  - intros k l El. destruct (i_links0 k l El) as (H1 & H2 & H3 & H4).
    rewrite !dmem_set, H2, H3, !orb_true_r. auto.
  - intros i x Ex. destruct (i_sectors0 i x Ex) as (H1 & H2 & H3).
    rewrite dmem_set, H2, orb_true_r. auto.
Qed.

Lemma inv_add_demand d t : Inv t -> Inv (snd (add_demand d t)).
Proof. intros HI. destruct HI; constructor; simpl; auto. now apply dwf_set. Qed.
Lemma inv_remove_demand i t : Inv t -> Inv (snd (remove_demand i t)).
Proof.
  intros HI. unfold remove_demand. destruct (dmem (t_demands t) i); [|exact HI].
  destruct HI; constructor; simpl; auto. now apply dwf_del.
Qed.

Lemma inv_add_sector x t : Inv t -> Inv (snd (add_sector x t)).
Proof.
  intros HI. unfold add_sector. destruct (dmem (t_sectors t) (x_id x)) eqn:Ex; [exact HI|].
  destruct (dmem (t_sites t) (x_site x)) eqn:Es; [|exact HI]. simpl.
  pose proof (site_no_dash t _ HI Es) as Hnd.
  destruct HI; constructor; simpl; auto; try now apply dwf_set.
  - intros i y. rewrite dget_set. destruct (beq_spec i (x_id x)) as [->|Hn].
    + intros E'; inversion E'; subst. rewrite row_set_eq. split; [auto|split; [auto|]].
      apply sadd_In; auto.
    + intros Ey. destruct (i_sectors0 i y Ey) as (H1 & H2 & H3). split; [auto|split; [auto|]].
      destruct (eqb_dec (x_site y) (x_site x)) as [He|Hne].
      * rewrite He, row_set_eq. apply sadd_In. right. now rewrite <- He.
      * now rewrite row_set_neq.
  - intros s i. destruct (eqb_dec s (x_site x)) as [->|Hne].
    + rewrite row_set_eq, sadd_In. intros [->|Hi].
      * split; [exact Hnd|]. exists (x_key x). auto.
      * apply i_secidx0 in Hi. exact Hi.
    + rewrite row_set_neq; auto.
  - intros s. destruct (eqb_dec s (x_site x)) as [->|Hne].
    + rewrite row_set_eq. apply sadd_NoDup; auto.
    + rewrite row_set_neq; auto.
Qed.

Lemma old_link_id t l k l0 : Inv t -> dmem (t_sites t) (l_tx l) = true ->
  dget (t_links t) k = Some l0 -> k = l_id l -> l_tx l0 = l_tx l /\ l_rx l0 = l_rx l.
Proof.
  intros HI Hm E ->. destruct (i_links t HI _ _ E) as (H1 & H2 & _ & _).
  apply link_id_inj; [now apply (site_no_dash t)|now apply (site_no_dash t)|now symmetry].
Qed.

Lemma inv_add_link l t : Inv t -> link_args_ok l -> Inv (snd (add_link l t)).
Proof.
  intros HI Hl. unfold add_link.
  destruct (dmem (t_sites t) (l_tx l)) eqn:Etx; [|exact HI].
  destruct (dmem (t_sites t) (l_rx l)) eqn:Erx; [|exact HI]. simpl.
  pose proof (fun k l0 => old_link_id t l k l0 HI Etx) as Hold.
  assert (Hkey : forall a b k (P : Prop),
     (a = l_tx l /\ b = l_rx l -> (P <-> Some (l_id l) = Some k)) ->
     (~ (a = l_tx l /\ b = l_rx l) ->
        (P <-> exists l0, dget (t_links t) k = Some l0 /\ l_tx l0 = a /\ l_rx l0 = b)) ->
     (P <-> exists l0, dget (dset (t_links t) (l_id l) l) k = Some l0 /\ l_tx l0 = a /\ l_rx l0 = b)).
  { intros a b k P H1 H2.
    destruct (eqb_dec (a, b) (l_tx l, l_rx l)) as [He|Hne].
    - inversion He; subst. rewrite H1; auto. split.
      + intros E; inversion E; subst. exists l. rewrite dget_set_eq. auto.
      + intros (l0 & E0 & Ht & Hr). rewrite dget_set in E0.
        destruct (beq_spec k (l_id l)) as [->|Hn]; [reflexivity|].
        destruct (i_links t HI _ _ E0) as (Hk & _). exfalso. apply Hn. rewrite Hk. unfold l_id. congruence.
    - assert (Hne' : ~ (a = l_tx l /\ b = l_rx l)) by (intros [-> ->]; auto).
      rewrite H2; auto. split; intros (l0 & E0 & Ht & Hr).
      + exists l0. split; [|auto]. rewrite dget_set. destruct (beq_spec k (l_id l)) as [Hk|Hn]; [|auto].
        exfalso. apply Hne'. destruct (Hold _ _ E0 Hk). split; congruence.
      + exists l0. split; [|auto]. rewrite dget_set in E0.
        destruct (beq_spec k (l_id l)) as [Hk|Hn]; [|auto].
        inversion E0; subst. exfalso. auto. }
  destruct HI as [H1 H2 H3 H4 H5 H6 H7 H8 H9 H10 H11 H12 H13 H14].
  constructor; simpl; auto; try now apply dwf_set; try now apply wf2_set2.
  - now apply wf2_set2.
  - now apply wf2_set2.
  - intros k l0. rewrite dget_set. destruct (beq_spec k (l_id l)) as [->|Hn]; [|auto].
    intros E; inversion E; subst; auto.
  - intros a b k. apply Hkey; rewrite get2_set2.
    + intros [-> ->]. rewrite !beq_refl. simpl. reflexivity.
    + intros Hn. destruct (beq_spec a (l_tx l)); destruct (beq_spec b (l_rx l)); simpl;
        try apply H10. tauto.
  - intros a b k. apply Hkey; rewrite get2_set2.
    + intros [-> ->]. rewrite !beq_refl. simpl. reflexivity.
    + intros Hn. destruct (beq_spec a (l_tx l)); destruct (beq_spec b (l_rx l)); simpl;
        try apply H11. tauto.
Qed.

(** What [remove_link] does on a well-formed store. *)
Lemma remove_link_spec k t : Inv t ->
  match dget (t_links t) k with
  | None => remove_link k t = (Err PlannerExn, t)
  | Some l => exists t', remove_link k t = (Ok tt, t') /\ Inv t' /\
      t_links t' = ddel (t_links t) k /\ t_sites t' = t_sites t /\ t_sectors t' = t_sectors t /\
      t_demands t' = t_demands t /\ t_secidx t' = t_secidx t
  end.
Proof.
  intros HI. unfold remove_link. destruct (dget (t_links t) k) as [l|] eqn:El; [|reflexivity].
  assert (Hc : get2 (t_conn t) (l_tx l) (l_rx l) = Some k) by (apply (i_conn t HI); eauto).
  assert (Hr : get2 (t_rconn t) (l_rx l) (l_tx l) = Some k) by (apply (i_rconn t HI); eauto).
  destruct (del2 (t_conn t) (l_tx l) (l_rx l)) as [c|] eqn:Ec;
    [|apply del2_None in Ec; congruence]. simpl.
  destruct (del2 (t_rconn t) (l_rx l) (l_tx l)) as [r|] eqn:Er;
    [|apply del2_None in Er; congruence].
  eexists. split; [reflexivity|]. split; [|simpl; auto].
  apply del2_Some in Ec. destruct Ec as (Hwc & _ & Hgc).
  apply del2_Some in Er. destruct Er as (Hwr & _ & Hgr).
  assert (Hkey : forall a b k' (P : Prop),
     (a = l_tx l /\ b = l_rx l -> (P <-> None = Some k')) ->
     (~ (a = l_tx l /\ b = l_rx l) ->
        (P <-> exists l0, dget (t_links t) k' = Some l0 /\ l_tx l0 = a /\ l_rx l0 = b)) ->
     (P <-> exists l0, dget (ddel (t_links t) k) k' = Some l0 /\ l_tx l0 = a /\ l_rx l0 = b)).
  { intros a b k' P H1 H2. destruct (eqb_dec (a, b) (l_tx l, l_rx l)) as [He|Hne].
    - inversion He; subst. rewrite H1; auto. split; [discriminate|].
      intros (l0 & E0 & Ht & Hrx). rewrite dget_del in E0. destruct (beq_spec k' k); [discriminate|].
      destruct (link_unique t k l k' l0); auto. congruence.
    - assert (Hne' : ~ (a = l_tx l /\ b = l_rx l)) by (intros [-> ->]; auto).
      rewrite H2; auto. split; intros (l0 & E0 & Ht & Hrx).
      + exists l0. rewrite dget_del. destruct (beq_spec k' k) as [->|Hn]; [|auto].
        exfalso. apply Hne'. rewrite El in E0. inversion E0; subst. auto.
      + exists l0. rewrite dget_del in E0. destruct (beq_spec k' k); [discriminate|auto]. }
  destruct HI as [H1 H2 H3 H4 H5 H6 H7 H8 H9 H10 H11 H12 H13 H14].
  constructor; simpl; auto; try now apply dwf_del.
  - intros k' l'. rewrite dget_del. destruct (beq k' k); [discriminate|auto].
  - intros a b k'. apply Hkey; rewrite Hgc.
    + intros [-> ->]. rewrite !beq_refl. simpl. reflexivity.
    + intros Hn. destruct (beq_spec a (l_tx l)); destruct (beq_spec b (l_rx l)); simpl; try apply H10. tauto.
  - intros a b k'. apply Hkey; rewrite Hgr.
    + intros [-> ->]. rewrite !beq_refl. simpl. reflexivity.
    + intros Hn. destruct (beq_spec a (l_tx l)); destruct (beq_spec b (l_rx l)); simpl; try apply H11. tauto.
Qed.

Lemma inv_remove_link k t : Inv t -> Inv (snd (remove_link k t)).
Proof.
  intros HI. pose proof (remove_link_spec k t HI) as Hs.
  destruct (dget (t_links t) k).
  - destruct Hs as (t' & -> & HI' & _). exact HI'.
  - now rewrite Hs.
Qed.

(** Everything but links and neighbour indexes untouched. *)
Definition same_but_links (t t' : topo) : Prop :=
  t_sites t' = t_sites t /\ t_sectors t' = t_sectors t /\ t_demands t' = t_demands t /\ t_secidx t' = t_secidx t.

Lemma remove_links_inv ids : forall t, Inv t ->
  Inv (snd (remove_links ids t)) /\ same_but_links t (snd (remove_links ids t)).
Proof.
  induction ids as [|k r IH]; intros t HI; simpl; [split; [auto|now repeat split]|].
  pose proof (remove_link_spec k t HI) as Hs. destruct (dget (t_links t) k) as [l|].
  - destruct Hs as (t' & -> & HI' & _ & Hs). unfold andthen; simpl.
    destruct (IH t' HI') as [Ha Hb]. split; [exact Ha|].
    destruct Hs as (E1 & E2 & E3 & E4). destruct Hb as (B1 & B2 & B3 & B4).
    unfold same_but_links. repeat split; congruence.
  - rewrite Hs. unfold andthen; simpl. split; [auto|now repeat split].
Qed.

Lemma remove_links_ok ids : forall t, Inv t ->
  (fst (remove_links ids t) = Ok tt <-> NoDup ids /\ forall k, In k ids -> dmem (t_links t) k = true) /\
  (fst (remove_links ids t) = Ok tt ->
     forall k, dget (t_links (snd (remove_links ids t))) k = if mem k ids then None else dget (t_links t) k).
Proof.
  induction ids as [|k r IH]; intros t HI; simpl.
  - split; [|auto]. split; [intros _; split; [constructor|tauto]|auto].
  - pose proof (remove_link_spec k t HI) as Hs. destruct (dget (t_links t) k) as [l|] eqn:El.
    + destruct Hs as (t' & -> & HI' & El' & _). unfold andthen; simpl.
      destruct (IH t' HI') as [Ha Hb]. split.
      * rewrite Ha. split.
        -- intros [Hn Hall]. split.
           ++ constructor; [|exact Hn]. intros Hin. specialize (Hall k Hin).
              apply dmem_Some in Hall. destruct Hall as [v E]. rewrite El', dget_del_eq in E. discriminate.
           ++ intros k' [<-|Hin]; [apply dmem_Some; eauto|]. specialize (Hall k' Hin).
              apply dmem_Some in Hall. destruct Hall as [v E]. rewrite El', dget_del in E.
              apply dmem_Some. destruct (beq k' k); [discriminate|eauto].
        -- intros [Hn Hall]. inversion Hn as [|? ? Hk Hr]; subst. split; [exact Hr|].
           intros k' Hin. specialize (Hall k' (or_intror Hin)). apply dmem_Some in Hall. destruct Hall as [v E].
           apply dmem_Some. exists v. rewrite El', dget_del.
           destruct (beq_spec k' k) as [->|]; [tauto|exact E].
      * intros Hok k'. rewrite Hb by exact Hok. rewrite El', dget_del.
        destruct (beq k' k); simpl; [now destruct (mem k' r)|reflexivity].
    + rewrite Hs. unfold andthen; simpl. split; [|discriminate].
      split; [discriminate|]. intros [_ Hall]. specialize (Hall k (or_introl eq_refl)).
      apply dmem_Some in Hall. destruct Hall; congruence.
Qed.

(** Deleting sectors. *)
Definition same_but_sectors (t t' : topo) : Prop :=
  t_sites t' = t_sites t /\ t_links t' = t_links t /\ t_demands t' = t_demands t /\ t_secidx t' = t_secidx t /\
  t_conn t' = t_conn t /\ t_rconn t' = t_rconn t.

Lemma inv_del_sector i t : Inv t -> Inv (set_sectors t (ddel (t_sectors t) i)).
Proof.
  intros HI. destruct HI as [H1 H2 H3 H4 H5 H6 H7 H8 H9 H10 H11 H12 H13 H14].
  constructor; simpl; auto; try now apply dwf_del.
  intros j x. rewrite dget_del. destruct (beq j i); [discriminate|auto].
Qed.

Lemma del_sectors_inv ids : forall t, Inv t ->
  Inv (snd (del_sectors ids t)) /\ same_but_sectors t (snd (del_sectors ids t)).
Proof.
  induction ids as [|i r IH]; intros t HI; simpl; [split; [auto|now repeat split]|].
  destruct (dmem (t_sectors t) i); simpl; [|split; [auto|now repeat split]].
  destruct (IH _ (inv_del_sector i t HI)) as [Ha Hb]. split; [exact Ha|].
  destruct Hb as (B1 & B2 & B3 & B4 & B5 & B6). repeat split; auto.
Qed.

Lemma del_sectors_ok ids : forall t, NoDup ids ->
  (fst (del_sectors ids t) = Ok tt <-> forall k, In k ids -> dmem (t_sectors t) k = true) /\
  (fst (del_sectors ids t) = Ok tt ->
     forall k, dget (t_sectors (snd (del_sectors ids t))) k = if mem k ids then None else dget (t_sectors t) k) /\
  (fst (del_sectors ids t) <> Ok tt -> fst (del_sectors ids t) = Err PyKeyError).
Proof.
  induction ids as [|i r IH]; intros t Hn; simpl.
  - split; [|split; [auto|congruence]]. split; [intros _; tauto|auto].
  - inversion Hn as [|? ? Hi Hr]; subst. destruct (dmem (t_sectors t) i) eqn:Em.
    + destruct (IH (set_sectors t (ddel (t_sectors t) i)) Hr) as (Ha & Hb & Hc). split; [|split].
      * rewrite Ha. simpl. split.
        -- intros Hall k [<-|Hin]; [exact Em|]. specialize (Hall k Hin). apply dmem_Some in Hall.
           destruct Hall as [v E]. rewrite dget_del in E. apply dmem_Some.
           destruct (beq k i); [discriminate|eauto].
        -- intros Hall k Hin. pose proof (Hall k (or_intror Hin)) as Hk. apply dmem_Some in Hk.
           destruct Hk as [v E]. apply dmem_Some. exists v. rewrite dget_del.
           destruct (beq_spec k i) as [->|]; [tauto|exact E].
      * intros Hok k. rewrite Hb by exact Hok. simpl. rewrite dget_del.
        destruct (beq k i); simpl; [now destruct (mem k r)|reflexivity].
      * exact Hc.
    + simpl. split; [|split; [discriminate|reflexivity]]. split; [discriminate|].
      intros Hall. rewrite Hall in Em by auto. discriminate.
Qed.

Lemma inv_touch i t : Inv t -> Inv (touch_secidx i t).
Proof.
  intros HI. unfold touch_secidx. destruct (dmem (t_secidx t) i) eqn:E; [exact HI|].
  assert (Hrow : forall s, row (dset (t_secidx t) i []) s = row (t_secidx t) s).
  { intros s. destruct (eqb_dec s i) as [->|Hn]; [|now apply row_set_neq].
    rewrite row_set_eq. unfold row. apply dmem_None in E. now rewrite E. }
  destruct HI as [H1 H2 H3 H4 H5 H6 H7 H8 H9 H10 H11 H12 H13 H14].
  constructor; simpl; auto; try now apply dwf_set.
  - intros j x Ex. rewrite Hrow. auto.
  - intros s j. rewrite Hrow. auto.
  - intros s. rewrite Hrow. auto.
Qed.
Lemma touch_row i t s : row (t_secidx (touch_secidx i t)) s = row (t_secidx t) s.
Proof.
  unfold touch_secidx. destruct (dmem (t_secidx t) i) eqn:E; [reflexivity|]. simpl.
  destruct (eqb_dec s i) as [->|Hn]; [|now apply row_set_neq].
  rewrite row_set_eq. unfold row. apply dmem_None in E. now rewrite E.
Qed.
Lemma touch_same i t : t_sites (touch_secidx i t) = t_sites t /\ t_sectors (touch_secidx i t) = t_sectors t /\
  t_links (touch_secidx i t) = t_links t /\ t_demands (touch_secidx i t) = t_demands t /\
  t_conn (touch_secidx i t) = t_conn t /\ t_rconn (touch_secidx i t) = t_rconn t.
Proof. unfold touch_secidx. destruct (dmem (t_secidx t) i); simpl; repeat split; auto. Qed.

(** The link ids collected by [remove_site] are those of the links touching the site. *)
Lemma In_row_vals c i k : wf2 c -> (In k (dvals (row c i)) <-> exists b, get2 c i b = Some k).
Proof. intros Hw. unfold get2. now rewrite In_dvals by now apply wf2_row. Qed.

Lemma collected_links t i k : Inv t ->
  (In k (dvals (row (t_conn t) i) ++ dvals (row (t_rconn t) i)) <->
   exists l, dget (t_links t) k = Some l /\ touches l i).
Proof.
  intros HI. rewrite in_app_iff, !In_row_vals by apply HI. unfold touches. split.
  - intros [[b E]|[b E]].
    + apply (i_conn t HI) in E. destruct E as (l & E & Ht & Hr). eauto.
    + apply (i_rconn t HI) in E. destruct E as (l & E & Ht & Hr). eauto.
  - intros (l & E & [H|H]).
    + left. exists (l_rx l). apply (i_conn t HI). eauto.
    + right. exists (l_tx l). apply (i_rconn t HI). eauto.
Qed.

Lemma NoDup_vals_inj (d : dict string string) : dwf d ->
  (forall a b k, dget d a = Some k -> dget d b = Some k -> a = b) -> NoDup (dvals d).
Proof.
  intros Hw Hi. unfold dwf in Hw. induction d as [|[a v] r IH]; simpl; [constructor|].
  inversion Hw as [|? ? Ha Hr]; subst. constructor.
  - intros Hin. apply (In_dvals r v Hr) in Hin. destruct Hin as [b Eb].
    assert (Hab : b <> a).
    { intros ->. apply Ha. simpl. apply In_dkeys. eauto. }
    apply Hab. apply Hi with (k := v); simpl.
    + destruct (beq_spec b a); [congruence|exact Eb].
    + rewrite beq_refl. reflexivity.
  - apply IH; [exact Hr|]. intros b c k Eb Ec.
    assert (Hb : b <> a). { intros ->. apply Ha. simpl. apply In_dkeys. eauto. }
    assert (Hc : c <> a). { intros ->. apply Ha. simpl. apply In_dkeys. eauto. }
    apply Hi with (k := k); simpl.
    + destruct (beq_spec b a); [congruence|exact Eb].
    + destruct (beq_spec c a); [congruence|exact Ec].
Qed.

Lemma NoDup_app_iff {A} (l1 l2 : list A) :
  NoDup (l1 ++ l2) <-> NoDup l1 /\ NoDup l2 /\ forall x, In x l1 -> ~ In x l2.
Proof.
  induction l1 as [|x l1 IH]; simpl.
  - split; [intros; repeat split; auto; constructor|tauto].
  - split.
    + intros Hn. inversion Hn as [|? ? Hx Hr]; subst. apply IH in Hr. destruct Hr as (H1 & H2 & H3).
      rewrite in_app_iff in Hx. split; [constructor; tauto|split; [exact H2|]].
      intros y [<-|Hy]; [tauto|auto].
    + intros (H1 & H2 & H3). inversion H1 as [|? ? Hx Hr]; subst. constructor.
      * rewrite in_app_iff. intros [H|H]; [tauto|]. now apply (H3 x (or_introl eq_refl)).
      * apply IH. repeat split; auto.
Qed.

Definition self_linked (t : topo) (i : string) : Prop := exists k l, dget (t_links t) k = Some l /\ l_tx l = i /\ l_rx l = i.

Lemma collected_nodup t i : Inv t ->
  (NoDup (dvals (row (t_conn t) i) ++ dvals (row (t_rconn t) i)) <-> ~ self_linked t i).
Proof.
  intros HI. rewrite NoDup_app_iff. split.
  - intros (_ & _ & Hd) (k & l & E & Ht & Hr). apply (Hd k).
    + apply In_row_vals; [apply HI|]. exists i. apply (i_conn t HI). eauto.
    + apply In_row_vals; [apply HI|]. exists i. apply (i_rconn t HI). eauto.
  - intros Hns. split; [|split].
    + apply NoDup_vals_inj; [apply wf2_row, HI|]. intros a b k Ea Eb.
      apply (i_conn t HI) in Ea. apply (i_conn t HI) in Eb.
      destruct Ea as (l & E & _ & Hr). destruct Eb as (l' & E' & _ & Hr'). congruence.
    + apply NoDup_vals_inj; [apply wf2_row, HI|]. intros a b k Ea Eb.
      apply (i_rconn t HI) in Ea. apply (i_rconn t HI) in Eb.
      destruct Ea as (l & E & Hr & _). destruct Eb as (l' & E' & Hr' & _). congruence.
    + intros k Hk1 Hk2. apply In_row_vals in Hk1; [|apply HI]. apply In_row_vals in Hk2; [|apply HI].
      destruct Hk1 as [b Hk1]. destruct Hk2 as [b' Hk2].
      apply (i_conn t HI) in Hk1. apply (i_rconn t HI) in Hk2.
      destruct Hk1 as (l & E & Ht & _). destruct Hk2 as (l' & E' & _ & Hr').
      apply Hns. exists k, l. split; [exact E|]. split; congruence.
Qed.

Lemma inv_del_site i t : Inv t ->
  (forall k l, dget (t_links t) k = Some l -> ~ touches l i) ->
  (forall k x, dget (t_sectors t) k = Some x -> x_site x <> i) ->
  Inv (set_sites t (ddel (t_sites t) i)).
Proof.
  intros HI Hl Hx. destruct HI as [H1 H2 H3 H4 H5 H6 H7 H8 H9 H10 H11 H12 H13 H14].
  constructor; simpl; auto; try now apply dwf_del.
  - intros j s. rewrite dget_del. destruct (beq j i); [discriminate|auto].
  - intros k l E. destruct (H9 k l E) as (A & B & C & D).
    specialize (Hl k l E). unfold touches in Hl. unfold dmem in *. rewrite !dget_del.
    destruct (beq_spec (l_tx l) i); [tauto|]. destruct (beq_spec (l_rx l) i); [tauto|]. auto.
  - intros k x E. destruct (H12 k x E) as (A & B & C). specialize (Hx k x E).
    unfold dmem in *. rewrite dget_del. destruct (beq_spec (x_site x) i); [tauto|auto].
Qed.

(** On a well-formed store, [remove_site] does the following. *)
Definition all_listed_stored (t : topo) (i : string) : Prop :=
  forall k, In k (row (t_secidx t) i) -> dmem (t_sectors t) k = true.

Lemma remove_site_spec i t : Inv t ->
  Inv (snd (remove_site i t)) /\
  (fst (remove_site i t) = Ok tt <->
     dmem (t_sites t) i = true /\ all_listed_stored t i /\ ~ self_linked t i) /\
  (fst (remove_site i t) = Ok tt ->
     let t' := snd (remove_site i t) in
     t_sites t' = ddel (t_sites t) i /\ t_demands t' = t_demands t /\
     (forall s, row (t_secidx t') s = row (t_secidx t) s) /\
     (forall k, dget (t_sectors t') k = if mem k (row (t_secidx t) i) then None else dget (t_sectors t) k) /\
     (forall k, dget (t_links t') k =
        if mem k (dvals (row (t_conn t) i) ++ dvals (row (t_rconn t) i)) then None else dget (t_links t) k)) /\
  (dmem (t_sites t) i = true -> ~ all_listed_stored t i -> fst (remove_site i t) = Err PyKeyError).
Proof.
  intros HI. remember (remove_site i t) as o eqn:Eo. unfold remove_site in Eo. cbv zeta in Eo.
  destruct (dmem (t_sites t) i) eqn:Es; simpl in Eo.
  2:{ subst o. simpl. split; [exact HI|]. split; [split; [discriminate|intros [? _]; discriminate]|].
      split; discriminate. }
  set (t0 := touch_secidx i t) in *.
  pose proof (inv_touch i t HI) as HI0. fold t0 in HI0.
  destruct (touch_same i t) as (T1 & T2 & T3 & T4 & T5 & T6). fold t0 in T1, T2, T3, T4, T5, T6.
  assert (Trow : forall s, row (t_secidx t0) s = row (t_secidx t) s) by (intros s; apply touch_row).
  rewrite (Trow i) in Eo.
  destruct (del_sectors_inv (row (t_secidx t) i) t0 HI0) as [HI1 Hsame1].
  destruct (del_sectors_ok (row (t_secidx t) i) t0 (i_secidx_nodup t HI i)) as (Hok1 & Hget1 & Herr1).
  destruct (del_sectors (row (t_secidx t) i) t0) as [r1 t1] eqn:E1. simpl in HI1, Hsame1, Hok1, Hget1, Herr1.
  assert (Hst : (forall k, In k (row (t_secidx t) i) -> dmem (t_sectors t0) k = true) <-> all_listed_stored t i).
  { unfold all_listed_stored. now rewrite T2. }
  rewrite Hst in Hok1. unfold andthen at 1 in Eo. simpl in Eo.
  destruct r1 as [[]|e1].
  2:{ subst o. simpl. split; [exact HI1|]. split; [|split].
      - split; [discriminate|]. intros (_ & Ha & _). apply Hok1 in Ha. discriminate.
      - discriminate.
      - intros _ _. apply Herr1. discriminate. }
  specialize (Hget1 eq_refl). destruct Hok1 as [Hls _]. specialize (Hls eq_refl).
  destruct Hsame1 as (S1 & S2 & S3 & S4 & S5 & S6).
  assert (Ec : t_conn t1 = t_conn t) by congruence.
  assert (Er : t_rconn t1 = t_rconn t) by congruence.
  assert (El : t_links t1 = t_links t) by congruence.
  rewrite Ec, Er in Eo.
  set (ids := dvals (row (t_conn t) i) ++ dvals (row (t_rconn t) i)) in *.
  destruct (remove_links_inv ids t1 HI1) as [HI2 Hsame2].
  destruct (remove_links_ok ids t1 HI1) as [Hok2 Hget2].
  assert (Hids : (NoDup ids /\ forall k, In k ids -> dmem (t_links t1) k = true) <-> ~ self_linked t i).
  { unfold ids. rewrite (collected_nodup t i HI). split; [tauto|]. intros Hn. split; [exact Hn|].
    intros k Hk. apply (collected_links t i k HI) in Hk. destruct Hk as (l & Hk & _).
    apply dmem_Some. rewrite El. eauto. }
  rewrite Hids in Hok2.
  destruct (remove_links ids t1) as [r2 t2] eqn:E2. simpl in HI2, Hsame2, Hok2, Hget2.
  unfold andthen in Eo. simpl in Eo. destruct r2 as [[]|e2]; simpl in Eo; subst o; simpl.
  - specialize (Hget2 eq_refl). destruct Hok2 as [Hns _]. specialize (Hns eq_refl).
    destruct Hsame2 as (Q1 & Q2 & Q3 & Q4).
    split; [|split; [|split]].
    + apply inv_del_site; [exact HI2| |].
      * intros k l Ek Ht. rewrite Hget2 in Ek. destruct (mem k ids) eqn:Em; [discriminate|].
        apply mem_not_In in Em. apply Em. apply (collected_links t i k HI). rewrite El in Ek. eauto.
      * intros k x Ek Hx. rewrite Q2, Hget1 in Ek.
        destruct (mem k (row (t_secidx t) i)) eqn:Em; [discriminate|]. apply mem_not_In in Em. apply Em.
        rewrite T2 in Ek. destruct (i_sectors t HI k x Ek) as (_ & _ & Hin). now rewrite Hx in Hin.
    + split; auto.
    + intros _. split; [now rewrite Q1, S1, T1|]. split; [congruence|]. split.
      * intros s. rewrite Q4, S4. apply Trow.
      * split; [intros k; rewrite Q2, Hget1, T2; reflexivity|].
        intros k. rewrite Hget2, El. reflexivity.
    + intros _ Hn. tauto.
  - split; [exact HI2|]. split; [|split].
    + split; [discriminate|]. intros (_ & _ & Hn). apply Hok2 in Hn. discriminate.
    + discriminate.
    + intros _ Hn. tauto.
Qed.

(** ** remove_sector *)
Definition same_but_linktab (t t' : topo) : Prop :=
  t_sites t' = t_sites t /\ t_sectors t' = t_sectors t /\ t_demands t' = t_demands t /\
  t_secidx t' = t_secidx t /\ t_conn t' = t_conn t /\ t_rconn t' = t_rconn t.

Lemma inv_clear k l t : Inv t -> dget (t_links t) k = Some l ->
  Inv (set_links t (dset (t_links t) k (clear_sectors l))).
Proof.
  intros HI E. destruct HI as [H1 H2 H3 H4 H5 H6 H7 H8 H9 H10 H11 H12 H13 H14].
  assert (Hx : forall a b k', (exists l0, dget (t_links t) k' = Some l0 /\ l_tx l0 = a /\ l_rx l0 = b) <->
     exists l0, dget (dset (t_links t) k (clear_sectors l)) k' = Some l0 /\ l_tx l0 = a /\ l_rx l0 = b).
  { intros a b k'. rewrite dget_set. destruct (beq_spec k' k) as [->|Hn]; [|reflexivity]. split.
    - intros (l0 & E0 & Ht & Hr). exists (clear_sectors l). rewrite E in E0. inversion E0; subst. auto.
    - intros (l0 & E0 & Ht & Hr). inversion E0; subst. exists l. auto. }
  constructor; simpl; auto; try now apply dwf_set.
  - intros k' l'. rewrite dget_set. destruct (beq_spec k' k) as [->|Hn]; [|auto].
    intros E'; inversion E'; subst. destruct (H9 k l E) as (A & B & C & D). unfold l_id in *. simpl.
    repeat split; auto.
  - intros a b k'. rewrite H10. apply Hx.
  - intros a b k'. rewrite H11. apply Hx.
Qed.

Lemma clear_all_spec uses ids : forall t, Inv t ->
  (forall k, In k ids -> dmem (t_links t) k = true) ->
  (forall l, uses (clear_sectors l) = false) ->
  fst (clear_all uses ids t) = Ok tt /\ Inv (snd (clear_all uses ids t)) /\
  same_but_linktab t (snd (clear_all uses ids t)) /\
  forall k, dget (t_links (snd (clear_all uses ids t))) k =
     match dget (t_links t) k with
     | Some l => Some (if mem k ids && uses l then clear_sectors l else l)
     | None => None
     end.
Proof.
  induction ids as [|k r IH]; intros t HI Hall Hu; simpl.
  - split; [reflexivity|]. split; [exact HI|]. split; [now repeat split|].
    intros k. destruct (dget (t_links t) k); reflexivity.
  - pose proof (Hall k (or_introl eq_refl)) as Hk. apply dmem_Some in Hk. destruct Hk as [l El].
    rewrite El. destruct (uses l) eqn:Eu.
    + pose proof (inv_clear k l t HI El) as HI'.
      destruct (IH _ HI') as (A & B & C & D); auto.
      { intros k' Hin. simpl. rewrite dmem_set, (Hall k' (or_intror Hin)). apply orb_true_r. }
      split; [exact A|]. split; [exact B|]. split.
      { destruct C as (C1 & C2 & C3 & C4 & C5 & C6). repeat split; auto. }
      intros k'. rewrite D. simpl. rewrite dget_set. destruct (beq_spec k' k) as [->|Hn]; simpl.
      * rewrite El, Hu, Eu, andb_false_r. reflexivity.
      * reflexivity.
    + destruct (IH t HI) as (A & B & C & D); [intros k' Hin; apply Hall; now right|exact Hu|].
      split; [exact A|]. split; [exact B|]. split; [exact C|].
      intros k'. rewrite D. destruct (beq_spec k' k) as [->|Hn]; simpl; [|reflexivity].
      rewrite El, Eu, andb_false_r. reflexivity.
Qed.

Definition uses_sector (i : string) (l : link) : bool := uses_tx i l || uses_rx i l.

Lemma remove_sector_spec i t : Inv t ->
  match dget (t_sectors t) i with
  | None => remove_sector i t = (Err TopologyExn, t)
  | Some x => fst (remove_sector i t) = Ok tt /\ Inv (snd (remove_sector i t)) /\
     let t' := snd (remove_sector i t) in
     t_sites t' = t_sites t /\ t_demands t' = t_demands t /\
     t_sectors t' = ddel (t_sectors t) i /\
     (forall s, row (t_secidx t') s = if beq s (x_site x) then discard i (row (t_secidx t) s) else row (t_secidx t) s) /\
     forall k, dget (t_links t') k =
        match dget (t_links t) k with
        | Some l => Some (if uses_sector i l then clear_sectors l else l)
        | None => None
        end
  end.
Proof.
  intros HI. remember (remove_sector i t) as o eqn:Eo. unfold remove_sector in Eo. cbv zeta in Eo.
  destruct (dget (t_sectors t) i) as [x|] eqn:Ex; [|exact Eo].
  destruct (i_sectors t HI i x Ex) as (Hid & Hsite & Hin). rewrite Hsite in Eo. simpl negb in Eo. cbv iota in Eo.
  pose proof (site_no_dash t _ HI Hsite) as Hnd.
  destruct (clear_all_spec (uses_tx i) (dvals (row (t_conn t) (x_site x))) t HI) as (A1 & B1 & C1 & D1).
  { intros k Hk. apply In_row_vals in Hk; [|apply HI]. destruct Hk as [b Hk]. apply (i_conn t HI) in Hk.
    destruct Hk as (l & El & _). apply dmem_Some; eauto. }
  { intros l; reflexivity. }
  destruct (clear_all (uses_tx i) (dvals (row (t_conn t) (x_site x))) t) as [r1 t1].
  simpl in A1, B1, C1, D1. subst r1. unfold andthen at 1 in Eo. simpl in Eo.
  destruct C1 as (C11 & C12 & C13 & C14 & C15 & C16).
  destruct (clear_all_spec (uses_rx i) (dvals (row (t_rconn t1) (x_site x))) t1 B1) as (A2 & B2 & C2 & D2).
  { intros k Hk. apply In_row_vals in Hk; [|apply B1]. destruct Hk as [b Hk]. apply (i_rconn t1 B1) in Hk.
    destruct Hk as (l & El & _). apply dmem_Some; eauto. }
  { intros l; reflexivity. }
  destruct (clear_all (uses_rx i) (dvals (row (t_rconn t1) (x_site x))) t1) as [r2 t2].
  simpl in A2, B2, C2, D2. subst r2.
  destruct C2 as (C21 & C22 & C23 & C24 & C25 & C26).
  unfold andthen in Eo. simpl in Eo. rewrite (touch_row (x_site x) t2 (x_site x)) in Eo.
  assert (Erow : row (t_secidx t2) (x_site x) = row (t_secidx t) (x_site x)) by congruence.
  rewrite Erow in Eo. destruct (mem i (row (t_secidx t) (x_site x))) eqn:Em;
    [|apply mem_not_In in Em; tauto]. subst o. simpl.
  split; [reflexivity|].
  pose proof (inv_touch (x_site x) t2 B2) as HI3.
  destruct (touch_same (x_site x) t2) as (T1 & T2 & T3 & T4 & T5 & T6).
  assert (Hrow' : forall s, row (t_secidx (touch_secidx (x_site x) t2)) s = row (t_secidx t) s).
  { intros s. rewrite touch_row. congruence. }
  assert (Hrows : forall s, row (dset (t_secidx (touch_secidx (x_site x) t2)) (x_site x)
                 (discard i (row (t_secidx t) (x_site x)))) s =
     if beq s (x_site x) then discard i (row (t_secidx t) s) else row (t_secidx t) s).
  { intros s. destruct (beq_spec s (x_site x)) as [->|Hn]; [apply row_set_eq|].
    rewrite row_set_neq; auto. }
  split.
  - remember (touch_secidx (x_site x) t2) as t3 eqn:Et3.
    destruct HI3 as [H1 H2 H3 H4 H5 H6 H7 H8 H9 H10 H11 H12 H13 H14].
    constructor; simpl; auto; try now apply dwf_del.
    + now apply dwf_set.
    + intros j y. rewrite dget_del. destruct (beq_spec j i) as [->|Hn]; [discriminate|].
      intros Ey. destruct (H12 j y Ey) as (P1 & P2 & P3). split; [exact P1|]. split; [exact P2|].
      rewrite Hrows. rewrite Hrow' in P3. destruct (beq (x_site y) (x_site x)); [|exact P3].
      apply discard_In. auto.
    + intros s j. rewrite Hrows. rewrite <- (Hrow' s). destruct (beq s (x_site x)); [|auto].
      rewrite discard_In. intros [Hj _]. auto.
    + intros s. rewrite Hrows. rewrite <- (Hrow' s). destruct (beq s (x_site x)); [|auto].
      apply NoDup_filter'. auto.
  - split; [congruence|]. split; [congruence|]. split; [congruence|]. split; [exact Hrows|].
    intros k. rewrite T3, D2, D1. destruct (dget (t_links t) k) as [l|] eqn:El; [|reflexivity]. f_equal.
    unfold uses_sector.
    destruct (i_links t HI k l El) as (Hk & Htx & Hrx & Harg).
    assert (Ht : uses_tx i l = true -> In k (dvals (row (t_conn t) (x_site x)))).
    { unfold uses_tx. unfold link_args_ok in Harg. destruct (l_sectors l) as [[a b]|]; [|discriminate].
      intros E. apply beq_true in E. destruct Harg as [Ha _].
      assert (Hs : k_site a = x_site x).
      { apply key_id_site_inj; [rewrite Ha; now apply (site_no_dash t)|exact Hnd|].
        rewrite E, Hid. reflexivity. }
      apply In_row_vals; [apply HI|]. exists (l_rx l). apply (i_conn t HI). exists l.
      split; [exact El|]. split; congruence. }
    assert (Hr : uses_rx i l = true -> In k (dvals (row (t_rconn t1) (x_site x)))).
    { rewrite C16. unfold uses_rx. unfold link_args_ok in Harg.
      destruct (l_sectors l) as [[a b]|]; [|discriminate].
      intros E. apply beq_true in E. destruct Harg as [_ Hb].
      assert (Hs : k_site b = x_site x).
      { apply key_id_site_inj; [rewrite Hb; now apply (site_no_dash t)|exact Hnd|].
        rewrite E, Hid. reflexivity. }
      apply In_row_vals; [apply HI|]. exists (l_tx l). apply (i_rconn t HI). exists l.
      split; [exact El|]. split; congruence. }
    destruct (uses_tx i l) eqn:Eut.
    + apply mem_In in Ht; [|reflexivity]. rewrite Ht. simpl. rewrite andb_false_r. reflexivity.
    + rewrite andb_false_r. simpl. destruct (uses_rx i l) eqn:Eur.
      * apply mem_In in Hr; [|reflexivity]. rewrite Hr. reflexivity.
      * rewrite andb_false_r. reflexivity.
Qed.

Lemma inv_remove_sector i t : Inv t -> Inv (snd (remove_sector i t)).
Proof.
  intros HI. pose proof (remove_sector_spec i t HI) as Hs. destruct (dget (t_sectors t) i).
  - tauto.
  - now rewrite Hs.
Qed.

(** ** sort *)
Lemma insert_by_perm {A} (lt : A -> A -> bool) x l : Permutation (insert_by lt x l) (x :: l).
Proof.
  induction l as [|y r IH]; simpl; [reflexivity|]. destruct (lt y x); [|reflexivity].
  rewrite IH. apply perm_swap.
Qed.
Lemma sort_by_perm {A} (lt : A -> A -> bool) l : Permutation (sort_by lt l) l.
Proof.
  induction l as [|x r IH]; simpl; [reflexivity|]. rewrite insert_by_perm. now constructor.
Qed.
Lemma dwf_perm {V} (d d' : dict string V) : Permutation d d' -> dwf d -> dwf d'.
Proof. unfold dwf, dkeys. intros Hp Hw. eapply Permutation_NoDup; [|exact Hw]. now apply Permutation_map. Qed.
Lemma dget_perm {V} (d d' : dict string V) k : Permutation d d' -> dwf d -> dget d k = dget d' k.
Proof.
  intros Hp Hw. assert (Hw' := dwf_perm d d' Hp Hw).
  destruct (dget d k) as [v|] eqn:E.
  - symmetry. apply In_dget; [exact Hw'|]. apply dget_In in E. eapply Permutation_in; eauto.
  - destruct (dget d' k) as [v|] eqn:E'; [|reflexivity]. apply dget_In in E'.
    apply Permutation_sym in Hp. eapply Permutation_in in E'; [|exact Hp]. apply In_dget in E'; [congruence|exact Hw].
Qed.
Lemma sort_dict_get {V} (d : dict string V) k : dwf d -> dget (sort_dict d) k = dget d k.
Proof. intros Hw. symmetry. apply dget_perm; [|exact Hw]. symmetry. apply sort_by_perm. Qed.
Lemma sort_dict_wf {V} (d : dict string V) : dwf d -> dwf (sort_dict d).
Proof. intros Hw. apply (dwf_perm d); [|exact Hw]. symmetry. apply sort_by_perm. Qed.
Lemma dget_map_vals {V W} (f : V -> W) (d : dict string V) k :
  dget (map (fun p => (fst p, f (snd p))) d) k = option_map f (dget d k).
Proof. induction d as [|[k1 v1] r IH]; simpl; [reflexivity|]. destruct (beq k k1); auto. Qed.
Lemma dwf_map_vals {V W} (f : V -> W) (d : dict string V) : dwf d -> dwf (map (fun p => (fst p, f (snd p))) d).
Proof. unfold dwf, dkeys. rewrite map_map. simpl. auto. Qed.

Lemma inv_sort t : Inv t -> Inv (sort_topo t).
Proof.
  intros HI. destruct HI as [H1 H2 H3 H4 H5 H6 H7 H8 H9 H10 H11 H12 H13 H14].
  constructor; simpl; auto; try now apply sort_dict_wf.
  - apply dwf_map_vals. now apply sort_dict_wf.
  - intros i s. rewrite sort_dict_get; auto.
  - intros k l. unfold dmem. rewrite !sort_dict_get by assumption. apply H9.
  - intros a b k. rewrite H10. split; intros (l & E & Hl); exists l; rewrite sort_dict_get in *; auto.
  - intros a b k. rewrite H11. split; intros (l & E & Hl); exists l; rewrite sort_dict_get in *; auto.
  - intros i x. unfold dmem. rewrite !sort_dict_get by assumption. apply H12.
Qed.

(** ** All histories *)
Lemma inv_run_op o t : op_ok o -> Inv t -> Inv (snd (run_op o t)).
Proof.
  intros Ho HI. destruct o; simpl in *.
  - now apply inv_add_site.
  - now apply remove_site_spec.
  - now apply inv_add_demand.
  - now apply inv_remove_demand.
  - now apply inv_add_sector.
  - now apply inv_remove_sector.
  - now apply inv_add_link.
  - now apply inv_remove_link.
  - now apply inv_sort.
Qed.
Lemma inv_run ops : forall t, Forall op_ok ops -> Inv t -> Inv (run ops t).
Proof.
  unfold run. induction ops as [|o r IH]; intros t Ho HI; simpl; [exact HI|].
  inversion Ho; subst. apply IH; [assumption|]. now apply inv_run_op.
Qed.
Lemma inv_reachable t : reachable t -> Inv t.
Proof. intros (ops & Ho & ->). apply inv_run; [exact Ho|apply inv_empty]. Qed.
