From Coq Require Import QArith ZArith Lqa Lia.
From Verif Require Import Base Dict QLib SumLib MonadLib SetupModel LosRangeModel TopologyModel TopologySpec TopologyProofs TopologyQueryProofs DeploySpec DeployProofs InterfModel InterfSpec InterfProofs.
Local Open Scope list_scope.

Notation gains := (dict string (dict string (dict string Q))).
Definition gget (m : gains) a b c : option Q := dget (row (row m a) b) c.
Lemma gget_set3 m a b c v a' b' c' : gget (set3 m a b c v) a' b' c' = if beq a' a && beq b' b && beq c' c then Some v else gget m a' b' c'.
Proof.
  unfold gget, set3. destruct (beq_spec a' a) as [->|H]; cbn [andb].
  - rewrite row_set_eq. destruct (beq_spec b' b) as [->|H]; cbn [andb].
    + rewrite row_set_eq. destruct (beq_spec c' c) as [->|H]; [apply dget_set_eq|now apply dget_set_neq].
    + now rewrite row_set_neq.
  - now rewrite row_set_neq.
Qed.
Definition wf3 (m : gains) : Prop := forall a, dwf (row m a) /\ forall b, dwf (row (row m a) b).
Lemma wf3_set3 m a b c v : wf3 m -> wf3 (set3 m a b c v).
Proof.
  intros W a'. unfold set3. destruct (beq_spec a' a) as [->|H].
  - rewrite row_set_eq. split; [apply dwf_set, W|]. intros b'. destruct (beq_spec b' b) as [->|H].
    + rewrite row_set_eq. apply dwf_set, W.
    + rewrite row_set_neq by exact H. apply W.
  - rewrite row_set_neq by exact H. apply W.
Qed.

Section Gains.
Variables (channel : string -> Z) (redundant : string -> bool) (gain : string -> string -> string -> Q) (t : topo).
Definition loud (k : string) : bool := match dget (t_links t) k with Some i => negb (silent i) | None => false end.
Definition tx_hit (prx from : string) (q : string * string) : bool := negb (beq (fst q) prx) && negb (beq (fst q) from) && loud (snd q).
Lemma tx_fold path prx from v L : forall m m', foldM (tx_step gain t path prx from v) m L = Ok m' -> (wf3 m -> wf3 m') /\
  forall a b c, gget m' a b c = if beq a path && beq b v && existsb (fun q => tx_hit prx from q && beq c (snd q)) L then Some (gain path v c) else gget m a b c.
Proof.
  induction L as [|q L IH]; intros m m' E; cbn [foldM] in E.
  - injection E as <-. split; [auto|]. intros a b c. cbn [existsb]. now rewrite andb_false_r.
  - apply rbind_ok in E. destruct E as (m1 & E1 & E). destruct (IH _ _ E) as [W G].
    assert (S1 : (wf3 m -> wf3 m1) /\ forall a b c, gget m1 a b c = if beq a path && beq b v && (tx_hit prx from q && beq c (snd q)) then Some (gain path v (snd q)) else gget m a b c).
    { unfold tx_step in E1. unfold tx_hit, loud. destruct (beq (fst q) prx); cbn [negb andb] in *.
      { injection E1 as <-. split; [auto|]. intros a b c. now rewrite andb_false_r. }
      destruct (beq (fst q) from); cbn [negb andb] in *.
      { injection E1 as <-. split; [auto|]. intros a b c. now rewrite andb_false_r. }
      apply rbind_ok in E1. destruct E1 as (i & Ei & E1). apply get_ok in Ei. rewrite Ei. destruct (silent i); cbn [negb andb].
      { injection E1 as <-. split; [auto|]. intros a b c. now rewrite andb_false_r. }
      injection E1 as <-. split; [apply wf3_set3|]. intros a b c. now rewrite gget_set3. }
    destruct S1 as [W1 G1]. split; [auto|]. intros a b c. rewrite G, G1. cbn [existsb].
    destruct (beq a path && beq b v); cbn [andb]; [|reflexivity].
    destruct (existsb _ L) eqn:Ex; [now rewrite orb_true_r|]. rewrite orb_false_r.
    destruct (tx_hit prx from q); cbn [andb]; [|reflexivity]. destruct (beq_spec c (snd q)) as [->|]; reflexivity.
Qed.
Definition rx_hit (ptx : string) (q : string * string) : bool := negb (beq (fst q) ptx) && loud (snd q).
Definition hit2 (ptx prx : string) (txl rxl : list (string * string)) (b c : string) : bool :=
  existsb (fun r => rx_hit ptx r && beq b (snd r) && existsb (fun q => tx_hit prx (fst r) q && beq c (snd q)) txl) rxl.
Lemma rx_fold path ptx prx txl R : forall m m', foldM (rx_step gain t path ptx prx txl) m R = Ok m' -> (wf3 m -> wf3 m') /\
  forall a b c, gget m' a b c = if beq a path && hit2 ptx prx txl R b c then Some (gain path b c) else gget m a b c.
Proof.
  induction R as [|r R IH]; intros m m' E; cbn [foldM] in E.
  - injection E as <-. split; [auto|]. intros a b c. cbn [hit2 existsb]. now rewrite andb_false_r.
  - apply rbind_ok in E. destruct E as (m1 & E1 & E). destruct (IH _ _ E) as [W G].
    assert (S1 : (wf3 m -> wf3 m1) /\ forall a b c, gget m1 a b c = if beq a path && (rx_hit ptx r && beq b (snd r) && existsb (fun q => tx_hit prx (fst r) q && beq c (snd q)) txl) then Some (gain path b c) else gget m a b c).
    { unfold rx_step in E1. unfold rx_hit, loud. destruct (beq (fst r) ptx); cbn [negb andb] in *.
      { injection E1 as <-. split; [auto|]. intros a b c. now rewrite andb_false_r. }
      apply rbind_ok in E1. destruct E1 as (i & Ei & E1). apply get_ok in Ei. rewrite Ei. destruct (silent i); cbn [negb andb].
      { injection E1 as <-. split; [auto|]. intros a b c. now rewrite andb_false_r. }
      apply tx_fold in E1. destruct E1 as [W1 G1]. split; [exact W1|]. intros a b c. rewrite G1.
      destruct (beq a path); cbn [andb]; [|reflexivity]. destruct (beq_spec b (snd r)) as [->|]; reflexivity. }
    destruct S1 as [W1 G1]. split; [auto|]. intros a b c. rewrite G, G1. unfold hit2. cbn [existsb].
    destruct (beq a path); cbn [andb]; [|reflexivity].
    destruct (existsb _ R) eqn:Ex; [now rewrite orb_true_r|]. now rewrite orb_false_r.
Qed.
Lemma live_links_ok L : forall r, live_links redundant t L = Ok r -> r = filter (fun q => negb (redundant (snd q))) L.
Proof.
  induction L as [|q L IH]; intros r E; cbn [live_links] in E.
  - injection E as <-. reflexivity.
  - apply rbind_ok in E. destruct E as (i & _ & E). apply rbind_ok in E. destruct E as (r' & E' & E). injection E as <-. rewrite (IH _ E'). cbn [filter]. destruct (redundant (snd q)); reflexivity.
Qed.
Lemma filter_idem {A} (f : A -> bool) l : filter f (filter f l) = filter f l.
Proof. induction l as [|a l IH]; cbn [filter]; [reflexivity|]. destruct (f a) eqn:Ef; [cbn [filter]; rewrite Ef; congruence|exact IH]. Qed.

Definition live (q : string * string) : bool := negb (redundant (snd q)).
(** the verdict on one path *)
Definition admitted (cnp : dict string polarity) (l : link) : result bool :=
  if beq (l_type l) ETHERNET then Ok false
  else match l_sectors l with
  | None => Ok false
  | Some (a, b) =>
    do x <- get (t_sectors t) (key_id a) ;
    do y <- get (t_sectors t) (key_id b) ;
    if negb (active (x_status x)) then Ok false
    else if negb (active (x_status y)) then Ok false
    else do p <- compatible_polarity t cnp l ; if p then compatible_channel channel t l else Ok false
  end.
Definition ends (l : link) : string * string := match l_sectors l with Some (a, b) => (key_id a, key_id b) | None => (""%string, ""%string) end.
Definition adm (cnp : dict string polarity) (l : link) : bool := match admitted cnp l with Ok b => b | Err _ => false end.
Definition hit3 cnp (conn rev : dict string (dict string string)) (q : string * link) a b c : bool :=
  adm cnp (snd q) && beq a (l_id (snd q)) && hit2 (fst (ends (snd q))) (snd (ends (snd q))) (filter live (row conn (fst (ends (snd q))))) (row rev (snd (ends (snd q)))) b c.
Definition same_live (conn conn' : dict string (dict string string)) : Prop := forall a, filter live (row conn a) = filter live (row conn' a).
Variable conn0 : dict string (dict string string).
Variable rev : dict string (dict string string).
(** a reverse row of length at most one holds only the path itself *)
Definition has_self (l : link) : Prop := forall a b, l_sectors l = Some (a, b) -> exists k, In (key_id a, k) (row rev (key_id b)).
Lemma hit2_short ptx prx txl rxl b c : (List.length rxl <= 1)%nat -> (exists k, In (ptx, k) rxl) -> hit2 ptx prx txl rxl b c = false.
Proof.
  intros Hl [k Hk]. destruct rxl as [|r [|r' rxl]]; [destruct Hk| |cbn in Hl; lia]. destruct Hk as [->|[]]. unfold hit2, rx_hit. cbn [existsb fst snd]. rewrite beq_refl. reflexivity.
Qed.
Lemma hit2_nil ptx prx rxl b c : hit2 ptx prx [] rxl b c = false.
Proof. unfold hit2. induction rxl as [|r R IH]; [reflexivity|]. cbn [existsb]. rewrite andb_false_r. exact IH. Qed.
Lemma path_step_spec cnp s q s' : same_live (fst s) conn0 -> has_self (snd q) -> path_step channel redundant gain t cnp rev s q = Ok s' ->
  (exists b, admitted cnp (snd q) = Ok b) /\ same_live (fst s') conn0 /\ (wf3 (snd s) -> wf3 (snd s'))
  /\ forall a b c, gget (snd s') a b c = if hit3 cnp conn0 rev q a b c then Some (gain a b c) else gget (snd s) a b c.
Proof.
  intros SL HS E. destruct s as [conn m], q as [k l]. cbn [fst snd] in *. unfold path_step in E. cbn [snd] in E. unfold hit3, adm. cbn [snd].
  unfold admitted. unfold ends.
  destruct (beq (l_type l) ETHERNET). { injection E as <-. cbn [andb fst snd]. eauto 6. }
  destruct (l_sectors l) as [[ka kb]|] eqn:Es. 2:{ injection E as <-. cbn [andb fst snd]. eauto 6. }
  apply rbind_ok in E. destruct E as (x & Ex & E). rewrite Ex. apply rbind_ok in E. destruct E as (y & Ey & E). rewrite Ey. cbn [rbind].
  apply rbind_ok in E. destruct E as (ok & Eok & E). rewrite Eok. split; [eauto|].
  destruct ok; cbn [negb andb] in *. 2:{ injection E as <-. cbn [fst snd]. auto. }
  apply rbind_ok in E. destruct E as (txl & Etx & E). apply live_links_ok in Etx. cbn [fst snd].
  change (txl = filter live (row conn (key_id ka))) in Etx.
  assert (SL' : same_live (if dmem conn (key_id ka) then dset conn (key_id ka) txl else conn) conn0).
  { destruct (dmem conn (key_id ka)); [|exact SL]. intros a. destruct (beq_spec a (key_id ka)) as [->|H].
    - rewrite row_set_eq, Etx, filter_idem. apply SL.
    - rewrite row_set_neq by exact H. apply SL. }
  rewrite (SL (key_id ka)) in Etx. rewrite <- Etx.
  destruct (Nat.eqb_spec (List.length txl) 0) as [H0|H0].
  { injection E as <-. cbn [fst snd]. split; [exact SL'|]. split; [auto|]. intros a b c. apply length_zero_iff_nil in H0. rewrite H0, hit2_nil, andb_false_r. reflexivity. }
  destruct (Nat.leb_spec (List.length (row rev (key_id kb))) 1) as [H1|H1].
  { injection E as <-. cbn [fst snd]. split; [exact SL'|]. split; [auto|]. intros a b c. rewrite hit2_short, andb_false_r by (try exact H1; apply HS; exact Es). reflexivity. }
  apply rbind_ok in E. destruct E as (m1 & Em & E). injection E as <-. cbn [fst snd]. apply rx_fold in Em. destruct Em as [W G]. split; [exact SL'|]. split; [exact W|].
  intros a b c. rewrite G. destruct (beq_spec a (l_id l)) as [->|]; reflexivity.
Qed.
Lemma path_fold cnp D : (forall q, In q D -> has_self (snd q)) -> forall s s', same_live (fst s) conn0 -> foldM (path_step channel redundant gain t cnp rev) s D = Ok s' ->
  (forall q, In q D -> exists b, admitted cnp (snd q) = Ok b) /\ (wf3 (snd s) -> wf3 (snd s'))
  /\ forall a b c, gget (snd s') a b c = if existsb (fun q => hit3 cnp conn0 rev q a b c) D then Some (gain a b c) else gget (snd s) a b c.
Proof.
  induction D as [|q D IH]; intros HS s s' SL E; cbn [foldM] in E.
  - injection E as <-. cbn [existsb]. split; [intros q []|auto].
  - apply rbind_ok in E. destruct E as (s1 & E1 & E). destruct (path_step_spec _ _ _ _ SL (HS q (or_introl eq_refl)) E1) as (A & SL1 & W1 & G1).
    destruct (IH (fun q' H => HS q' (or_intror H)) _ _ SL1 E) as (A' & W & G). split; [intros q' [<-|H]; auto|]. split; [auto|].
    intros a b c. rewrite G, G1. cbn [existsb]. destruct (existsb _ D); [now rewrite orb_true_r|]. now rewrite orb_false_r.
Qed.
End Gains.
