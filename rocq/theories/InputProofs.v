(** Proofs for C30. *)
From Verif Require Import Base Dict TopologyModel SetupModel MonadLib InputModel InputSpec.
Local Open Scope string_scope.
Local Open Scope list_scope.

Section Proofs.
Context {P : Type} `{EqB P}.
Notation isite := (isite P).
Notation inputs := (inputs P).

Lemma with_sku_nonempty (s : isite) : with_sku s <> "".
Proof. unfold with_sku. destruct (name s); discriminate. Qed.
Lemma app_len a b : String.length (a ++ b) = (String.length a + String.length b)%nat.
Proof. induction a as [|c a IH]; [reflexivity|]. cbn. now rewrite IH. Qed.
Lemma with_sku_neq (s : isite) : with_sku s <> name s.
Proof. unfold with_sku. intros E. apply (f_equal String.length) in E. rewrite app_len in E. cbn in E. lia. Qed.
Lemma name_set (s : isite) n : n <> "" -> name (set_name s n) = n.
Proof. intros Hn. unfold name. cbn. destruct (beq_spec n ""); congruence. Qed.

Lemma nth_set {A} (l : list A) i a j : nth_error (set_nth l i a) j = if (Nat.eqb j i && (i <? List.length l)%nat)%bool then Some a else nth_error l j.
Proof.
  revert i j. induction l as [|b l IH]; intros i j; cbn [set_nth].
  - cbn. now rewrite Bool.andb_false_r.
  - destruct i as [|i]; cbn [set_nth List.length].
    + destruct j; reflexivity.
    + destruct j as [|j]; [reflexivity|]. cbn [nth_error]. rewrite IH. reflexivity.
Qed.
Lemma nth_set_eq {A} (l : list A) i a : (i < List.length l)%nat -> nth_error (set_nth l i a) i = Some a.
Proof. intros Hi. rewrite nth_set, Nat.eqb_refl. apply Nat.ltb_lt in Hi. now rewrite Hi. Qed.
Lemma nth_set_neq {A} (l : list A) i a j : j <> i -> nth_error (set_nth l i a) j = nth_error l j.
Proof. intros Hi. rewrite nth_set. apply Nat.eqb_neq in Hi. now rewrite Hi. Qed.
Lemma len_set {A} (l : list A) i a : List.length (set_nth l i a) = List.length l.
Proof. revert i. induction l as [|b l IH]; intros [|i]; cbn; auto. Qed.
Lemma nth_lt {A} (l : list A) i a : nth_error l i = Some a -> (i < List.length l)%nat.
Proof. intros E. apply nth_error_Some. congruence. Qed.
Lemma nth_app_l {A} (l m : list A) i : (i < List.length l)%nat -> nth_error (l ++ m) i = nth_error l i.
Proof. apply nth_error_app1. Qed.
Lemma nth_app_last {A} (l : list A) a : nth_error (l ++ [a]) (List.length l) = Some a.
Proof. rewrite nth_error_app2 by lia. now rewrite Nat.sub_diag. Qed.
Lemma nth_app_inv {A} (l : list A) a i b : nth_error (l ++ [a]) i = Some b -> nth_error l i = Some b \/ (i = List.length l /\ b = a).
Proof.
  intros E. destruct (Nat.lt_ge_cases i (List.length l)) as [Hi|Hi]; [left; now rewrite nth_app_l in E|right].
  pose proof (nth_lt _ _ _ E) as L. rewrite app_length in L. cbn in L. assert (i = List.length l) by lia. subst i. rewrite nth_app_last in E. split; [reflexivity|congruence].
Qed.

(** ** append_sku *)
Lemma append_spec sites names h (s : isite) : nth_error sites h = Some s -> exists N, append_sku (sites, names) h = (set_nth sites h (set_name s (with_sku s)), N) /\
  forall x, dget N x = if beq x (with_sku s) then Some h else if beq x (name s) then None else dget names x.
Proof.
  intros E. unfold append_sku. rewrite E. fold (with_sku s). rewrite (name_set s _ (with_sku_nonempty s)). eexists. split; [reflexivity|]. intros x. rewrite dget_set. destruct (beq x (with_sku s)); [reflexivity|].
  destruct (dmem names (name s)) eqn:M; [rewrite dget_del; reflexivity|]. destruct (beq_spec x (name s)) as [->|]; [|reflexivity]. unfold dmem in M. now destruct (dget names (name s)).
Qed.
Lemma but_name_refl (s : isite) : but_name s s. Proof. repeat split. Qed.
Lemma but_name_set (s t : isite) n : but_name s t -> but_name s (set_name t n).
Proof. intros (A & B & C & D & E). repeat split; assumption. Qed.
Lemma F2_nth {A B} (R : A -> B -> Prop) la lb : (Forall2 R la lb <-> List.length la = List.length lb /\ forall i a b, nth_error la i = Some a -> nth_error lb i = Some b -> R a b).
Proof.
  split.
  - intros F. induction F as [|a b la lb Hab F IH]; [split; [reflexivity|intros [|i] a b E; discriminate]|]. destruct IH as [L IH]. split; [cbn; congruence|]. intros [|i] x y Ex Ey; cbn in *; [congruence|eauto].
  - revert lb. induction la as [|a la IH]; intros [|b lb] [L Hi]; try discriminate; constructor; [apply (Hi O); reflexivity|]. apply IH. split; [now injection L|]. intros i. apply (Hi (S i)).
Qed.
Lemma but_name_set_nth k sites h (s : isite) n : Forall2 but_name k sites -> nth_error sites h = Some s -> Forall2 but_name k (set_nth sites h (set_name s n)).
Proof.
  rewrite !F2_nth, len_set. intros [L F] E. split; [exact L|]. intros i a b Ea Eb. rewrite nth_set in Eb. destruct (Nat.eqb_spec i h) as [->|]; cbn [andb] in Eb; [|eapply F; eauto].
  assert (X : (h <? List.length sites)%nat = true) by (apply Nat.ltb_lt; eapply nth_lt; eauto). rewrite X in Eb. injection Eb as <-. apply but_name_set. eapply F; eauto.
Qed.

(** ** copies *)
Definition fcs (l : list isite) : list isite := fold_left (fun k s => if mem (primary_key s) (map primary_key k) then k else k ++ [s]) l [].
Lemma same_key (s t : isite) : same_entry s t <-> primary_key s = primary_key t.
Proof. unfold same_entry, primary_key. split; [intros (-> & -> & -> & -> & ->); reflexivity|]. intros E. injection E. tauto. Qed.
Lemma fcs_snoc l s : fcs (l ++ [s]) = if mem (primary_key s) (map primary_key (fcs l)) then fcs l else fcs l ++ [s].
Proof. unfold fcs. rewrite fold_left_app. reflexivity. Qed.
Lemma fcs_keys l : forall q, In q (map primary_key (fcs l)) <-> In q (map primary_key l).
Proof.
  induction l as [|s l IH] using rev_ind; intros q; [reflexivity|]. rewrite fcs_snoc, map_app, in_app_iff. destruct (mem (primary_key s) (map primary_key (fcs l))) eqn:M.
  - rewrite IH. apply mem_In in M. rewrite IH in M. cbn. split; [tauto|]. intros [|[<-|[]]]; auto.
  - rewrite map_app, in_app_iff, IH. tauto.
Qed.
Lemma fcs_copies l : first_copies l (fcs l).
Proof.
  induction l as [|s l IH] using rev_ind; [constructor|]. rewrite fcs_snoc. destruct (mem (primary_key s) (map primary_key (fcs l))) eqn:M.
  - apply mem_In in M. rewrite fcs_keys in M. apply in_map_iff in M. destruct M as (t & E & Ht). eapply fc_old; [exact IH|exact Ht|]. apply same_key. congruence.
  - apply mem_not_In in M. rewrite fcs_keys in M. constructor; [exact IH|]. intros t Ht E. apply M. apply same_key in E. rewrite E. now apply in_map.
Qed.
Lemma fcs_app l m : exists k, fcs (l ++ m) = fcs l ++ k.
Proof.
  induction m as [|s m IH] using rev_ind; [exists []; now rewrite !app_nil_r|]. destruct IH as (k & IH). rewrite app_assoc, fcs_snoc, IH. destruct (mem _ _); [now exists k|]. exists (k ++ [s]). now rewrite app_assoc.
Qed.

(** ** the invariant *)
Definition skus_of (st : inputs) (n : string) : list string := match dget (in_skus st) n with Some l => l | None => [] end.
Definition named (n : string) (k : list isite) : list isite := filter (fun s => beq (name s) n) k.
Record inv (l : list isite) (st : inputs) : Prop := mkInv {
  v_keys : in_keys st = map primary_key (fcs l);
  v_sites : Forall2 but_name (fcs l) (in_sites st);
  v_skus : forall n, skus_of st n = map i_sku (named n (fcs l));
  v_nodup : forall n, NoDup (map i_sku (named n (fcs l)));
  v_names : forall n h, dget (in_names st) n = Some h -> exists s, nth_error (in_sites st) h = Some s /\ name s = n;
  v_there : forall n, List.length (named n (fcs l)) = 1%nat -> dget (in_names st) n <> None;
  v_ids : forall i h, dget (in_ids st) i = Some h -> exists s, nth_error (fcs l) h = Some s /\ i_id s = i /\ forall j t, (h < j)%nat -> nth_error (fcs l) j = Some t -> i_id t <> i;
  v_all : forall s, In s (fcs l) -> dget (in_ids st) (i_id s) <> None
}.
Lemma named_snoc n k s : named n (k ++ [s]) = named n k ++ if beq (name s) n then [s] else [].
Proof. unfold named. rewrite filter_app. cbn. now destruct (beq (name s) n). Qed.
Lemma inv_empty : inv [] empty_inputs.
Proof. constructor; cbn; try reflexivity; try discriminate; try contradiction; try constructor; intros; constructor. Qed.

(** the names after one more site *)
Definition names_inv (sites : list isite) (names : dict string nat) : Prop := forall n h, dget names n = Some h -> exists s, nth_error sites h = Some s /\ name s = n.
Lemma append_names sites names h s N : nth_error sites h = Some s -> names_inv sites names ->
  (forall x, dget N x = if beq x (with_sku s) then Some h else if beq x (name s) then None else dget names x) -> names_inv (set_nth sites h (set_name s (with_sku s))) N.
Proof.
  intros E V HN n j. rewrite HN. destruct (beq_spec n (with_sku s)) as [->|Hn].
  - intros X. injection X as <-. exists (set_name s (with_sku s)). split; [apply nth_set_eq; eapply nth_lt; eauto|apply name_set, with_sku_nonempty].
  - destruct (beq_spec n (name s)) as [->|Hn2]; [discriminate|]. intros X. destruct (V n j X) as (t & Et & Nt). exists t. split; [|exact Nt]. rewrite nth_set_neq; [exact Et|]. intros ->. rewrite E in Et. injection Et as <-. congruence.
Qed.

Lemma validate_spec sites skus names k (s : isite) :
  Forall2 but_name k sites -> (match dget skus (name s) with Some l => l | None => [] end) = map i_sku (named (name s) k) ->
  names_inv sites names -> (List.length (named (name s) k) = 1%nat -> dget names (name s) <> None) ->
  match validate_site_name (sites ++ [s]) skus names (List.length sites) s with
  | Err e => e = DataExn /\ In (i_sku s) (map i_sku (named (name s) k))
  | Ok (sites', skus', names') =>
    ~ In (i_sku s) (map i_sku (named (name s) k)) /\ skus' = dset skus (name s) (map i_sku (named (name s) k) ++ [i_sku s]) /\
    Forall2 but_name (k ++ [s]) sites' /\ names_inv sites' names' /\
    (named (name s) k = [] -> dget names' (name s) <> None) /\
    (forall n, n <> name s -> dget names n <> None -> dget names' n <> None)
  end.
Proof.
  intros F Hsk V T. unfold validate_site_name. rewrite Hsk. destruct (mem (i_sku s) (map i_sku (named (name s) k))) eqn:M; [apply mem_In in M; now split|]. apply mem_not_In in M.
  assert (F1 : Forall2 but_name (k ++ [s]) (sites ++ [s])) by (apply Forall2_app; [exact F|constructor; [apply but_name_refl|constructor]]).
  assert (V1 : names_inv (sites ++ [s]) names). { intros n h E. destruct (V n h E) as (t & Et & Nt). exists t. split; [|exact Nt]. rewrite nth_app_l; [exact Et|eapply nth_lt; eauto]. }
  assert (Hlast : nth_error (sites ++ [s]) (List.length sites) = Some s) by apply nth_app_last.
  rewrite map_length. destruct (Nat.eqb_spec (List.length (named (name s) k)) 1) as [E1|E1].
  - (* one other site *)
    specialize (T E1). destruct (dget names (name s)) as [h0|] eqn:E0; [|congruence]. destruct (V _ _ E0) as (s0 & Es0 & Ns0). pose proof (nth_lt _ _ _ Es0) as L0.
    assert (Es0' : nth_error (sites ++ [s]) h0 = Some s0) by (rewrite nth_app_l; assumption). destruct (append_spec (sites ++ [s]) names h0 s0 Es0') as (N1 & A1 & D1). rewrite A1. cbn [rbind].
    rewrite app_length, map_length, E1. change (1 <? 1 + List.length [i_sku s])%nat with true. cbv iota.
    assert (E2 : nth_error (set_nth (sites ++ [s]) h0 (set_name s0 (with_sku s0))) (List.length sites) = Some s) by (rewrite nth_set_neq by lia; exact Hlast).
    destruct (append_spec _ N1 _ s E2) as (N2 & A2 & D2). rewrite A2. split; [exact M|]. split; [reflexivity|]. split; [|split; [|split]].
    + apply but_name_set_nth; [|exact E2]. apply but_name_set_nth; assumption.
    + eapply append_names; [exact E2| |exact D2]. eapply append_names; [exact Es0'|exact V1|exact D1].
    + intros X. rewrite X in E1. discriminate.
    + intros n Hn Hd. rewrite D2. destruct (beq_spec n (with_sku s)); [discriminate|]. destruct (beq_spec n (name s)); [congruence|]. rewrite D1. destruct (beq_spec n (with_sku s0)); [discriminate|]. rewrite Ns0. destruct (beq_spec n (name s)); [congruence|exact Hd].
  - cbn [rbind]. rewrite app_length, map_length. destruct (named (name s) k) as [|u [|v r]] eqn:Ek; [| cbn in E1; lia|].
    + cbn. split; [exact M|]. split; [reflexivity|]. split; [exact F1|]. split; [|split].
      * intros n h. rewrite dget_set. destruct (beq_spec n (name s)) as [->|]; [|apply V1]. intros X. injection X as <-. exists s. now split.
      * intros _. rewrite dget_set_eq. discriminate.
      * intros n Hn Hd. rewrite dget_set_neq by congruence. exact Hd.
    + assert (X : (1 <? List.length (u :: v :: r) + List.length [i_sku s])%nat = true) by (apply Nat.ltb_lt; cbn; lia). rewrite X.
      destruct (append_spec _ names _ s Hlast) as (N2 & A2 & D2). rewrite A2. split; [exact M|]. split; [reflexivity|]. split; [apply but_name_set_nth; assumption|]. split; [|split].
      * eapply append_names; [exact Hlast|exact V1|exact D2].
      * discriminate.
      * intros n Hn Hd. rewrite D2. destruct (beq_spec n (with_sku s)); [discriminate|]. destruct (beq_spec n (name s)); [congruence|exact Hd].
Qed.

Lemma in_named n k (s : isite) : In s (named n k) <-> In s k /\ name s = n.
Proof. unfold named. rewrite filter_In. rewrite beq_eq. reflexivity. Qed.
Lemma clash_of k (s : isite) : In (i_sku s) (map i_sku (named (name s) k)) -> clash (k ++ [s]).
Proof.
  intros Hin. apply in_map_iff in Hin. destruct Hin as (t & E & Ht). apply in_named in Ht. destruct Ht as [Ht Nt]. apply In_nth_error in Ht. destruct Ht as (i & Ei). pose proof (nth_lt _ _ _ Ei) as L.
  exists i, (List.length k), t, s. split; [lia|]. split; [now rewrite nth_app_l|]. split; [apply nth_app_last|]. split; congruence.
Qed.
Lemma clash_app (k m : list isite) : clash k -> clash (k ++ m).
Proof. intros (i & j & s & t & Hij & Ei & Ej & E). exists i, j, s, t. split; [exact Hij|]. split; [rewrite nth_app_l by (eapply nth_lt; eauto); exact Ei|]. split; [rewrite nth_app_l by (eapply nth_lt; eauto); exact Ej|exact E]. Qed.
Lemma nodup_no_clash k : (forall n, NoDup (map i_sku (named n k))) -> ~ clash k.
Proof.
  intros N (i & j & s & t & Hij & Ei & Ej & En & Es). specialize (N (name s)). revert i j Hij Ei Ej N. induction k as [|a k IH]; intros i j Hij Ei Ej N; [destruct i; discriminate|].
  unfold named in N. cbn [filter] in N. fold (named (name s) k) in N.
  assert (X : forall u, In u k -> name u = name s -> name a = name s -> i_sku u <> i_sku a).
  { intros u Hu Nu Na. rewrite Na, beq_refl in N. cbn [map] in N. inversion N as [|? ? Hn _]; subst. intros E. apply Hn. rewrite <- E. apply in_map. apply in_named. now split. }
  assert (N' : NoDup (map i_sku (named (name s) k))) by (destruct (beq (name a) (name s)); [now inversion N|exact N]).
  destruct i as [|i], j as [|j]; cbn in Ei, Ej; [lia| | |].
  - injection Ei as ->. apply (X t); [eapply nth_error_In; eauto|congruence|reflexivity|congruence].
  - injection Ej as ->. apply (X s); [eapply nth_error_In; eauto|reflexivity|congruence|congruence].
  - apply (IH i j); auto.
Qed.

Lemma add_site_spec l st s : inv l st ->
  match add_site st s with
  | (st', None) => inv (l ++ [s]) st'
  | (st', Some e) => e = DataExn /\ clash (fcs (l ++ [s]))
  end.
Proof.
  intros V. unfold add_site. rewrite (v_keys _ _ V). rewrite fcs_snoc. destruct (mem (primary_key s) (map primary_key (fcs l))) eqn:M.
  - assert (E : fcs (l ++ [s]) = fcs l) by (rewrite fcs_snoc, M; reflexivity). destruct V. constructor; rewrite ?E; assumption.
  - assert (Ef : fcs (l ++ [s]) = fcs l ++ [s]) by (rewrite fcs_snoc, M; reflexivity).
    pose proof (validate_spec (in_sites st) (in_skus st) (in_names st) (fcs l) s (v_sites _ _ V) (v_skus _ _ V (name s)) (v_names _ _ V) (v_there _ _ V (name s))) as X.
    assert (Ls : List.length (in_sites st) = List.length (fcs l)) by (pose proof (proj1 (F2_nth _ _ _) (v_sites _ _ V)) as [L _]; congruence).
    destruct (validate_site_name _ _ _ _ _) as [[[sites' skus'] names']|e].
    + destruct X as (Hn & Hs & Hf & Hv & H1 & H2). constructor; rewrite ?Ef; cbn [in_keys in_sites in_skus in_names in_ids].
      * now rewrite map_app.
      * exact Hf.
      * intros n. unfold skus_of. cbn [in_skus]. rewrite Hs, dget_set, named_snoc, map_app. destruct (beq_spec n (name s)) as [->|Hd].
        -- rewrite beq_refl. reflexivity.
        -- destruct (beq_spec (name s) n); [congruence|]. rewrite app_nil_r. apply (v_skus _ _ V).
      * intros n. rewrite named_snoc, map_app. destruct (beq_spec (name s) n) as [<-|Hd]; [|rewrite app_nil_r; apply (v_nodup _ _ V)].
        cbn [map]. rewrite <- rev_involutive. apply NoDup_rev. rewrite rev_app_distr. cbn. constructor; [rewrite <- in_rev; exact Hn|]. apply NoDup_rev, (v_nodup _ _ V).
      * exact Hv.
      * intros n. rewrite named_snoc, app_length. destruct (beq_spec (name s) n) as [<-|Hd]; cbn [List.length]; intros L.
        -- apply H1. destruct (named (name s) (fcs l)); [reflexivity|cbn in L; lia].
        -- apply H2; [congruence|]. apply (v_there _ _ V). lia.
      * intros i h. rewrite dget_set. destruct (beq_spec i (i_id s)) as [->|Hd].
        -- intros X. injection X as <-. exists s. rewrite Ls. split; [apply nth_app_last|]. split; [reflexivity|]. intros j t Hj Ej. apply nth_lt in Ej. rewrite app_length in Ej. cbn in Ej. lia.
        -- intros X. destruct (v_ids _ _ V i h X) as (t & Et & It & Lt). exists t. pose proof (nth_lt _ _ _ Et) as Lh. split; [now rewrite nth_app_l|]. split; [exact It|]. intros j u Hj Ej. apply nth_app_inv in Ej. destruct Ej as [Ej|[-> ->]]; [eauto|congruence].
      * intros t Ht. rewrite dget_set. destruct (beq_spec (i_id t) (i_id s)); [discriminate|]. apply in_app_iff in Ht. destruct Ht as [Ht|[<-|[]]]; [now apply (v_all _ _ V)|congruence].
    + destruct X as [-> X]. split; [reflexivity|]. now apply clash_of.
Qed.
Lemma add_sites_spec m : forall l st, inv l st ->
  match add_sites st m with
  | Ok st' => inv (l ++ m) st'
  | Err e => e = DataExn /\ clash (fcs (l ++ m))
  end.
Proof.
  induction m as [|s m IH]; intros l st V; cbn [add_sites]; [now rewrite app_nil_r|]. pose proof (add_site_spec l st s V) as X. destruct (add_site st s) as [st' [e|]].
  - destruct X as [-> C]. split; [reflexivity|]. destruct (fcs_app (l ++ [s]) m) as (k & E). rewrite <- app_assoc in E. cbn in E. rewrite E. now apply clash_app.
  - specialize (IH (l ++ [s]) st' X). rewrite <- app_assoc in IH. exact IH.
Qed.

Lemma loaded l st : add_sites empty_inputs l = Ok st -> exists k, first_copies l k /\ ~ clash k /\ Forall2 but_name k (in_sites st).
Proof.
  intros E. pose proof (add_sites_spec l [] empty_inputs inv_empty) as X. rewrite E in X. cbn [app] in X. exists (fcs l). split; [apply fcs_copies|]. split; [apply nodup_no_clash, (v_nodup _ _ X)|exact (v_sites _ _ X)].
Qed.
Lemma rejected l e : add_sites empty_inputs l = Err e -> e = DataExn /\ exists k, first_copies l k /\ clash k.
Proof.
  intros E. pose proof (add_sites_spec l [] empty_inputs inv_empty) as X. rewrite E in X. cbn [app] in X. destruct X as [-> C]. split; [reflexivity|]. exists (fcs l). split; [apply fcs_copies|exact C].
Qed.
Lemma by_name_named l st n s : add_sites empty_inputs l = Ok st -> get_site_by_name st n = Some s -> In s (in_sites st) /\ name s = n.
Proof.
  intros E G. pose proof (add_sites_spec l [] empty_inputs inv_empty) as X. rewrite E in X. unfold get_site_by_name in G. destruct (dget (in_names st) n) as [h|] eqn:Eh; [|discriminate].
  destruct (v_names _ _ X n h Eh) as (t & Et & Nt). rewrite Et in G. injection G as <-. split; [eapply nth_error_In; eauto|exact Nt].
Qed.
Lemma by_id l st i : add_sites empty_inputs l = Ok st ->
  match get_site_by_id st i with
  | Some s => exists h, nth_error (in_sites st) h = Some s /\ i_id s = i /\ forall j t, (h < j)%nat -> nth_error (in_sites st) j = Some t -> i_id t <> i
  | None => forall s, In s (in_sites st) -> i_id s <> i
  end.
Proof.
  intros E. pose proof (add_sites_spec l [] empty_inputs inv_empty) as X. rewrite E in X. cbn [app] in X. pose proof (proj1 (F2_nth _ _ _) (v_sites _ _ X)) as [L F]. unfold get_site_by_id.
  assert (Id : forall j t, nth_error (in_sites st) j = Some t -> exists u, nth_error (fcs l) j = Some u /\ i_id u = i_id t).
  { intros j t Ej. pose proof (nth_lt _ _ _ Ej) as Lj. rewrite <- L in Lj. destruct (nth_error (fcs l) j) as [u|] eqn:Eu; [|apply nth_error_None in Eu; lia]. exists u. split; [reflexivity|]. destruct (F j u t Eu Ej) as (_ & _ & _ & _ & Q). exact Q. }
  destruct (dget (in_ids st) i) as [h|] eqn:Eh.
  - destruct (v_ids _ _ X i h Eh) as (s & Es & Is & Ls). pose proof (nth_lt _ _ _ Es) as Lh. rewrite L in Lh. destruct (nth_error (in_sites st) h) as [s'|] eqn:E'; [|apply nth_error_None in E'; lia].
    exists h. split; [exact E'|]. destruct (Id h s' E') as (u & Eu & Iu). rewrite Es in Eu. injection Eu as <-. split; [congruence|]. intros j t Hj Ej. destruct (Id j t Ej) as (u & Eu & Iu'). rewrite <- Iu'. eauto.
  - intros s Hs. apply In_nth_error in Hs. destruct Hs as (j & Ej). destruct (Id j s Ej) as (u & Eu & Iu). intros Hi. apply (v_all _ _ X u); [eapply nth_error_In; eauto|]. congruence.
Qed.

(** ** final names, when no name clashes *)
Definition cur (l : list isite) (st : inputs) : Prop :=
  (forall h s, nth_error (in_sites st) h = Some s -> final_name (fcs l) h (name s)) /\
  (forall h s, nth_error (in_sites st) h = Some s -> dget (in_names st) (name s) = Some h).
Lemma final_unique (k : list isite) i j n : clear_names k -> ~ clash k -> final_name k i n -> final_name k j n -> i = j.
Proof.
  intros C NC (s & Es & Hs) (t & Et & Ht). destruct (Nat.eq_dec i j) as [|Hij]; [assumption|exfalso].
  destruct (C s t (nth_error_In _ _ Es) (nth_error_In _ _ Et)) as [C1 C2]. destruct (C t s (nth_error_In _ _ Et) (nth_error_In _ _ Es)) as [C3 _].
  destruct Hs as [[-> U]|[-> _]], Ht as [[E' U']|[E' _]].
  - apply (U j t Et); [congruence|congruence].
  - congruence.
  - congruence.
  - destruct (C2 E') as [A B]. apply NC. exists i, j, s, t. repeat split; assumption.
Qed.
Lemma clear_app (k : list isite) s : clear_names (k ++ [s]) -> clear_names k.
Proof. intros C a b Ha Hb. apply C; apply in_app_iff; now left. Qed.
Lemma named_len k n : List.length (named n k) = 1%nat -> forall i j s t, nth_error k i = Some s -> nth_error k j = Some t -> name s = n -> name t = n -> i = j.
Proof.
  unfold named. induction k as [|a k IH]; intros L i j s t Ei Ej Hs Ht; [destruct i; discriminate|]. cbn [filter] in L. destruct (beq_spec (name a) n) as [Ha|Ha].
  - cbn in L. injection L as L. assert (Z : forall u x, nth_error k u = Some x -> name x = n -> False).
    { intros u x Ex Nx. assert (Hin : In x (filter (fun s => beq (name s) n) k)) by (apply filter_In; split; [eapply nth_error_In; eauto|now apply beq_eq]). destruct (filter _ k); [contradiction|discriminate]. }
    destruct i as [|i]; cbn in Ei; [|exfalso; exact (Z i s Ei Hs)]. destruct j as [|j]; cbn in Ej; [reflexivity|exfalso; exact (Z j t Ej Ht)].
  - destruct i as [|i]; cbn in Ei; [congruence|]. destruct j as [|j]; cbn in Ej; [congruence|]. f_equal. eapply IH; eauto.
Qed.
Lemma named_two k n : List.length (named n k) <> 1%nat -> forall i s, nth_error k i = Some s -> name s = n -> exists j t, nth_error k j = Some t /\ j <> i /\ name t = n.
Proof.
  intros L i s Ei Hs. destruct (existsb (fun j => negb (Nat.eqb j i) && match nth_error k j with Some t => beq (name t) n | None => false end) (seq 0 (List.length k))) eqn:X.
  - apply existsb_exists in X. destruct X as (j & _ & Hj). apply Bool.andb_true_iff in Hj. destruct Hj as [Hj Ht]. apply Bool.negb_true_iff, Nat.eqb_neq in Hj. destruct (nth_error k j) as [t|] eqn:Ej; [|discriminate]. exists j, t. split; [exact Ej|]. split; [exact Hj|]. now apply beq_eq.
  - exfalso. apply L. assert (U : forall j t, nth_error k j = Some t -> j <> i -> name t <> n).
    { intros j t Ej Hj Nt. apply Bool.not_true_iff_false in X. apply X. apply existsb_exists. exists j. split; [apply in_seq; pose proof (nth_lt _ _ _ Ej); lia|]. rewrite Ej. apply Nat.eqb_neq in Hj. rewrite Hj. cbn. now apply beq_eq. }
    clear X L. revert i Ei U. unfold named. induction k as [|a k IH]; intros i Ei U; [destruct i; discriminate|]. cbn [filter]. destruct i as [|i]; cbn in Ei.
    + injection Ei as ->. rewrite (proj2 (beq_eq _ _) Hs). cbn. f_equal. assert (Z : forall x, In x k -> name x <> n) by (intros x Hx; apply In_nth_error in Hx; destruct Hx as (u & Eu); apply (U (S u) x Eu); lia).
      clear - Z. induction k as [|b k IH]; [reflexivity|]. cbn. destruct (beq_spec (name b) n) as [E|_]; [exfalso; apply (Z b (or_introl eq_refl) E)|]. apply IH. intros x Hx. apply Z. now right.
    + assert (Na : name a <> n) by (apply (U O a eq_refl); lia). destruct (beq_spec (name a) n); [congruence|]. apply (IH i Ei). intros j t Ej Hj. apply (U (S j) t Ej). lia.
Qed.
Lemma final_other (k : list isite) s i n : final_name k i n -> (forall u, nth_error k i = Some u -> name u <> name s) -> final_name (k ++ [s]) i n.
Proof.
  intros (u & Eu & Hu) Hd. pose proof (nth_lt _ _ _ Eu) as L. exists u. split; [now rewrite nth_app_l|]. destruct Hu as [[-> U]|[-> (j & t & Ej & Hj & Nt)]].
  - left. split; [reflexivity|]. intros j t Ej Hj. apply nth_app_inv in Ej. destruct Ej as [Ej|[-> ->]]; [eauto|]. intros E. apply (Hd u Eu). congruence.
  - right. split; [reflexivity|]. exists j, t. split; [rewrite nth_app_l by (eapply nth_lt; eauto); exact Ej|]. now split.
Qed.
Lemma final_two (k : list isite) s i n u : final_name k i n -> nth_error k i = Some u -> List.length (named (name u) k) <> 1%nat -> final_name (k ++ [s]) i n.
Proof.
  intros (u' & Eu & Hu) Eu' L2. rewrite Eu in Eu'. injection Eu' as ->. pose proof (nth_lt _ _ _ Eu) as L. exists u. split; [now rewrite nth_app_l|]. destruct (named_two k (name u) L2 i u Eu eq_refl) as (j & t & Ej & Hj & Nt).
  destruct Hu as [[-> U]|[-> _]]; [exfalso; exact (U j t Ej Hj Nt)|]. right. split; [reflexivity|]. exists j, t. split; [rewrite nth_app_l by (eapply nth_lt; eauto); exact Ej|]. now split.
Qed.

Lemma cur_step l st s st' : inv l st -> cur l st -> clear_names (fcs (l ++ [s])) -> add_site st s = (st', None) -> cur (l ++ [s]) st'.
Proof.
  intros V [C1 C2] Cl E. pose proof (add_site_spec l st s V) as V'. rewrite E in V'. unfold add_site in E. rewrite (v_keys _ _ V) in E.
  destruct (mem (primary_key s) (map primary_key (fcs l))) eqn:M.
  - injection E as <-. assert (Ef : fcs (l ++ [s]) = fcs l) by (rewrite fcs_snoc, M; reflexivity). unfold cur. rewrite Ef. now split.
  - assert (Ef : fcs (l ++ [s]) = fcs l ++ [s]) by (rewrite fcs_snoc, M; reflexivity). rewrite Ef in Cl.
    assert (NC : ~ clash (fcs l ++ [s])) by (rewrite <- Ef; apply nodup_no_clash, (v_nodup _ _ V')).
    assert (Hin : In s (fcs l ++ [s])) by (apply in_app_iff; right; now left).
    pose proof (proj1 (F2_nth _ _ _) (v_sites _ _ V)) as [Ls Fs].
    pose proof (v_skus _ _ V (name s)) as Sk. unfold skus_of in Sk. unfold validate_site_name in E. rewrite Sk, map_length in E.
    destruct (mem (i_sku s) (map i_sku (named (name s) (fcs l)))); [discriminate|].
    assert (Hlast : nth_error (in_sites st ++ [s]) (List.length (in_sites st)) = Some s) by apply nth_app_last.
    assert (Ent : forall h t, nth_error (in_sites st) h = Some t -> exists u, nth_error (fcs l) h = Some u /\ i_sku u = i_sku t /\ (name t = name u /\ List.length (named (name u) (fcs l)) = 1%nat \/ name t = with_sku u /\ List.length (named (name u) (fcs l)) <> 1%nat)).
    { intros h t Et. destruct (C1 h t Et) as (u & Eu & Hu). exists u. split; [exact Eu|]. split; [destruct (Fs h u t Eu Et) as (_ & _ & _ & Q & _); exact Q|]. destruct Hu as [[Nt U]|[Nt (j & x & Ej & Hj & Nx)]].
      - left. split; [exact Nt|]. destruct (Nat.eq_dec (List.length (named (name u) (fcs l))) 1) as [|D]; [assumption|exfalso]. destruct (named_two _ _ D h u Eu eq_refl) as (j & x & Ej & Hj & Nx). exact (U j x Ej Hj Nx).
      - right. split; [exact Nt|]. intros D. apply Hj. symmetry. eapply named_len; eauto. }
    assert (Inu : forall h u, nth_error (fcs l) h = Some u -> In u (fcs l ++ [s])) by (intros h u Eu; apply in_app_iff; left; eapply nth_error_In; eauto).
    (* what remains to check, given the final names *)
    assert (Fin : forall sites names a b c, st' = mkInputs sites a names b c -> (forall h t, nth_error sites h = Some t -> final_name (fcs l ++ [s]) h (name t)) -> (forall h t, nth_error sites h = Some t -> dget names (name t) = Some h) -> cur (l ++ [s]) st').
    { intros sites names a b c -> A B. unfold cur. rewrite Ef. split; assumption. }
    destruct (Nat.eqb_spec (List.length (named (name s) (fcs l))) 1) as [E1|E1].
    + pose proof (v_there _ _ V _ E1) as T. destruct (dget (in_names st) (name s)) as [h0|] eqn:E0; [|congruence]. destruct (v_names _ _ V _ _ E0) as (s0 & Es0 & Ns0). pose proof (nth_lt _ _ _ Es0) as L0.
      assert (Es0' : nth_error (in_sites st ++ [s]) h0 = Some s0) by (rewrite nth_app_l; assumption). destruct (append_spec (in_sites st ++ [s]) (in_names st) h0 s0 Es0') as (N1 & A1 & D1). rewrite A1 in E. cbn [rbind] in E.
      rewrite app_length, map_length, E1 in E. change (1 <? 1 + List.length [i_sku s])%nat with true in E. cbv iota in E.
      assert (E2 : nth_error (set_nth (in_sites st ++ [s]) h0 (set_name s0 (with_sku s0))) (List.length (in_sites st)) = Some s) by (rewrite nth_set_neq by lia; exact Hlast).
      destruct (append_spec _ N1 _ s E2) as (N2 & A2 & D2). rewrite A2 in E.
      destruct (Ent h0 s0 Es0) as (u0 & Eu0 & Ku0 & Nu0).
      assert (Nu : name u0 = name s). { destruct Nu0 as [[A _]|[A _]]; [congruence|]. exfalso. destruct (Cl s u0 Hin (Inu _ _ Eu0)) as [Q _]. apply Q. congruence. }
      assert (Ws : with_sku s0 = with_sku u0) by (unfold with_sku; rewrite Ns0, Nu, Ku0; reflexivity).
      assert (A : forall h t, nth_error (set_nth (set_nth (in_sites st ++ [s]) h0 (set_name s0 (with_sku s0))) (List.length (in_sites st)) (set_name s (with_sku s))) h = Some t ->
        final_name (fcs l ++ [s]) h (name t) /\ ((h = List.length (in_sites st) /\ name t = with_sku s) \/ (h = h0 /\ name t = with_sku s0) \/ (h <> h0 /\ h <> List.length (in_sites st) /\ nth_error (in_sites st) h = Some t /\ name t <> name s))).
      { intros h t Et. destruct (Nat.eq_dec h (List.length (in_sites st))) as [->|Hh].
        - rewrite nth_set_eq in Et by (eapply nth_lt; eauto). injection Et as <-. rewrite name_set by apply with_sku_nonempty. split; [|left; now split]. exists s. rewrite <- Ls. split; [apply nth_app_last|]. right. split; [reflexivity|].
          pose proof (nth_lt _ _ _ Eu0) as Lu. exists h0, u0. split; [now rewrite nth_app_l|]. split; [lia|exact Nu].
        - rewrite nth_set_neq in Et by exact Hh. destruct (Nat.eq_dec h h0) as [->|Hh0].
          + rewrite nth_set_eq in Et by (rewrite app_length; lia). injection Et as <-. rewrite name_set by apply with_sku_nonempty. split; [|right; left; now split]. exists u0. pose proof (nth_lt _ _ _ Eu0) as Lu. split; [now rewrite nth_app_l|]. right. split; [exact Ws|].
            exists (List.length (fcs l)), s. split; [apply nth_app_last|]. split; [lia|congruence].
          + rewrite nth_set_neq in Et by exact Hh0. apply nth_app_inv in Et. destruct Et as [Et|[? _]]; [|congruence]. destruct (Ent h t Et) as (u & Eu & Ku & Nt).
            assert (Nus : name u <> name s). { intros Q. apply Hh0. eapply named_len; [exact E1|exact Eu|exact Eu0|exact Q|exact Nu]. }
            split; [apply final_other; [now apply C1|intros u' Eu'; congruence]|]. right. right. split; [exact Hh0|]. split; [exact Hh|]. split; [exact Et|]. destruct Nt as [[-> _]|[-> _]]; [exact Nus|].
            destruct (Cl s u Hin (Inu _ _ Eu)) as [Q _]. congruence. }
      apply (Fin _ _ _ _ _ (f_equal fst (eq_sym E))).
      * intros h t Et. now apply A.
      * intros h t Et. rewrite D2, D1. destruct (A h t Et) as (_ & [[-> Q]|[[-> Q]|(Q1 & Q2 & Q3 & Q4)]]).
        -- rewrite Q, beq_refl. reflexivity.
        -- assert (X1 : with_sku s0 <> with_sku s). { intros X. rewrite Ws in X. destruct (Cl u0 s (Inu _ _ Eu0) Hin) as [_ X2]. destruct (X2 X) as [X3 X4]. apply NC. exists h0, (List.length (fcs l)), u0, s. pose proof (nth_lt _ _ _ Eu0) as Lu. split; [lia|]. split; [now rewrite nth_app_l|]. split; [apply nth_app_last|]. now split. }
           rewrite Q. destruct (beq_spec (with_sku s0) (with_sku s)); [congruence|]. destruct (beq_spec (with_sku s0) (name s)) as [X|_]; [exfalso; rewrite Ws in X; destruct (Cl s u0 Hin (Inu _ _ Eu0)) as [Z _]; congruence|]. now rewrite beq_refl.
        -- assert (U1 : name t <> with_sku s). { intros X. assert (h = List.length (in_sites st)); [|congruence]. eapply (final_unique (fcs l ++ [s])); [exact Cl|exact NC|apply (A h t Et)|]. rewrite X.
             destruct (A (List.length (in_sites st)) (set_name s (with_sku s))) as [Z _]; [rewrite nth_set_eq by (eapply nth_lt; eauto); reflexivity|]. rewrite name_set in Z by apply with_sku_nonempty. exact Z. }
           assert (U2 : name t <> with_sku s0). { intros X. assert (h = h0); [|congruence]. eapply (final_unique (fcs l ++ [s])); [exact Cl|exact NC|apply (A h t Et)|]. rewrite X.
             destruct (A h0 (set_name s0 (with_sku s0))) as [Z _]; [rewrite nth_set_neq by lia; rewrite nth_set_eq by (rewrite app_length; lia); reflexivity|]. rewrite name_set in Z by apply with_sku_nonempty. exact Z. }
           destruct (beq_spec (name t) (with_sku s)); [congruence|]. destruct (beq_spec (name t) (name s)); [congruence|]. destruct (beq_spec (name t) (with_sku s0)); [congruence|]. destruct (beq_spec (name t) (name s0)); [congruence|]. now apply C2.
    + cbn [rbind] in E. rewrite app_length, map_length in E. destruct (named (name s) (fcs l)) as [|x [|y r]] eqn:Ek; [| cbn in E1; lia|].
      * change (1 <? List.length (@nil isite) + List.length [i_sku s])%nat with false in E. cbv iota in E. cbn [fst snd] in E.
        assert (No : forall h u, nth_error (fcs l) h = Some u -> name u <> name s). { intros h u Eu Q. assert (Z : In u (named (name s) (fcs l))) by (apply in_named; split; [eapply nth_error_In; eauto|exact Q]). rewrite Ek in Z. contradiction. }
        assert (A : forall h t, nth_error (in_sites st ++ [s]) h = Some t -> final_name (fcs l ++ [s]) h (name t) /\ ((h = List.length (in_sites st) /\ t = s) \/ (nth_error (in_sites st) h = Some t /\ name t <> name s))).
        { intros h t Et. apply nth_app_inv in Et. destruct Et as [Et|[-> ->]].
          - destruct (Ent h t Et) as (u & Eu & Ku & Nt). split; [apply final_other; [now apply C1|exact (No h)]|]. right. split; [exact Et|]. destruct Nt as [[-> _]|[-> _]]; [eapply No; eauto|]. destruct (Cl s u Hin (Inu _ _ Eu)) as [Q _]. congruence.
          - split; [|left; now split]. exists s. rewrite <- Ls. split; [apply nth_app_last|]. left. split; [reflexivity|]. intros j t Ej Hj. apply nth_app_inv in Ej. destruct Ej as [Ej|[? _]]; [eapply No; eauto|congruence]. }
        apply (Fin _ _ _ _ _ (f_equal fst (eq_sym E))).
        -- intros h t Et. now apply A.
        -- intros h t Et. rewrite dget_set. destruct (A h t Et) as (_ & [[-> ->]|[Q1 Q2]]); [now rewrite beq_refl|]. destruct (beq_spec (name t) (name s)); [congruence|]. now apply C2.
      * assert (X : (1 <? List.length (x :: y :: r) + List.length [i_sku s])%nat = true) by (apply Nat.ltb_lt; cbn; lia). rewrite X in E.
        destruct (append_spec _ (in_names st) _ s Hlast) as (N2 & A2 & D2). rewrite A2 in E.
        assert (A : forall h t, nth_error (set_nth (in_sites st ++ [s]) (List.length (in_sites st)) (set_name s (with_sku s))) h = Some t ->
          final_name (fcs l ++ [s]) h (name t) /\ ((h = List.length (in_sites st) /\ name t = with_sku s) \/ (h <> List.length (in_sites st) /\ nth_error (in_sites st) h = Some t /\ name t <> name s))).
        { intros h t Et. destruct (Nat.eq_dec h (List.length (in_sites st))) as [->|Hh].
          - rewrite nth_set_eq in Et by (eapply nth_lt; eauto). injection Et as <-. rewrite name_set by apply with_sku_nonempty. split; [|left; now split]. exists s. rewrite <- Ls. split; [apply nth_app_last|]. right. split; [reflexivity|].
            assert (Z : In x (named (name s) (fcs l))) by (rewrite Ek; now left). apply in_named in Z. destruct Z as [Zi Zn]. apply In_nth_error in Zi. destruct Zi as (j & Ej). pose proof (nth_lt _ _ _ Ej) as Lj. exists j, x. split; [now rewrite nth_app_l|]. split; [lia|exact Zn].
          - rewrite nth_set_neq in Et by exact Hh. apply nth_app_inv in Et. destruct Et as [Et|[? _]]; [|congruence]. destruct (Ent h t Et) as (u & Eu & Ku & Nt). split.
            + destruct (string_dec (name u) (name s)) as [Q|Q]; [|apply final_other; [now apply C1|intros u' Eu'; congruence]]. eapply final_two; [now apply C1|exact Eu|]. rewrite Q, Ek. cbn. lia.
            + right. split; [exact Hh|]. split; [exact Et|]. destruct Nt as [[Q L1]|[-> _]]; [|destruct (Cl s u Hin (Inu _ _ Eu)) as [Q _]; congruence]. intros Z. rewrite Q in Z. rewrite Z, Ek in L1. cbn in L1. lia. }
        apply (Fin _ _ _ _ _ (f_equal fst (eq_sym E))).
        -- intros h t Et. now apply A.
        -- intros h t Et. rewrite D2. destruct (A h t Et) as (Fh & [[-> Q]|(Q1 & Q2 & Q3)]); [now rewrite Q, beq_refl|].
           assert (U1 : name t <> with_sku s). { intros Z. apply Q1. eapply (final_unique (fcs l ++ [s])); [exact Cl|exact NC|exact Fh|]. rewrite Z.
             destruct (A (List.length (in_sites st)) (set_name s (with_sku s))) as [Y _]; [rewrite nth_set_eq by (eapply nth_lt; eauto); reflexivity|]. rewrite name_set in Y by apply with_sku_nonempty. exact Y. }
           destruct (beq_spec (name t) (with_sku s)); [congruence|]. destruct (beq_spec (name t) (name s)); [congruence|]. now apply C2.
Qed.
Lemma clear_prefix l m : clear_names (fcs (l ++ m)) -> clear_names (fcs l).
Proof. destruct (fcs_app l m) as (k & ->). intros C a b Ha Hb. apply C; apply in_app_iff; now left. Qed.
Lemma cur_all m : forall l st st', inv l st -> cur l st -> clear_names (fcs (l ++ m)) -> add_sites st m = Ok st' -> cur (l ++ m) st'.
Proof.
  induction m as [|s m IH]; intros l st st' V C Cl E; cbn [add_sites] in E; [injection E as <-; now rewrite app_nil_r|]. destruct (add_site st s) as [st1 [e|]] eqn:E1; [discriminate|].
  assert (Ea : l ++ s :: m = (l ++ [s]) ++ m) by (rewrite <- app_assoc; reflexivity). rewrite Ea in *. pose proof (add_site_spec l st s V) as V1. rewrite E1 in V1.
  apply (IH (l ++ [s]) st1 st' V1); [|exact Cl|exact E]. apply (cur_step l st s st1 V C); [|exact E1]. now apply clear_prefix with m.
Qed.
Lemma copies_unique l k : first_copies l k -> k = fcs l.
Proof.
  induction 1 as [|l k s F IH N|l k s t F IH Ht E]; [reflexivity| |].
  - rewrite fcs_snoc. destruct (mem (primary_key s) (map primary_key (fcs l))) eqn:M; [|congruence]. apply mem_In in M. rewrite fcs_keys in M. apply in_map_iff in M. destruct M as (t & Et & Ht). exfalso. apply (N t Ht). apply same_key. congruence.
  - rewrite fcs_snoc. destruct (mem (primary_key s) (map primary_key (fcs l))) eqn:M; [exact IH|]. apply mem_not_In in M. exfalso. apply M. rewrite fcs_keys. apply same_key in E. rewrite E. now apply in_map.
Qed.
Lemma uniquely_named l st k : add_sites empty_inputs l = Ok st -> first_copies l k -> clear_names k ->
  (forall h s, nth_error (in_sites st) h = Some s -> final_name k h (name s)) /\ NoDup (map name (in_sites st)) /\
  (forall s, In s (in_sites st) -> get_site_by_name st (name s) = Some s).
Proof.
  intros E F C. apply copies_unique in F. subst k. assert (X : cur l st). { apply (cur_all l [] empty_inputs st inv_empty); [|exact C|exact E]. split; intros [|h] s X; discriminate. }
  destruct X as [C1 C2]. split; [exact C1|]. split.
  - apply NoDup_nth_error. intros i j Hi Eij. rewrite map_length in Hi. rewrite !nth_error_map in Eij. destruct (nth_error (in_sites st) i) as [s|] eqn:Ei; [|apply nth_error_None in Ei; lia]. destruct (nth_error (in_sites st) j) as [t|] eqn:Ej; [|discriminate].
    cbn in Eij. injection Eij as Eij. pose proof (C2 i s Ei) as X. pose proof (C2 j t Ej) as Y. congruence.
  - intros s Hs. apply In_nth_error in Hs. destruct Hs as (h & Eh). unfold get_site_by_name. rewrite (C2 h s Eh). exact Eh.
Qed.

Lemma called (s : isite) : (i_raw s = "" -> name s = i_id s) /\ (i_raw s <> "" -> name s = i_raw s).
Proof. unfold name. destruct (beq_spec (i_raw s) ""); split; congruence. Qed.
Lemma copies_same (l k k' : list isite) : first_copies l k -> first_copies l k' -> k = k'.
Proof. intros A B. apply copies_unique in A. apply copies_unique in B. congruence. Qed.
Lemma copy_ignored l st s t : add_sites empty_inputs l = Ok st -> In t l -> same_entry s t -> add_site st s = (st, None).
Proof.
  intros E Ht S. pose proof (add_sites_spec l [] empty_inputs inv_empty) as X. rewrite E in X. unfold add_site. rewrite (v_keys _ _ X). assert (M : mem (primary_key s) (map primary_key (fcs l)) = true).
  { apply mem_In. rewrite fcs_keys. apply same_key in S. rewrite S. now apply in_map. } cbn [app]. now rewrite M.
Qed.
Lemma rejected_again l st s st' e : add_sites empty_inputs l = Ok st -> add_site st s = (st', Some e) -> in_sites st' = in_sites st /\ add_site st' s = (st', None).
Proof.
  intros _ E. unfold add_site in E. destruct (mem (primary_key s) (in_keys st)); [discriminate|]. destruct (validate_site_name _ _ _ _ _) as [[[a b] c]|e']; [discriminate|]. injection E as <- _. split; [reflexivity|].
  unfold add_site. cbn [in_keys]. assert (M : mem (primary_key s) (in_keys st ++ [primary_key s]) = true) by (apply mem_In, in_app_iff; right; now left). now rewrite M.
Qed.

(** ** C60 *)
Section Loader.
Variables (devices : list idevice) (inside : raw_site P -> bool) (infer : option (raw_site P -> result (P * loc_type))) (hash_id : site_type -> P -> string -> string).
Lemma sku_fold l : forall d0 k, dget (fold_left (fun d x => dset d (d_sku x) x) l d0) k = match find (fun x => beq (d_sku x) k) (rev l) with Some x => Some x | None => dget d0 k end.
Proof.
  induction l as [|x l IH]; intros d0 k; [reflexivity|]. cbn [fold_left]. rewrite IH. cbn [rev]. clear IH. induction (rev l) as [|y m IHm]; cbn [app find].
  - rewrite dget_set, beq_sym. now destruct (beq (d_sku x) k).
  - destruct (beq (d_sku y) k); [reflexivity|exact IHm].
Qed.
Lemma sku_get k : match dget (sku_to_device devices) k with Some d => In d devices /\ d_sku d = k | None => forall d, In d devices -> d_sku d <> k end.
Proof.
  unfold sku_to_device. rewrite sku_fold. destruct (find _ _) as [d|] eqn:E.
  - apply find_some in E. destruct E as [Hd Hk]. rewrite <- in_rev in Hd. apply beq_true in Hk. split; assumption.
  - cbn. intros d Hd Hk. rewrite in_rev in Hd. pose proof (find_none _ _ E d Hd) as X. cbn in X. rewrite Hk, beq_refl in X. discriminate.
Qed.
Lemma suits_dec t d : Bool.eqb (beq t CN) (d_cn d) = true <-> suits t d.
Proof. unfold suits. destruct (beq_spec t CN), (d_cn d); cbn; intuition congruence. Qed.
Lemma make_ok t p d loc b n : (loc = ROOFTOP <-> b <> None) -> suits t d -> make_site hash_id t p d loc b n = Ok (mkISite p t loc (match n with Some n => n | None => "" end) (d_sku d) (hash_id t p (d_sku d))).
Proof.
  intros Hb Hs. unfold make_site. apply suits_dec in Hs. rewrite Hs. destruct (beq_spec loc ROOFTOP) as [E|E], b as [b|]; cbn; try reflexivity; exfalso.
  - exact (proj1 Hb E eq_refl).
  - apply E, Hb. discriminate.
Qed.
Lemma make_inv t p d loc b n s : make_site hash_id t p d loc b n = Ok s -> (loc = ROOFTOP <-> b <> None) /\ suits t d.
Proof.
  intros E. unfold make_site in E. rewrite <- suits_dec. destruct (Bool.eqb (beq t CN) (d_cn d)); [|destruct (beq loc ROOFTOP), b; discriminate]. split; [|reflexivity]. destruct (beq_spec loc ROOFTOP) as [Hl|Hl], b as [b|]; cbn in E; try discriminate; split; congruence.
Qed.
Lemma make_err t p d loc b n e : make_site hash_id t p d loc b n = Err e -> e = TopologyExn.
Proof. unfold make_site. destruct (Bool.eqb (beq t CN) (d_cn d)), (beq loc ROOFTOP), b; cbn; congruence. Qed.
Lemma kept_filter {A} (f : A -> bool) (ok : A -> Prop) l : (forall a, f a = true <-> ok a) -> kept ok l (filter f l).
Proof. intros Hf. induction l as [|a l IH]; cbn; [constructor|]. destruct (f a) eqn:E; [constructor; [now apply Hf|exact IH]|apply kept_no; [rewrite <- Hf, E; discriminate|exact IH]]. Qed.
Lemma mapM_make t p loc b n ds : (loc = ROOFTOP <-> b <> None) -> Forall (suits t) ds ->
  mapM (fun d => make_site hash_id t p d loc b n) ds = Ok (map (fun d => mkISite p t loc (match n with Some n => n | None => "" end) (d_sku d) (hash_id t p (d_sku d))) ds).
Proof. intros Hb F. induction F as [|d ds Hd F IH]; [reflexivity|]. cbn [mapM map]. rewrite make_ok by assumption. cbn [rbind]. rewrite IH. reflexivity. Qed.
Lemma filter_suits t : Forall (suits t) (filter (fun d => Bool.eqb (beq t CN) (d_cn d)) devices).
Proof. apply Forall_forall. intros d Hd. apply filter_In in Hd. now apply suits_dec. Qed.

(** a failed entry without a device *)
Definition no_place (r : raw_site P) : Prop := forall p loc, ~ located infer r p loc.
Lemma entry r :
  match construct_sites devices infer hash_id r with
  | Ok l => (l = [] /\ r_sku r = None) \/ sites_of_entry devices infer hash_id r l
  | Err e => (exists f, infer = Some f /\ f r = Err e) \/
             (e = DataExn /\ exists k, r_sku r = Some k /\ forall d, In d devices -> d_sku d <> k) \/
             (e = TopologyExn /\ ((infer = None /\ no_place r) \/ exists k d, r_sku r = Some k /\ In d devices /\ d_sku d = k /\ ~ suits (r_type r) d))
  end.
Proof.
  unfold construct_sites.
  assert (Core : forall p loc b, (infer = None -> p = r_pos r /\ loc = r_loc r /\ b = r_building r) -> (forall f, infer = Some f -> f r = Ok (p, loc) /\ b = if beq loc ROOFTOP then Some (-1)%Z else None) ->
    match (match r_sku r with
           | Some sku => match dget (sku_to_device devices) sku with None => Err DataExn | Some d => do s <- make_site hash_id (r_type r) p d loc b (r_name r) ; Ok [s] end
           | None => mapM (fun d => make_site hash_id (r_type r) p d loc b (r_name r)) (filter (fun d => Bool.eqb (beq (r_type r) CN) (d_cn d)) devices)
           end) with
    | Ok l => (l = [] /\ r_sku r = None) \/ sites_of_entry devices infer hash_id r l
    | Err e => (exists f, infer = Some f /\ f r = Err e) \/
             (e = DataExn /\ exists k, r_sku r = Some k /\ forall d, In d devices -> d_sku d <> k) \/
             (e = TopologyExn /\ ((infer = None /\ no_place r) \/ exists k d, r_sku r = Some k /\ In d devices /\ d_sku d = k /\ ~ suits (r_type r) d))
    end).
  { intros p loc b Hn Hsome.
    assert (Hloc : (loc = ROOFTOP <-> b <> None) -> located infer r p loc).
    { intros Hb. unfold located. destruct infer as [f|]; [now destruct (Hsome f eq_refl)|]. destruct (Hn eq_refl) as (-> & -> & ->). auto. }
    assert (Hbad : ~ (loc = ROOFTOP <-> b <> None) -> infer = None /\ no_place r).
    { intros Hb. destruct infer as [f|] eqn:Ei.
      - exfalso. destruct (Hsome f eq_refl) as [_ ->]. apply Hb. destruct (beq_spec loc ROOFTOP); split; congruence.
      - split; [reflexivity|]. destruct (Hn eq_refl) as (-> & -> & ->). unfold no_place, located. rewrite Ei. intros p' l' (_ & -> & X). now apply Hb. }
    assert (Hdec : (loc = ROOFTOP <-> b <> None) \/ ~ (loc = ROOFTOP <-> b <> None)).
    { destruct (beq_spec loc ROOFTOP) as [E|E], b as [b|]; [left|right|right|left]; intuition congruence. }
    unfold sites_of_entry. destruct (r_sku r) as [k|] eqn:Ek.
    - pose proof (sku_get k) as S. destruct (dget (sku_to_device devices) k) as [d|]; [|right; left; split; [reflexivity|]; exists k; now split]. destruct S as [Sd Sk].
      destruct (make_site hash_id (r_type r) p d loc b (r_name r)) as [s|e] eqn:Em; cbn [rbind].
      + right. destruct (make_inv _ _ _ _ _ _ _ Em) as [Hb Hs]. rewrite make_ok in Em by assumption. injection Em as <-. exists p, loc. split; [auto|]. exists d. eexists. split; [exact Sd|]. split; [exact Sk|]. split; [exact Hs|]. split; [|reflexivity]. repeat split.
      + right. right. split; [eapply make_err; eauto|]. destruct (Bool.eqb (beq (r_type r) CN) (d_cn d)) eqn:Es.
        * left. apply Hbad. intros Hb. apply suits_dec in Es. rewrite make_ok in Em by assumption. discriminate.
        * right. exists k, d. split; [reflexivity|]. split; [exact Sd|]. split; [exact Sk|]. rewrite <- suits_dec, Es. discriminate.
    - destruct Hdec as [Hb|Hb].
      + rewrite mapM_make by (assumption || apply filter_suits). right. exists p, loc. split; [auto|]. eexists. split; [apply kept_filter; intros d; apply suits_dec|].
        induction (filter _ devices) as [|d ds IH]; cbn; constructor; [repeat split|exact IH].
      + destruct (filter _ devices) as [|d ds]; [left; now split|]. cbn [mapM]. destruct (make_site hash_id (r_type r) p d loc b (r_name r)) as [s|e] eqn:Em; [exfalso; apply Hb; now destruct (make_inv _ _ _ _ _ _ _ Em)|].
        cbn [rbind]. right. right. split; [eapply make_err; eauto|]. left. auto. }
  destruct infer as [f|] eqn:Ei.
  - destruct (f r) as [[p loc]|e] eqn:Ef; cbn [rbind fst snd]; [|left; exists f; now split]. apply Core; [discriminate|]. intros g Eg. injection Eg as <-. now split.
  - cbn [rbind fst snd]. apply Core; [auto|discriminate].
Qed.
Lemma all_entries raws : forall st st', get_input_sites devices inside infer hash_id st raws = Ok st' <->
  exists ls, Forall2 (fun r l => construct_sites devices infer hash_id r = Ok l) (filter inside raws) ls /\ add_sites st (List.concat ls) = Ok st'.
Proof.
  assert (App : forall l m st, add_sites st (l ++ m) = do st1 <- add_sites st l ; add_sites st1 m).
  { induction l as [|s l IH]; intros m st; [reflexivity|]. cbn [app add_sites]. destruct (add_site st s) as [st1 [e|]]; [reflexivity|apply IH]. }
  induction raws as [|r raws IH]; intros st st'; cbn [get_input_sites filter].
  - split; [intros E; exists []; split; [constructor|exact E]|]. intros (ls & F & E). inversion F; subst. exact E.
  - destruct (inside r); [|apply IH]. split.
    + intros E. apply rbind_ok in E. destruct E as (l & El & E). apply rbind_ok in E. destruct E as (st1 & E1 & E). apply IH in E. destruct E as (ls & F & E). exists (l :: ls). split; [now constructor|]. cbn [List.concat]. rewrite App, E1. exact E.
    + intros (ls & F & E). inversion F as [|? l ? ls' El F']; subst. cbn [List.concat] in E. rewrite App in E. apply rbind_ok in E. destruct E as (st1 & E1 & E). rewrite El. cbn [rbind]. rewrite E1. cbn [rbind]. apply IH. eauto.
Qed.
Lemma all_sites raws st : get_input_sites devices inside infer hash_id empty_inputs raws = Ok st ->
  exists ls k, Forall2 (fun r l => (l = [] /\ r_sku r = None) \/ sites_of_entry devices infer hash_id r l) (filter inside raws) ls /\
    first_copies (List.concat ls) k /\ ~ clash k /\ Forall2 but_name k (in_sites st).
Proof.
  intros E. apply all_entries in E. destruct E as (ls & F & E). destruct (loaded _ _ E) as (k & K1 & K2 & K3). exists ls, k. split; [|now split]. clear - F. induction F as [|r l rs ls Hr F IH]; constructor; [|exact IH]. pose proof (entry r) as X. rewrite Hr in X. exact X.
Qed.
End Loader.
End Proofs.
