(** Proofs for C74: what the check accepts. *)
From Coq Require Import QArith Qabs Qminmax Permutation Lqa Sorting.Sorted.
From Verif Require Import Base Dict QLib MonadLib TopologyModel SetupModel GeoModel SecLinkSpec SecLinkProofs SecPlaceSpec SiteSecModel SiteSecSpec.
From Verif Require TopologyProofs.
Local Open Scope Q_scope.
Local Open Scope list_scope.

Lemma qless_true a b : qless a b = true <-> a < b.
Proof. unfold qless. destruct (Qle_bool b a) eqn:E; cbn; [apply qle_true in E|apply qle_false in E]; split; intros; try discriminate; try reflexivity; lra. Qed.
Lemma qless_false a b : qless a b = false <-> b <= a.
Proof. unfold qless. destruct (Qle_bool b a) eqn:E; cbn; [apply qle_true in E|apply qle_false in E]; split; intros; try discriminate; try reflexivity; lra. Qed.

(** the two halves are all *)
Lemma after_not_before m a : after m a = negb (before m a).
Proof.
  unfold after, before. destruct (qless m a) eqn:A, (Qle_bool a (m + 180)) eqn:B, (Qle_bool a (m - 180)) eqn:C, (Qle_bool a m) eqn:D, (qless (m - 180) a) eqn:F, (qless (m + 180) a) eqn:G; cbn; try reflexivity; exfalso;
  rewrite ?qless_true, ?qless_false in *;
  repeat match goal with H : Qle_bool _ _ = true |- _ => apply qle_true in H | H : Qle_bool _ _ = false |- _ => apply qle_false in H end; lra.
Qed.
Lemma filter_split {A} (f : A -> bool) l : Permutation (filter f l ++ filter (fun x => negb (f x)) l) l.
Proof.
  induction l as [|a r IH]; cbn; [constructor|]. destruct (f a); cbn; [now constructor|].
  rewrite <- Permutation_middle. now constructor.
Qed.
Lemma arrange_perm mean l : Permutation (arrange mean l) l.
Proof.
  unfold arrange, qsort. cbv zeta. rewrite !TopologyProofs.sort_by_perm.
  rewrite (filter_ext (after (mean l)) (fun x => negb (before (mean l) x))) by apply after_not_before. apply filter_split.
Qed.

Lemma each_ok {A} (f : A -> result unit) l : each f l = Ok tt <-> forall a, In a l -> f a = Ok tt.
Proof.
  induction l as [|a r IH]; cbn; [split; [contradiction|reflexivity]|]. unfold rbind. destruct (f a) as [[]|e] eqn:E.
  - rewrite IH. split; [intros H b [<-|Hb]; auto|auto].
  - split; [discriminate|]. intros H. rewrite <- E. auto.
Qed.
Lemma guard_ok b e : guard b e = Ok tt <-> b = true.
Proof. unfold guard. destruct b; split; congruence. Qed.
Lemma guard_bind {A} b e (k : unit -> result A) : rbind (guard b e) k = if b then k tt else Err e.
Proof. destruct b; reflexivity. Qed.

(** *** grouping *)
Definition azs_of (l : list vsector) (n : Z) := azimuths l n.
Definition poss_of (l : list vsector) (n : Z) := map v_pos (filter (fun s => Z.eqb (v_node s) n) l).
Lemma azimuths_app l r n : azimuths (l ++ r) n = azimuths l n ++ azimuths r n.
Proof. unfold azimuths. now rewrite filter_app, map_app. Qed.
Lemma poss_app l r n : poss_of (l ++ r) n = poss_of l n ++ poss_of r n.
Proof. unfold poss_of. now rewrite filter_app, map_app. Qed.
Lemma azimuths_one s n : azimuths [s] n = if Z.eqb (v_node s) n then [v_az s] else [].
Proof. unfold azimuths. cbn. now destruct (Z.eqb (v_node s) n). Qed.
Lemma poss_one s n : poss_of [s] n = if Z.eqb (v_node s) n then [v_pos s] else [].
Proof. unfold poss_of. cbn. now destruct (Z.eqb (v_node s) n). Qed.
Definition grouped {B} (f : list vsector -> Z -> list B) (P : list vsector) (d : dict Z (list B)) : Prop :=
  dwf d /\ forall n, dget d n = if existsb (fun s => Z.eqb (v_node s) n) P then Some (f P n) else None.
Lemma existsb_app_one P s n : existsb (fun s => Z.eqb (v_node s) n) (P ++ [s]) = existsb (fun s => Z.eqb (v_node s) n) P || Z.eqb (v_node s) n.
Proof. rewrite existsb_app. cbn. now rewrite orb_false_r. Qed.
Lemma grouped_step {B} (f : list vsector -> Z -> list B) (g : vsector -> B) P s d :
  (forall l r n, f (l ++ r) n = f l n ++ f r n) -> (forall n, f [s] n = if Z.eqb (v_node s) n then [g s] else []) ->
  (forall n, existsb (fun s => Z.eqb (v_node s) n) P = false -> f P n = []) ->
  grouped f P d -> grouped f (P ++ [s]) (dset d (v_node s) (match dget d (v_node s) with Some a => a | None => [] end ++ [g s])).
Proof.
  intros Ha Ho He [W G]. split; [now apply dwf_set|]. intros n. rewrite dget_set, existsb_app_one, Ha, Ho, !G.
  destruct (beq_spec n (v_node s)) as [->|N].
  - rewrite Z.eqb_refl, orb_true_r. destruct (existsb _ P) eqn:E; [reflexivity|]. now rewrite (He _ E).
  - replace (Z.eqb (v_node s) n) with false by (symmetry; apply Z.eqb_neq; congruence). rewrite orb_false_r, app_nil_r. reflexivity.
Qed.
Lemma azimuths_none P n : existsb (fun s => Z.eqb (v_node s) n) P = false -> azimuths P n = [].
Proof. unfold azimuths. induction P as [|a r IH]; cbn; [reflexivity|]. intros H. apply orb_false_iff in H as [-> H]. now apply IH. Qed.
Lemma poss_none P n : existsb (fun s => Z.eqb (v_node s) n) P = false -> poss_of P n = [].
Proof. unfold poss_of. induction P as [|a r IH]; cbn; [reflexivity|]. intros H. apply orb_false_iff in H as [-> H]. now apply IH. Qed.
Lemma In_poss P n p : In p (poss_of P n) <-> In (n, p) (map (fun s => (v_node s, v_pos s)) P).
Proof.
  unfold poss_of. rewrite !in_map_iff. split.
  - intros (s & <- & H). apply filter_In in H as [H E]. apply Z.eqb_eq in E. exists s. split; [congruence|exact H].
  - intros (s & E & H). injection E as E1 E2. exists s. split; [exact E2|]. apply filter_In. split; [exact H|]. now apply Z.eqb_eq.
Qed.
Lemma collect_gen site l : forall P azs poss, grouped azimuths P azs -> grouped poss_of P poss ->
  match collect site l azs poss with
  | Ok d => grouped azimuths (P ++ l) d /\ (forall s, In s l -> v_site s = site) /\ (own_places P -> own_places (P ++ l))
  | Err e => e = OptExn /\ ~ ((forall s, In s l -> v_site s = site) /\ own_places (P ++ l))
  end.
Proof.
  induction l as [|s r IH]; intros P azs poss GA GP; cbn [collect].
  { rewrite app_nil_r. split; [exact GA|]. split; [intros s []|auto]. }
  rewrite guard_bind. destruct (beq_spec (v_site s) site) as [E|N].
  2:{ split; [reflexivity|]. intros [H _]. apply N, H. now left. }
  cbv zeta. rewrite guard_bind.
  assert (M : mem (v_pos s) (match dget poss (v_node s) with Some p => p | None => [] end) = true <-> In (v_node s, v_pos s) (map (fun s => (v_node s, v_pos s)) P)).
  { rewrite (proj2 GP). destruct (existsb _ P) eqn:X.
    - rewrite mem_In. apply In_poss.
    - split; [discriminate|]. intros H. apply In_poss in H. rewrite (poss_none _ _ X) in H. contradiction. }
  destruct (mem (v_pos s) _) eqn:X.
  - cbn [negb]. split; [reflexivity|]. intros [_ H]. unfold own_places in H. rewrite map_app in H. cbn [map] in H. apply NoDup_remove_2 in H. apply H, in_or_app. left. now apply M.
  - cbn [negb]. specialize (IH (P ++ [s]) _ _ (grouped_step azimuths v_az P s azs azimuths_app (azimuths_one s) (azimuths_none P) GA) (grouped_step poss_of v_pos P s poss poss_app (poss_one s) (poss_none P) GP)).
    rewrite <- app_assoc in IH. cbn [app] in IH. destruct (collect _ r _ _) as [d|e].
    + destruct IH as (A & B & C). split; [exact A|]. split; [intros x [<-|Hx]; auto|]. intros H. apply C. unfold own_places in *. rewrite map_app. cbn [map].
      apply (Permutation_NoDup (Permutation_cons_append _ _)). constructor; [|exact H]. intros K. apply M in K. congruence.
    + destruct IH as (A & B). split; [exact A|]. intros [H1 H2]. apply B. split; [intros x Hx; apply H1; now right|exact H2].
Qed.
Lemma grouped_nil {B} (f : list vsector -> Z -> list B) : grouped f [] [].
Proof. split; [apply dwf_nil|reflexivity]. Qed.

(** *** the whole check *)
Lemma grouped_keys l d : grouped azimuths l d -> forall n, In n (dkeys d) <-> exists s, In s l /\ v_node s = n.
Proof.
  intros [W G] n. rewrite In_dkeys. split.
  - intros (v & Hv). rewrite G in Hv. destruct (existsb _ l) eqn:E; [|discriminate]. apply existsb_exists in E as (s & Hs & E). apply Z.eqb_eq in E. eauto.
  - intros (s & Hs & <-). exists (azimuths l (v_node s)). rewrite G. rewrite (proj2 (existsb_exists _ l)); [reflexivity|]. exists s. split; [exact Hs|apply Z.eqb_refl].
Qed.
Lemma grouped_In l d n a : grouped azimuths l d -> In (n, a) d <-> (exists s, In s l /\ v_node s = n) /\ a = azimuths l n.
Proof.
  intros G. pose proof (grouped_keys _ _ G) as K. destruct G as [W G]. rewrite <- (dget_In_iff _ _ _ W), G, <- K. clear K. split.
  - intros H. assert (H' := H). destruct (existsb _ l) eqn:E; [|discriminate]. split; [|congruence]. apply In_dkeys. exists a. rewrite G, E. exact H.
  - intros [H ->]. apply In_dkeys in H as (v & Hv). rewrite G in Hv. now destruct (existsb _ l).
Qed.
Lemma nodes_count l d k : grouped azimuths l d -> at_most_nodes k l <-> (List.length d <= k)%nat.
Proof.
  intros G. pose proof (grouped_keys _ _ G) as K. destruct G as [W _]. split.
  - intros H. rewrite <- (map_length fst d). apply H; [exact W|]. intros n Hn. now apply K.
  - intros H ns N Hn. etransitivity; [|exact H]. rewrite <- (map_length fst d). apply NoDup_incl_length; [exact N|]. intros n H'. apply K. now apply Hn.
Qed.
Section Whole.
Variables (number_of_nodes nspn : nat) (hsr : Q) (mean : list Q -> Q).
Definition passes (l : list vsector) : Prop :=
  one_site l /\ own_places l /\ at_most_nodes number_of_nodes l /\
  forall s, In s l -> List.length (azimuths l (v_node s)) = nspn /\
    ((1 < nspn)%nat -> spacing hsr (arrange mean (azimuths l (v_node s))) = Ok tt) /\
    forall s', In s' l -> v_node s' <> v_node s -> check_pair hsr (arrange mean (azimuths l (v_node s))) (arrange mean (azimuths l (v_node s'))) = Ok tt.
Lemma arranged_all (d : dict Z (list Q)) :
  mapM (fun p => do x <- arrange_node nspn mean (snd p) ; Ok (fst p, x)) d =
  if forallb (fun p => Nat.eqb (List.length (snd p)) nspn) d then Ok (map (fun p => (fst p, arrange mean (snd p))) d) else Err OptExn.
Proof.
  induction d as [|[n a] r IH]; cbn [mapM forallb map fst snd]; [reflexivity|]. unfold arrange_node at 1. destruct (Nat.eqb (List.length a) nspn); [|reflexivity].
  cbn [rbind guard andb fst snd]. rewrite IH. now destruct (forallb _ r).
Qed.
Lemma validate_iff l : validate_site_sectors number_of_nodes nspn hsr mean l = Ok tt <-> l = [] \/ passes l.
Proof.
  destruct l as [|s0 l0]; [cbn; tauto|]. remember (s0 :: l0) as l eqn:El. transitivity (passes l); [|split; [auto|intros [->|H]; [discriminate|exact H]]].
  assert (V : validate_site_sectors number_of_nodes nspn hsr mean l =
    (do azs <- collect (v_site s0) l [] [] ;
    do _ <- guard (List.length azs <=? number_of_nodes)%nat OptExn ;
    do arranged <- mapM (fun p => do x <- arrange_node nspn mean (snd p) ; Ok (fst p, x)) azs ;
    do _ <- (if (1 <? nspn)%nat then each (fun p => spacing hsr (snd p)) arranged else Ok tt) ;
    each (fun p => each (fun q => if Z.eqb (fst p) (fst q) then Ok tt else check_pair hsr (snd p) (snd q)) arranged) arranged)) by (rewrite El; reflexivity).
  rewrite V. clear V. pose proof (collect_gen (v_site s0) l [] [] [] (grouped_nil _) (grouped_nil _)) as C. cbn [app] in C.
  destruct (collect _ l _ _) as [d|e]; cbn [rbind].
  2:{ split; [discriminate|]. intros (H1 & H2 & _). destruct C as [_ C]. exfalso. apply C. split; [|exact H2]. intros s Hs. apply H1; [exact Hs|]. rewrite El. now left. }
  destruct C as (G & S1 & S2).
  assert (D1 : one_site l) by (intros s s' Hs Hs'; now rewrite (S1 _ Hs), (S1 _ Hs')).
  assert (D2 : own_places l) by (apply S2; constructor).
  rewrite guard_bind. destruct (Nat.leb_spec (List.length d) number_of_nodes) as [L|L].
  2:{ split; [discriminate|]. intros (_ & _ & H & _). apply (nodes_count _ _ _ G) in H. lia. }
  apply (nodes_count _ _ _ G) in L. rewrite arranged_all.
  assert (N : forallb (fun p => Nat.eqb (List.length (snd p)) nspn) d = true <-> forall s, In s l -> List.length (azimuths l (v_node s)) = nspn).
  { rewrite forallb_forall. split.
    - intros H s Hs. apply Nat.eqb_eq, (H (v_node s, azimuths l (v_node s))), (grouped_In _ _ _ _ G). eauto.
    - intros H [n a] Hp. apply (grouped_In _ _ _ _ G) in Hp as [(s & Hs & <-) ->]. apply Nat.eqb_eq. cbn. now apply H. }
  destruct (forallb _ d).
  2:{ split; [discriminate|]. intros (_ & _ & _ & H). enough (false = true) by discriminate. apply N. intros s Hs. now apply H. }
  cbn [rbind]. set (arr := map (fun p => (fst p, arrange mean (snd p))) d).
  assert (A : forall n x, In (n, x) arr <-> exists s, In s l /\ v_node s = n /\ x = arrange mean (azimuths l (v_node s))).
  { intros n x. unfold arr. rewrite in_map_iff. split.
    - intros ([n' a] & E & Hp). injection E as <- <-. cbn in *. apply (grouped_In _ _ _ _ G) in Hp as [(s & Hs & <-) ->]. eauto.
    - intros (s & Hs & <- & ->). exists (v_node s, azimuths l (v_node s)). split; [reflexivity|]. apply (grouped_In _ _ _ _ G). eauto. }
  assert (P1 : (if (1 <? nspn)%nat then each (fun p => spacing hsr (snd p)) arr else Ok tt) = Ok tt <-> forall s, In s l -> (1 < nspn)%nat -> spacing hsr (arrange mean (azimuths l (v_node s))) = Ok tt).
  { destruct (Nat.ltb_spec 1 nspn) as [H|H].
    - rewrite each_ok. split.
      + intros K s Hs _. apply (K (v_node s, arrange mean (azimuths l (v_node s)))). apply A. eauto.
      + intros K [n x] Hp. apply A in Hp as (s & Hs & _ & ->). now apply K.
    - split; [intros _ s _ ?; lia|reflexivity]. }
  assert (P2 : each (fun p => each (fun q => if Z.eqb (fst p) (fst q) then Ok tt else check_pair hsr (snd p) (snd q)) arr) arr = Ok tt <->
    forall s s', In s l -> In s' l -> v_node s' <> v_node s -> check_pair hsr (arrange mean (azimuths l (v_node s))) (arrange mean (azimuths l (v_node s'))) = Ok tt).
  { rewrite each_ok. split.
    - intros K s s' Hs Hs' Hn. specialize (K (v_node s, arrange mean (azimuths l (v_node s))) (proj2 (A _ _) (ex_intro _ s (conj Hs (conj eq_refl eq_refl))))). cbn beta in K. rewrite each_ok in K.
      specialize (K (v_node s', arrange mean (azimuths l (v_node s'))) (proj2 (A _ _) (ex_intro _ s' (conj Hs' (conj eq_refl eq_refl))))). cbn [fst snd] in K.
      destruct (Z.eqb_spec (v_node s) (v_node s')); [congruence|exact K].
    - intros K [n x] Hp. apply A in Hp as (s & Hs & <- & ->). apply each_ok. intros [n' x'] Hq. apply A in Hq as (s' & Hs' & <- & ->). cbn [fst snd].
      destruct (Z.eqb_spec (v_node s) (v_node s')); [reflexivity|]. apply K; congruence. }
  destruct (if (1 <? nspn)%nat then _ else _) as [[]|e]; cbn [rbind].
  - rewrite P2. split.
    + intros K. split; [exact D1|]. split; [exact D2|]. split; [exact L|]. intros s Hs. split; [now apply N|]. split; [now apply P1|]. intros s' Hs' Hn. now apply K.
    + intros (_ & _ & _ & H) s s' Hs Hs' Hn. now apply H.
  - split; [discriminate|]. intros (_ & _ & _ & H). apply P1. intros s Hs. now apply H.
Qed.
(** nothing else is raised *)
Lemma spacing_or l : spacing hsr l = Ok tt \/ spacing hsr l = Err OptExn.
Proof. induction l as [|a [|b t] IH]; [now left|now left|]. cbn [spacing]. rewrite guard_bind. destruct (qless _ _); [exact IH|now right]. Qed.
Lemma each_or {A} (f : A -> result unit) l : (forall a, In a l -> f a = Ok tt \/ f a = Err OptExn) -> each f l = Ok tt \/ each f l = Err OptExn.
Proof.
  induction l as [|a r IH]; cbn [each]; intros H; [now left|]. destruct (H a (or_introl eq_refl)) as [->| ->]; cbn [rbind]; [|now right].
  apply IH. intros b Hb. apply H. now right.
Qed.
Lemma ends_of_ok l : l <> [] -> exists e, ends_of l = Ok e.
Proof. destruct l; [congruence|]. cbn. eauto. Qed.
Lemma pair_or x y : x <> [] -> y <> [] -> check_pair hsr x y = Ok tt \/ check_pair hsr x y = Err OptExn.
Proof.
  intros Hx Hy. unfold check_pair. destruct (ends_of_ok x Hx) as [e ->], (ends_of_ok y Hy) as [f ->]. cbn [rbind]. cbv zeta. rewrite guard_bind.
  destruct (Qle_bool _ _); [|now right]. unfold guard. destruct (negb _); [now left|now right].
Qed.
Lemma validate_or l : validate_site_sectors number_of_nodes nspn hsr mean l = Ok tt \/ validate_site_sectors number_of_nodes nspn hsr mean l = Err OptExn.
Proof.
  destruct l as [|s0 l0]; [now left|]. unfold validate_site_sectors. set (l := s0 :: l0).
  pose proof (collect_gen (v_site s0) l [] [] [] (grouped_nil _) (grouped_nil _)) as C. cbn [app] in C.
  destruct (collect _ l _ _) as [d|e]; cbn [rbind]; [|right; f_equal; apply C]. destruct C as (G & _).
  rewrite guard_bind. destruct (_ <=? _)%nat; [|now right]. rewrite arranged_all. destruct (forallb _ d); cbn [rbind]; [|now right].
  set (arr := map _ d).
  assert (A : forall n x, In (n, x) arr -> x <> []).
  { intros n x H. unfold arr in H. apply in_map_iff in H as ([n' a] & E & Hp). injection E as <- <-. cbn. apply (grouped_In _ _ _ _ G) in Hp as [(s & Hs & <-) ->].
    intros E. assert (P := arrange_perm mean (azimuths l (v_node s))). rewrite E in P. apply Permutation_nil in P. unfold azimuths in P. apply map_eq_nil in P.
    assert (In s []) as []. rewrite <- P. apply filter_In. split; [exact Hs|apply Z.eqb_refl]. }
  assert (B : (if (1 <? nspn)%nat then each (fun p => spacing hsr (snd p)) arr else Ok tt) = Ok tt \/ (if (1 <? nspn)%nat then each (fun p => spacing hsr (snd p)) arr else Ok tt) = Err OptExn).
  { destruct (_ <? _)%nat; [|now left]. apply each_or. intros p _. apply spacing_or. }
  destruct B as [-> | ->]; cbn [rbind]; [|now right]. apply each_or. intros [n x] Hx. apply each_or. intros [n' y] Hy. cbn [fst snd].
  destruct (Z.eqb n n'); [now left|]. apply pair_or; eauto.
Qed.
End Whole.
