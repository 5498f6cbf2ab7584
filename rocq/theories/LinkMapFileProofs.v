(** From the links of a file to single directed links. *)
From Coq Require Import QArith Permutation Lia.
From Verif Require Import Base Dict MonadLib SetupModel LosRangeModel StatusModel ConfModel LosTopoProofs TopologyModel TopologySpec LinkMapModel LinkMapSpec LinkMapProofs.
From Verif Require TopologyProofs.
Local Open Scope string_scope.
Local Open Scope list_scope.

Definition both (o : option raw) (p : site * site) : list item := [(fst p, snd p, o); (snd p, fst p, o)].
Lemma add_both_steps o t p : add_both o t p = foldM step t (both o p).
Proof. unfold add_both, both, step. cbn [foldM fst snd]. destruct (add_between t (fst p) (snd p) o) as [t1|e]; cbn [rbind]; [|reflexivity]. now destruct (add_between t1 (snd p) (fst p) o). Qed.
Lemma reach_links t k l : t_links t = [] -> ~ link_stored t k l.
Proof. intros E. unfold link_stored. rewrite E. discriminate. Qed.
Lemma start t : reachable t -> t_links t = [] -> G t t [] /\ good [].
Proof.
  intros R E. split; [|intros x y o []]. split; [exact R|]. split; [reflexivity|]. intros k l. split; [intros H; now apply reach_links in H|]. intros (x & y & o & [] & _).
Qed.

Lemma plain_the x y st l : plain_link x y st l <-> l = the_link x y st.
Proof.
  unfold plain_link, the_link. split.
  - intros (A & B & C & D & E & F). destruct l; cbn in *. subst. f_equal. destruct l_rx_cn; symmetry; [apply beq_eq; tauto|]. apply beq_neq. intros H. apply D in H. discriminate.
  - intros ->. cbn. rewrite beq_eq. tauto.
Qed.

Section Files.
Variable sites : list site.
Variable lookup : string -> option site.
Variable nearest : Q * Q -> option site.
Variable hash : site -> string.
Variable close : Q * Q -> site -> bool.
Notation ends_of := (ends_of sites lookup nearest hash close).
Notation map_raw := (map_raw sites lookup nearest hash close).
Notation map_links := (map_links sites lookup nearest hash close).
Notation joins := (joins sites lookup nearest hash close).
Notation resolvable := (resolvable lookup nearest).
Notation asked := (asked sites lookup nearest hash close).
Notation sites_known := (sites_known sites lookup).

Definition items_of (r : raw) : result (list item) :=
  if beq (rw_type r) ETHERNET then Ok [] else do ps <- ends_of r ; Ok (flat_map (both (Some r)) ps).
Lemma map_raw_items t r : map_raw t r = do is <- items_of r ; foldM step t is.
Proof.
  unfold LinkMapModel.map_raw, items_of. destruct (beq (rw_type r) ETHERNET); [reflexivity|]. destruct (ends_of r) as [ps|e]; [|reflexivity]. cbn [rbind].
  rewrite <- foldM_flat. apply foldM_ext. intros s p _. apply add_both_steps.
Qed.

Lemma nearest_spec p l : find_nearest sites nearest hash close p = Ok l -> forall s, In s l <-> at_position sites nearest hash close p s.
Proof.
  unfold find_nearest, at_position. destruct (nearest p) as [n|]; [|discriminate]. intros E. injection E as <-. intros s. rewrite !filter_In, beq_eq. split.
  - intros [[A B] C]. exists n. auto.
  - intros (m & Em & A & B & C). injection Em as <-. auto.
Qed.
Lemma joins_named r a b x y : rw_tx r = Some a -> rw_rx r = Some b -> (joins r x y <-> lookup a = Some x /\ lookup b = Some y).
Proof.
  intros Ea Eb. unfold LinkMapSpec.joins. rewrite Ea, Eb. split.
  - intros [(a' & b' & A & B & C & D)|[N _]]; [injection A as <-; injection B as <-; auto|]. exfalso. apply N. split; congruence.
  - intros [A B]. left. exists a, b. auto.
Qed.
Lemma joins_unnamed r x y : ~ named r -> (joins r x y <-> at_position sites nearest hash close (rw_tx_pos r) x /\ at_position sites nearest hash close (rw_rx_pos r) y).
Proof.
  intros N. unfold LinkMapSpec.joins. split.
  - intros [(a & b & A & B & _)|[_ H]]; [|exact H]. exfalso. apply N. split; congruence.
  - auto.
Qed.
Lemma ends_positions r : ~ named r ->
  ends_of r = do xs <- find_nearest sites nearest hash close (rw_tx_pos r) ; do ys <- find_nearest sites nearest hash close (rw_rx_pos r) ; Ok (flat_map (fun x => map (pair x) ys) xs).
Proof.
  intros N. unfold LinkMapModel.ends_of. destruct (rw_tx r) as [a|] eqn:A; [|reflexivity]. destruct (rw_rx r) as [b|] eqn:B; [|reflexivity]. exfalso. apply N. split; congruence.
Qed.
Lemma ends_spec r : match ends_of r with
  | Ok ps => resolvable r /\ forall x y, In (x, y) ps <-> joins r x y
  | Err e => ~ resolvable r /\ e = DataExn
  end.
Proof.
  assert (C : named r \/ ~ named r). { unfold named. destruct (rw_tx r), (rw_rx r); [left; split; discriminate|right; intros [A B]; congruence..]. }
  destruct C as [C|C].
  - destruct C as [A B]. destruct (rw_tx r) as [a|] eqn:Ea; [|congruence]. destruct (rw_rx r) as [b|] eqn:Eb; [|congruence].
    unfold LinkMapModel.ends_of. rewrite Ea, Eb.
    assert (NR : lookup a = None \/ lookup b = None -> ~ resolvable r).
    { intros H [(a' & b' & x & y & E1 & E2 & E3 & E4)|[N _]]; [destruct H; congruence|]. apply N. split; congruence. }
    destruct (lookup a) as [x|] eqn:Lx; [|split; [now apply NR; left|reflexivity]]. destruct (lookup b) as [y|] eqn:Ly; [|split; [now apply NR; right|reflexivity]].
    split; [left; exists a, b, x, y; auto|]. intros x' y'. rewrite (joins_named r a b x' y' Ea Eb). cbn [In]. split.
    + intros [E|[]]. injection E as <- <-. auto.
    + intros [E1 E2]. left. congruence.
  - rewrite (ends_positions r C).
    assert (NR : nearest (rw_tx_pos r) = None \/ nearest (rw_rx_pos r) = None -> ~ resolvable r).
    { intros H [(a & b & x & y & E1 & E2 & _)|(_ & N1 & N2)]; [apply C; split; congruence|destruct H; contradiction]. }
    pose proof (nearest_spec (rw_tx_pos r)) as S1. pose proof (nearest_spec (rw_rx_pos r)) as S2.
    destruct (find_nearest sites nearest hash close (rw_tx_pos r)) as [xs|e1] eqn:E1; cbn [rbind].
    + destruct (find_nearest sites nearest hash close (rw_rx_pos r)) as [ys|e2] eqn:E2; cbn [rbind].
      * split.
        -- right. split; [exact C|]. unfold find_nearest in E1, E2. destruct (nearest (rw_tx_pos r)), (nearest (rw_rx_pos r)); try discriminate. split; discriminate.
        -- intros x y. rewrite (joins_unnamed r x y C). rewrite <- (S1 xs eq_refl), <- (S2 ys eq_refl). rewrite in_flat_map. split.
           ++ intros (x' & Hx & Hy). apply in_map_iff in Hy. destruct Hy as (y' & E & Hy). injection E as <- <-. auto.
           ++ intros [Hx Hy]. exists x. split; [exact Hx|]. now apply in_map.
      * unfold find_nearest in E2. destruct (nearest (rw_rx_pos r)) eqn:E; [discriminate|]. injection E2 as <-. split; [apply NR; now right|reflexivity].
    + unfold find_nearest in E1. destruct (nearest (rw_tx_pos r)) eqn:E; [discriminate|]. injection E1 as <-. split; [apply NR; now left|reflexivity].
Qed.

(** all links together *)
Lemma fold_items raws : forall t, match mapM items_of raws with
  | Ok its => foldM map_raw t raws = foldM step t (List.concat its)
  | Err _ => exists e, foldM map_raw t raws = Err e /\ (e = DataExn \/ exists m, (exists its, mapM items_of m = Ok its /\ foldM step t (List.concat its) = Err e) /\ exists m', raws = m ++ m')
  end.
Proof.
  induction raws as [|r raws IH]; intros t; [reflexivity|]. cbn [mapM foldM]. rewrite map_raw_items. destruct (items_of r) as [is|e] eqn:Ei; cbn [rbind].
  - destruct (foldM step t is) as [t1|e1] eqn:E1; cbn [rbind].
    + specialize (IH t1). destruct (mapM items_of raws) as [its|e]; cbn [rbind].
      * cbn [List.concat]. rewrite foldM_app, E1. exact IH.
      * destruct IH as (e' & Ee & [->|(m & (its & A & B) & m' & ->)]); exists e' || exists DataExn; (split; [exact Ee|]); [now left|].
        right. exists (r :: m). split; [|now exists m']. exists (is :: its). cbn [mapM]. rewrite Ei, A. cbn [rbind List.concat]. split; [reflexivity|]. now rewrite foldM_app, E1.
    + specialize (IH t). destruct (mapM items_of raws) as [its|e]; cbn [rbind].
      * cbn [List.concat]. now rewrite foldM_app, E1.
      * exists e1. split; [reflexivity|]. right. exists [r]. split; [|now exists raws]. exists [is]. cbn [mapM]. rewrite Ei. cbn [rbind List.concat]. split; [reflexivity|]. now rewrite app_nil_r.
  - exists e. split; [reflexivity|]. left. unfold items_of in Ei. destruct (beq (rw_type r) ETHERNET); [discriminate|].
    pose proof (ends_spec r) as S1. destruct (ends_of r) as [ps|e']; [discriminate|]. injection Ei as ->. tauto.
Qed.

Lemma items_resolvable raws : (exists its, mapM items_of raws = Ok its) <-> forall r, In r raws -> rw_type r <> ETHERNET -> resolvable r.
Proof.
  split.
  - intros (its & E) r Hr Ht. destruct (mapM_In _ _ _ _ E Hr) as (is & Ei & _). unfold items_of in Ei. rewrite (proj2 (beq_neq _ _) Ht) in Ei.
    pose proof (ends_spec r) as S1. destruct (ends_of r); [tauto|discriminate].
  - intros H. apply mapM_total. intros r Hr. unfold items_of. destruct (beq_spec (rw_type r) ETHERNET) as [E|N]; [eauto|].
    pose proof (ends_spec r) as S1. destruct (ends_of r) as [ps|e]; [cbn; eauto|]. exfalso. apply (proj1 S1). now apply H.
Qed.
Lemma in_both x y o o' p : In (x, y, o) (both o' p) <-> o = o' /\ ((x = fst p /\ y = snd p) \/ (x = snd p /\ y = fst p)).
Proof. unfold both. cbn [In]. split; [intros [E|[E|[]]]; injection E as <- <- <-; auto|]. intros [-> [[-> ->]|[-> ->]]]; auto. Qed.
Lemma items_in raws its x y o : mapM items_of raws = Ok its -> (In (x, y, o) (List.concat its) <->
  exists r, o = Some r /\ In r raws /\ rw_type r <> ETHERNET /\ (joins r x y \/ joins r y x)).
Proof.
  intros E. rewrite in_concat. split.
  - intros (is & His & Hin). destruct (mapM_inv _ _ _ _ E His) as (r & Hr & Ei). unfold items_of in Ei. destruct (beq_spec (rw_type r) ETHERNET) as [Et|Nt]; [injection Ei as <-; destruct Hin|].
    pose proof (ends_spec r) as S1. destruct (ends_of r) as [ps|e]; [|discriminate]. cbn [rbind] in Ei. injection Ei as <-. apply in_flat_map in Hin.
    destruct Hin as ([a b] & Hp & Hin). apply in_both in Hin. cbn [fst snd] in Hin. destruct Hin as [-> H]. exists r. apply (proj2 S1) in Hp. destruct H as [[-> ->]|[-> ->]]; auto 6.
  - intros (r & -> & Hr & Nt & H). destruct (mapM_In _ _ _ _ E Hr) as (is & Ei & His). exists is. split; [exact His|]. unfold items_of in Ei. rewrite (proj2 (beq_neq _ _) Nt) in Ei.
    pose proof (ends_spec r) as S1. destruct (ends_of r) as [ps|e]; [|discriminate]. cbn [rbind] in Ei. injection Ei as <-. apply in_flat_map.
    destruct H as [H|H]; apply (proj2 S1) in H; eexists; (split; [exact H|]); apply in_both; cbn [fst snd]; auto.
Qed.
Lemma joins_known t r x y : sites_known t -> joins r x y -> known t x /\ known t y.
Proof.
  intros [A B] [(a & b & _ & _ & C & D)|(_ & (n & _ & C & _) & (m & _ & D & _))]; [split; eapply B; eassumption|]. auto.
Qed.
Lemma items_fit t raws its : sites_known t -> mapM items_of raws = Ok its -> Forall (fits t) (List.concat its) /\ uniform (List.concat its).
Proof.
  intros K E. split.
  - apply Forall_forall. intros [[x y] o] H. apply (items_in _ _ _ _ _ E) in H. destruct H as (r & -> & _ & Nt & J). unfold fits. cbn [fst snd wireless_of].
    rewrite (proj2 (beq_neq _ _) Nt). destruct J as [J|J]; apply (joins_known t) in J; try exact K; destruct J; auto.
  - left. intros [[x y] o] H. apply (items_in _ _ _ _ _ E) in H. destruct H as (r & -> & _). discriminate.
Qed.

Definition consistent (raws : list raw) : Prop :=
  forall x y st, asked raws x y st -> s_type x <> CN -> allowed (s_status x) (s_status y) st /\ forall st', asked raws x y st' -> st' = st.
Lemma good_consistent raws its : mapM items_of raws = Ok its -> (good (List.concat its) <-> consistent raws).
Proof.
  intros E. split.
  - intros Hg x y st (r & Hr & Nt & <- & J) Hx. destruct (Hg x y (Some r)) as [A B]; [apply (items_in _ _ _ _ _ E); exists r; auto|exact Hx|].
    split; [exact A|]. intros st' (r' & Hr' & Nt' & <- & J'). apply (B (Some r')). apply (items_in _ _ _ _ _ E). exists r'. auto.
  - intros Hc x y o H Hx. apply (items_in _ _ _ _ _ E) in H. destruct H as (r & -> & Hr & Nt & J). destruct (Hc x y (rw_status r)) as [A B]; [exists r; auto|exact Hx|].
    split; [exact A|]. intros o' H'. apply (items_in _ _ _ _ _ E) in H'. destruct H' as (r' & -> & Hr' & Nt' & J'). apply B. exists r'. auto.
Qed.

Lemma map_links_spec t raws : reachable t -> t_links t = [] -> sites_known t ->
  match map_links raws t with
  | Ok t' => reachable t' /\ t_sites t' = t_sites t
      /\ (forall k l, link_stored t' k l <-> k = l_id l /\ exists x y st, asked raws x y st /\ s_type x <> CN /\ plain_link x y st l)
      /\ (raws = [] \/ sites <> []) /\ (forall r, In r raws -> rw_type r <> ETHERNET -> resolvable r) /\ consistent raws
  | Err e => ~ ((raws = [] \/ sites <> []) /\ (forall r, In r raws -> rw_type r <> ETHERNET -> resolvable r) /\ consistent raws)
      /\ (e = DataExn \/ e = TopologyExn \/ e = PyAssertion)
  end.
Proof.
  intros R El K. unfold LinkMapModel.map_links. destruct raws as [|r0 raws0] eqn:Eraws.
  - split; [exact R|]. split; [reflexivity|]. split.
    + intros k l. split; [intros H; now apply reach_links in H|]. intros (_ & x & y & st & (r & [] & _) & _).
    + split; [now left|]. split; [intros r []|]. intros x y st (r & [] & _).
  - rewrite <- Eraws. assert (Hne : raws <> []) by (rewrite Eraws; discriminate). clear Eraws. destruct sites as [|s0 ss] eqn:Es; cbn [guard rbind].
    { rewrite <- Es in *. split; [|now right; right]. intros ([A|A] & _); contradiction. }
    rewrite <- Es in *. assert (Hs : sites <> []) by congruence. clear Es.
    destruct (start t R El) as [G0 D0].
    pose proof (fold_items raws t) as FI. destruct (mapM items_of raws) as [its|e0] eqn:Em.
    + rewrite FI. destruct (items_fit t raws its K Em) as [F U].
      pose proof (steps_spec t (List.concat its) t [] G0 D0 F U) as SP. cbn [app] in SP. destruct (foldM step t (List.concat its)) as [t'|e].
      * destruct SP as [(R' & Es' & Hl) Hg]. split; [exact R'|]. split; [exact Es'|]. split; [|split; [now right|split]].
        -- intros k l. rewrite Hl. split.
           ++ intros (x & y & o & Hin & Hx & -> & ->). split; [reflexivity|]. apply (items_in _ _ _ _ _ Em) in Hin. destruct Hin as (r & -> & Hr & Nt & J).
              exists x, y, (rw_status r). split; [exists r; auto|]. split; [exact Hx|]. now apply plain_the.
           ++ intros (-> & x & y & st & (r & Hr & Nt & <- & J) & Hx & Hp). apply plain_the in Hp. exists x, y, (Some r). split; [apply (items_in _ _ _ _ _ Em); exists r; auto|]. auto.
        -- apply items_resolvable. eauto.
        -- now apply (good_consistent raws its).
      * destruct SP as [N E]. split; [|tauto]. intros (_ & _ & Hc). apply N. now apply (good_consistent raws its).
    + destruct FI as (e & -> & He). split.
      * intros (_ & Hr & _). apply items_resolvable in Hr. destruct Hr as (its & Hr). congruence.
      * destruct He as [->|(m & (its & A & B) & m' & _)]; [now left|]. destruct (items_fit t m its K A) as [F U].
        pose proof (steps_spec t (List.concat its) t [] G0 D0 F U) as SP. rewrite B in SP. tauto.
Qed.

(** ** CSV *)
Lemma map_pair_items t p : map_pair lookup t p = match lookup (fst p), lookup (snd p) with Some x, Some y => foldM step t (both None (x, y)) | _, _ => Err DataExn end.
Proof. unfold map_pair. destruct (lookup (fst p)), (lookup (snd p)); try reflexivity. apply add_both_steps. Qed.
Definition pair_items (p : string * string) : list item :=
  match lookup (fst p), lookup (snd p) with Some x, Some y => both None (x, y) | _, _ => [] end.
Definition pair_known (p : string * string) : Prop := lookup (fst p) <> None /\ lookup (snd p) <> None.
Lemma fold_pairs ps : forall t, Forall pair_known ps -> foldM (map_pair lookup) t ps = foldM step t (flat_map pair_items ps).
Proof.
  intros t F. rewrite <- foldM_flat. apply foldM_ext. intros s p Hp. rewrite Forall_forall in F. destruct (F p Hp) as [A B]. rewrite map_pair_items. unfold pair_items.
  destruct (lookup (fst p)); [|congruence]. destruct (lookup (snd p)); [|congruence]. reflexivity.
Qed.
Lemma fold_pairs_err ps : forall t, (exists p, In p ps /\ ~ pair_known p) -> forall t', foldM (map_pair lookup) t ps <> Ok t'.
Proof.
  induction ps as [|q ps IH]; intros t (p & Hp & N) t' E; [destruct Hp|]. cbn [foldM] in E. destruct Hp as [->|Hp].
  - unfold map_pair in E. unfold pair_known in N. destruct (lookup (fst p)); [|discriminate]. destruct (lookup (snd p)); [|discriminate]. apply N. split; discriminate.
  - destruct (map_pair lookup t q) as [t1|]; [|discriminate]. apply (IH t1 (ex_intro _ p (conj Hp N)) t' E).
Qed.
Lemma pairs_in ps x y o : In (x, y, o) (flat_map pair_items ps) <-> o = None /\ asked_pair lookup ps x y.
Proof.
  rewrite in_flat_map. split.
  - intros ([a b] & Hp & H). unfold pair_items in H. cbn [fst snd] in H. destruct (lookup a) as [u|] eqn:A; [|destruct H]. destruct (lookup b) as [v|] eqn:B; [|destruct H].
    apply in_both in H. cbn [fst snd] in H. destruct H as [-> H]. split; [reflexivity|]. exists a, b. split; [exact Hp|]. destruct H as [[-> ->]|[-> ->]]; auto.
  - intros (-> & a & b & Hp & H). exists (a, b). split; [exact Hp|]. unfold pair_items. cbn [fst snd]. destruct H as [[-> ->]|[-> ->]]; apply in_both; cbn; auto.
Qed.
Lemma map_pairs_spec t ps : reachable t -> t_links t = [] -> sites_known t ->
  match foldM (map_pair lookup) t ps with
  | Ok t' => reachable t' /\ t_sites t' = t_sites t
      /\ (forall k l, link_stored t' k l <-> k = l_id l /\ exists x y, asked_pair lookup ps x y /\ s_type x <> CN /\ plain_link x y CANDIDATE l)
      /\ Forall pair_known ps /\ (forall x y, asked_pair lookup ps x y -> s_type x <> CN -> allowed (s_status x) (s_status y) CANDIDATE)
  | Err e => ~ (Forall pair_known ps /\ (forall x y, asked_pair lookup ps x y -> s_type x <> CN -> allowed (s_status x) (s_status y) CANDIDATE))
  end.
Proof.
  intros R El K. destruct (start t R El) as [G0 D0].
  assert (DEC : Forall pair_known ps \/ exists p, In p ps /\ ~ pair_known p).
  { clear. induction ps as [|p ps [IH|(q & Hq & N)]]; [left; constructor| |right; exists q; split; [now right|exact N]].
    unfold pair_known at 1. destruct (lookup (fst p)) eqn:A; [|right; exists p; split; [now left|]; unfold pair_known; intros [H _]; congruence].
    destruct (lookup (snd p)) eqn:B; [|right; exists p; split; [now left|]; unfold pair_known; intros [_ H]; congruence].
    left. constructor; [split; congruence|exact IH]. }
  destruct DEC as [F|N].
  - rewrite (fold_pairs ps t F).
    assert (FIT : Forall (fits t) (flat_map pair_items ps)).
    { apply Forall_forall. intros [[x y] o] H. apply pairs_in in H. destruct H as (-> & a & b & _ & H). unfold fits. cbn [fst snd wireless_of]. destruct K as [_ K].
      destruct H as [[A B]|[A B]]; apply K in A; apply K in B; auto. }
    assert (UNI : uniform (flat_map pair_items ps)). { right. intros [[x y] o] H. apply pairs_in in H. now destruct H as [-> _]. }
    pose proof (steps_spec t (flat_map pair_items ps) t [] G0 D0 FIT UNI) as SP. cbn [app] in SP. destruct (foldM step t (flat_map pair_items ps)) as [t'|e].
    + destruct SP as [(R' & Es' & Hl) Hg]. split; [exact R'|]. split; [exact Es'|]. split; [|split; [exact F|]].
      * intros k l. rewrite Hl. split.
        -- intros (x & y & o & Hin & Hx & -> & ->). split; [reflexivity|]. apply pairs_in in Hin. destruct Hin as [-> Hin]. exists x, y. split; [exact Hin|]. split; [exact Hx|]. now apply plain_the.
        -- intros (-> & x & y & Ha & Hx & Hp). apply plain_the in Hp. exists x, y, None. split; [apply pairs_in; auto|]. auto.
      * intros x y Ha Hx. destruct (Hg x y None) as [A _]; [apply pairs_in; auto|exact Hx|exact A].
    + destruct SP as [Ng _]. intros (_ & Hc). apply Ng. intros x y o H Hx. apply pairs_in in H. destruct H as [-> H]. split; [now apply Hc|].
      intros o' H'. apply pairs_in in H'. now destruct H' as [-> _].
  - destruct (foldM (map_pair lookup) t ps) as [t'|e] eqn:E; [now apply fold_pairs_err in E|]. intros [F _]. destruct N as (p & Hp & N). rewrite Forall_forall in F. now apply N, F.
Qed.
End Files.

(** ** The cells of the CSV file *)
Lemma fold_add l : forall acc, match foldM add_pair acc l with
  | Ok r => r = acc ++ map (fun p => (strip (fst p), strip (snd p))) l /\ (NoDup acc -> NoDup r)
  | Err e => e = DataExn /\ ~ NoDup (acc ++ map (fun p => (strip (fst p), strip (snd p))) l)
  end.
Proof.
  induction l as [|p l IH]; intros acc; cbn [foldM map]; [rewrite app_nil_r; auto|]. unfold add_pair at 1. destruct (mem (strip (fst p), strip (snd p)) acc) eqn:M; cbn [rbind].
  - split; [reflexivity|]. intros N. apply TopologyProofs.NoDup_app_iff in N. destruct N as (_ & _ & N). apply mem_In in M. apply (N _ M). now left.
  - specialize (IH (acc ++ [(strip (fst p), strip (snd p))])). rewrite <- app_assoc in IH. cbn [app] in IH. destruct (foldM add_pair _ l) as [r|e]; [|exact IH].
    destruct IH as [-> IH]. split; [reflexivity|]. intros N. apply IH. apply TopologyProofs.NoDup_app_iff. split; [exact N|]. split; [repeat constructor; intros []|].
    intros q Hq [<-|[]]. apply mem_not_In in M. contradiction.
Qed.
Definition both_ways (l : list (string * string)) : list (string * string) := flat_map (fun p => [p; (snd p, fst p)]) l.
Lemma fold_two l : forall acc, foldM (fun l p => do l <- add_pair l p ; add_pair l (snd p, fst p)) acc l = foldM add_pair acc (both_ways l).
Proof.
  intros acc. unfold both_ways. rewrite <- foldM_flat. apply foldM_ext. intros s p _. cbn [foldM]. destruct (add_pair s p) as [s1|]; cbn [rbind]; [|reflexivity]. now destruct (add_pair s1 _).
Qed.
