(** The theorems about the links of a file, in the form of the properties. *)
From Coq Require Import QArith Permutation Lia Ascii.
From Verif Require Import Base Dict MonadLib SetupModel LosRangeModel ConfModel LosTopoProofs TopologyModel TopologySpec LinkMapModel LinkMapSpec LinkMapProofs LinkMapFileProofs LinkKmlModel.
From Verif Require KmlModel KmlSpec KmlReadProofs TopologyProofs.
Local Open Scope string_scope.
Local Open Scope list_scope.

Section Kml.
Variable sites : list site.
Variable lookup : string -> option site.
Variable nearest : Q * Q -> option site.
Variable hash : site -> string.
Variable close : Q * Q -> site -> bool.
Notation map_links := (map_links sites lookup nearest hash close).
Notation asked := (asked sites lookup nearest hash close).
Notation resolvable := (resolvable lookup nearest).
Notation sites_known := (sites_known sites lookup).

Lemma links_of_file t raws t' : reachable t -> t_links t = [] -> sites_known t -> map_links raws t = Ok t' ->
  reachable t' /\ t_sites t' = t_sites t
  /\ forall k l, link_stored t' k l <-> k = l_id l /\ exists x y st, asked raws x y st /\ s_type x <> CN /\ plain_link x y st l.
Proof. intros R E K M. pose proof (map_links_spec sites lookup nearest hash close t raws R E K) as S1. rewrite M in S1. tauto. Qed.
Lemma loads_iff t raws : reachable t -> t_links t = [] -> sites_known t ->
  ((exists t', map_links raws t = Ok t') <->
   (raws = [] \/ sites <> []) /\ (forall r, In r raws -> rw_type r <> ETHERNET -> resolvable r)
   /\ forall x y st, asked raws x y st -> s_type x <> CN ->
        allowed (s_status x) (s_status y) st /\ forall st', asked raws x y st' -> st' = st).
Proof.
  intros R E K. pose proof (map_links_spec sites lookup nearest hash close t raws R E K) as S1. destruct (map_links raws t) as [t'|e].
  - split; [intros _; unfold consistent in S1; tauto|eauto].
  - split; [intros (t' & H); discriminate|]. intros H. exfalso. apply (proj1 S1). exact H.
Qed.
Lemma load_errors t raws e : reachable t -> t_links t = [] -> sites_known t -> map_links raws t = Err e -> e = DataExn \/ e = TopologyExn \/ e = PyAssertion.
Proof. intros R E K M. pose proof (map_links_spec sites lookup nearest hash close t raws R E K) as S1. rewrite M in S1. tauto. Qed.

Lemma asked_sym raws x y st : asked raws x y st -> asked raws y x st.
Proof. intros (r & A & B & C & D). exists r. tauto. Qed.
Lemma link_both_ways t raws t' k l y : reachable t -> t_links t = [] -> sites_known t -> map_links raws t = Ok t' ->
  link_stored t' k l -> dget (t_sites t') (l_rx l) = Some y -> s_type y <> CN ->
  exists k' l', link_stored t' k' l' /\ l_tx l' = l_rx l /\ l_rx l' = l_tx l /\ l_status l' = l_status l.
Proof.
  intros R E K M Hl Hy Ht. destruct (links_of_file t raws t' R E K M) as (R' & Es & HL). apply HL in Hl. destruct Hl as (-> & a & b & st & Ha & Hx & Hp).
  assert (Kb : known t b). { destruct Ha as (r & _ & _ & _ & J). destruct J as [J|J]; apply (joins_known sites lookup nearest hash close t r _ _ K) in J; tauto. }
  apply plain_the in Hp. subst l. cbn [the_link l_rx l_tx l_status] in *. rewrite Es in Hy. unfold known in Kb. rewrite Kb in Hy. injection Hy as ->.
  exists (l_id (the_link y a st)), (the_link y a st). split; [|cbn; auto]. apply HL. split; [reflexivity|]. exists y, a, st. split; [now apply asked_sym|]. split; [exact Ht|]. now apply plain_the.
Qed.
Lemma asked_perm raws raws' x y st : Permutation raws raws' -> asked raws x y st -> asked raws' x y st.
Proof. intros P (r & A & B). exists r. split; [now apply (Permutation_in _ P)|exact B]. Qed.
Lemma order_irrelevant t raws raws' t' : reachable t -> t_links t = [] -> sites_known t -> Permutation raws raws' -> map_links raws t = Ok t' ->
  exists t'', map_links raws' t = Ok t'' /\ t_sites t'' = t_sites t' /\ same_content (t_links t'') (t_links t').
Proof.
  intros R E K P M. assert (P' := Permutation_sym P).
  destruct (proj1 (loads_iff t raws R E K) (ex_intro _ t' M)) as (A & B & C).
  destruct (proj2 (loads_iff t raws' R E K)) as (t'' & M'').
  { split; [|split].
    - destruct A as [->|A]; [left; now apply Permutation_nil in P|now right].
    - intros r Hr. apply B. now apply (Permutation_in _ P').
    - intros x y st Ha Hx. destruct (C x y st) as [C1 C2]; [now apply (asked_perm raws')|exact Hx|]. split; [exact C1|]. intros st' H'. apply C2. now apply (asked_perm raws'). }
  exists t''. split; [exact M''|]. destruct (links_of_file t raws t' R E K M) as (_ & S1 & L1). destruct (links_of_file t raws' t'' R E K M'') as (_ & S2 & L2). split; [congruence|].
  assert (EQ : forall k l, dget (t_links t'') k = Some l <-> dget (t_links t') k = Some l).
  { intros k l. rewrite (L1 k l), (L2 k l). split; intros (-> & x & y & st & Ha & H); (split; [reflexivity|]); exists x, y, st; (split; [|exact H]); [now apply (asked_perm raws')|now apply (asked_perm raws)]. }
  intros k. destruct (dget (t_links t'') k) as [l|] eqn:D; [symmetry; now apply EQ|]. destruct (dget (t_links t') k) as [l|] eqn:D'; [|reflexivity]. apply EQ in D'. congruence.
Qed.
End Kml.

Lemma ends_by_name sites lookup n h c sites' n' h' c' r r' : rw_tx r <> None -> rw_rx r <> None -> rw_tx r' = rw_tx r -> rw_rx r' = rw_rx r ->
  ends_of sites lookup n h c r = ends_of sites' lookup n' h' c' r'.
Proof.
  intros A B E1 E2. unfold ends_of. rewrite E1, E2. destruct (rw_tx r); [|congruence]. destruct (rw_rx r); [|congruence]. reflexivity.
Qed.
(** the links of a KML file wherever they are drawn *)
Definition same_but_drawn (w w' : KmlModel.raw_link) : Prop :=
  KmlModel.w_type w' = KmlModel.w_type w /\ KmlModel.w_status w' = KmlModel.w_status w /\ KmlModel.w_tx w' = KmlModel.w_tx w /\ KmlModel.w_rx w' = KmlModel.w_rx w.
Lemma add_between_raw t x y r r' : rw_type r' = rw_type r -> rw_status r' = rw_status r -> add_between t x y (Some r) = add_between t x y (Some r').
Proof. intros A B. unfold add_between. now rewrite A, B. Qed.
Lemma map_raw_drawn sites lookup n h c n' h' c' w w' t : same_but_drawn w w' ->
  map_raw sites lookup n h c t (of_kml w) = map_raw sites lookup n' h' c' t (of_kml w').
Proof.
  intros (A & B & C & D). unfold map_raw. cbn [of_kml rw_type]. rewrite A. destruct (beq (KmlModel.w_type w) ETHERNET); [reflexivity|].
  rewrite (ends_by_name sites lookup n h c sites n' h' c' (of_kml w) (of_kml w')); [|discriminate|discriminate|cbn; congruence|cbn; congruence].
  destruct (ends_of sites lookup n' h' c' (of_kml w')) as [ps|e]; [|reflexivity]. cbn [rbind]. apply foldM_ext. intros s p _. unfold add_both.
  rewrite (add_between_raw s (fst p) (snd p) (of_kml w) (of_kml w')) by (cbn; congruence). destruct (add_between s (fst p) (snd p) (Some (of_kml w'))); [|reflexivity]. cbn [rbind].
  apply add_between_raw; cbn; congruence.
Qed.
Lemma drawing_ignored sites lookup n h c n' h' c' ws ws' t : Forall2 same_but_drawn ws ws' ->
  map_links sites lookup n h c (map of_kml ws) t = map_links sites lookup n' h' c' (map of_kml ws') t.
Proof.
  intros F. unfold map_links. destruct F as [|w w' ws ws' Hw F]; [reflexivity|]. destruct sites as [|s0 ss]; [reflexivity|]. cbn [map guard rbind foldM].
  rewrite (map_raw_drawn (s0 :: ss) lookup n h c n' h' c' w w' t Hw). destruct (map_raw (s0 :: ss) lookup n' h' c' t (of_kml w')) as [t1|]; [|reflexivity]. cbn [rbind]. clear Hw.
  revert t1. induction F as [|u u' us us' Hu F IH]; intros t1; [reflexivity|]. cbn [map foldM]. rewrite (map_raw_drawn (s0 :: ss) lookup n h c n' h' c' u u' t1 Hu).
  destruct (map_raw (s0 :: ss) lookup n' h' c' t1 (of_kml u')); [|reflexivity]. cbn [rbind]. apply IH.
Qed.

(** ** A file that was written by the planner *)
Lemma Forall2_In_l {A B} (P : A -> B -> Prop) l m x : Forall2 P l m -> In x l -> exists y, In y m /\ P x y.
Proof. intros F. induction F as [|a b l m H F IH]; [intros []|]. intros [->|Hx]; [exists b; split; [now left|exact H]|]. destruct (IH Hx) as (y & A1 & A2). exists y. split; [now right|exact A2]. Qed.
Lemma Forall2_In_r {A B} (P : A -> B -> Prop) l m y : Forall2 P l m -> In y m -> exists x, In x l /\ P x y.
Proof. intros F. induction F as [|a b l m H F IH]; [intros []|]. intros [->|Hx]; [exists a; split; [now left|exact H]|]. destruct (IH Hx) as (x & A1 & A2). exists x. split; [now right|exact A2]. Qed.

Import KmlModel KmlSpec.
Lemma kind_ethernet l ty : kind l ty -> (ty <> ETHERNET <-> e_wireless l = true).
Proof.
  intros (A & B & C). destruct (e_wireless l); [|split; [intros H; exfalso; now apply H, A|discriminate]]. split; [reflexivity|]. intros _.
  destruct (k_type (e_rx l)); [rewrite (B eq_refl eq_refl)|rewrite C by (reflexivity || discriminate)..]; discriminate.
Qed.
Lemma reloaded num attribute pop kt d rs rl rd sites lookup nearest hash close conv t t' :
  float_text num -> attribute_text attribute -> picks pop -> texts kt -> no_markup (kt_name kt) ->
  write_kml num attribute kt = Ok d -> read_kml pop d = Ok (rs, rl, rd) ->
  (forall l s, In l (kt_links kt) -> s = e_tx l \/ s = e_rx l -> lookup (shown s) = Some (conv s) /\ s_type (conv s) = k_type s) ->
  (forall l, In l (kt_links kt) -> k_type (e_tx l) <> CN) ->
  (forall l, In l (kt_links kt) -> e_wireless l = true -> k_type (e_rx l) <> CN ->
     exists r, In r (kt_links kt) /\ e_wireless r = true /\ e_tx r = e_rx l /\ e_rx r = e_tx l /\ e_status r = e_status l) ->
  reachable t -> t_links t = [] -> sites_known sites lookup t ->
  map_links sites lookup nearest hash close (map of_kml rl) t = Ok t' ->
  forall k l, link_stored t' k l <-> k = l_id l /\
    exists e, In e (kt_links kt) /\ e_wireless e = true /\ plain_link (conv (e_tx e)) (conv (e_rx e)) (e_status e) l.
Proof.
  intros H1 H2 H3 H4 H5 HW HR HL HT HB R E K M k l.
  destruct (KmlReadProofs.round_trip num attribute pop H1 H2 H3 kt d H4 H5 HW) as (rs0 & rl0 & rd0 & rs' & rl' & E0 & _ & _ & P & F & _).
  rewrite HR in E0. injection E0 as <- <- <-.
  destruct (links_of_file sites lookup nearest hash close t _ t' R E K M) as (_ & _ & HS). rewrite HS.
  assert (AK : forall x y st, asked sites lookup nearest hash close (map of_kml rl) x y st <->
     exists e, In e (kt_links kt) /\ e_wireless e = true /\ e_status e = st /\ ((x = conv (e_tx e) /\ y = conv (e_rx e)) \/ (y = conv (e_tx e) /\ x = conv (e_rx e)))).
  { intros x y st. unfold asked. split.
    - intros (r & Hr & Nt & Es & J). apply in_map_iff in Hr. destruct Hr as (w & <- & Hw). apply (Permutation_in _ (Permutation_sym P)) in Hw.
      destruct (Forall2_In_r _ _ _ _ F Hw) as (e & He & Hk & Hst & Htx & Hrx & _). exists e. split; [exact He|].
      split; [now apply (kind_ethernet e _ Hk)|]. split; [rewrite <- Hst; exact Es|].
      destruct (HL e (e_tx e) He (or_introl eq_refl)) as [L1 _]. destruct (HL e (e_rx e) He (or_intror eq_refl)) as [L2 _]. rewrite <- Htx in L1. rewrite <- Hrx in L2.
      destruct J as [J|J]; apply (joins_named _ _ _ _ _ (of_kml w) (w_tx w) (w_rx w)) in J; try reflexivity; destruct J as [J1 J2]; rewrite L1 in J1; rewrite L2 in J2; injection J1 as <-; injection J2 as <-; auto.
    - intros (e & He & Hw & <- & J). destruct (Forall2_In_l _ _ _ _ F He) as (w & Hin & Hk & Hst & Htx & Hrx & _). apply (Permutation_in _ P) in Hin.
      exists (of_kml w). split; [now apply in_map|]. split; [now apply (kind_ethernet e _ Hk)|]. split; [exact Hst|].
      destruct (HL e (e_tx e) He (or_introl eq_refl)) as [L1 _]. destruct (HL e (e_rx e) He (or_intror eq_refl)) as [L2 _]. rewrite <- Htx in L1. rewrite <- Hrx in L2.
      destruct J as [[-> ->]|[-> ->]]; [left|right]; apply (joins_named _ _ _ _ _ (of_kml w) (w_tx w) (w_rx w)); auto. }
  split.
  - intros (-> & x & y & st & Ha & Hx & Hp). split; [reflexivity|]. apply AK in Ha. destruct Ha as (e & He & Hw & <- & J). destruct J as [[-> ->]|[-> ->]]; [exists e; auto|].
    destruct (HL e (e_rx e) He (or_intror eq_refl)) as [_ Ty]. rewrite Ty in Hx. destruct (HB e He Hw Hx) as (r & Hr & Hrw & Er1 & Er2 & Er3). exists r. rewrite Er1, Er2, Er3. auto.
  - intros (-> & e & He & Hw & Hp). split; [reflexivity|]. exists (conv (e_tx e)), (conv (e_rx e)), (e_status e). split; [apply AK; exists e; auto 6|]. split; [|exact Hp].
    destruct (HL e (e_tx e) He (or_introl eq_refl)) as [_ ->]. now apply HT.
Qed.

(** ** Cells *)
Lemma split_arrow_cons cur c r : split_arrow cur (String c r) =
  match String c r with
  | String "-" (String "-" (String ">" q)) => cur :: split_arrow "" q
  | _ => split_arrow (cur ++ String c "") r
  end.
Proof. reflexivity. Qed.
Lemma arrow_dec s : (exists q, s = String "-" (String "-" (String ">" q))) \/ ~ (exists q, s = String "-" (String "-" (String ">" q))).
Proof.
  destruct s as [|a [|b [|c q]]]; try (right; intros (q' & E); discriminate).
  destruct (ascii_dec a "-") as [->|N]; [|right; intros (q' & E); injection E; intros; contradiction].
  destruct (ascii_dec b "-") as [->|N]; [|right; intros (q' & E); injection E; intros; contradiction].
  destruct (ascii_dec c ">") as [->|N]; [|right; intros (q' & E); injection E; intros; contradiction]. left. eauto.
Qed.
Lemma split_skip cur c r : ~ (exists q, String c r = String "-" (String "-" (String ">" q))) -> split_arrow cur (String c r) = split_arrow (cur ++ String c "") r.
Proof.
  intros N. rewrite split_arrow_cons. destruct (ascii_dec c "-") as [->|H].
  - destruct r as [|b r]; [reflexivity|]. destruct (ascii_dec b "-") as [->|H].
    + destruct r as [|e r]; [reflexivity|]. destruct (ascii_dec e ">") as [->|H]; [exfalso; apply N; eauto|]. clear N. destruct e as [[] [] [] [] [] [] [] []]; try reflexivity; now contradiction H.
    + clear N. destruct b as [[] [] [] [] [] [] [] []]; try reflexivity; now contradiction H.
  - clear N. destruct c as [[] [] [] [] [] [] [] []]; try reflexivity; now contradiction H.
Qed.
Lemma str_app_assoc (a b c : string) : ((a ++ b) ++ c = a ++ (b ++ c))%string.
Proof. induction a; cbn; congruence. Qed.
Lemma str_app_nil (a : string) : (a ++ "" = a)%string.
Proof. induction a; cbn; congruence. Qed.
Lemma split_none b : no_arrow b -> forall cur, split_arrow cur b = [(cur ++ b)%string].
Proof.
  induction b as [|c b IH]; intros N cur; [cbn; now rewrite str_app_nil|]. destruct N as [N1 N2]. rewrite split_skip by exact N1. rewrite IH by exact N2. f_equal. rewrite str_app_assoc. reflexivity.
Qed.
Lemma straddle c a b : ~ (exists q, String c a = String "-" (String "-" (String ">" q))) -> ~ (exists q, String c (a ++ "-->" ++ b) = String "-" (String "-" (String ">" q))).
Proof.
  intros N (q & E). injection E. intros E2 Ec. apply N. subst c. destruct a as [|x [|y a]]; cbn in E2; injection E2.
  - intros _ E3. discriminate.
  - intros _ E3 _. discriminate.
  - intros _ E3 E4. subst. eauto.
Qed.
Lemma split_cell a b : no_arrow a -> no_arrow b -> split_arrow "" (a ++ "-->" ++ b) = [a; b].
Proof.
  intros Na Nb. assert (H : forall cur, split_arrow cur (a ++ "-->" ++ b) = [(cur ++ a)%string; b]); [|apply H].
  induction a as [|c a IH]; intros cur.
  - rewrite str_app_nil. cbn [append]. change (split_arrow cur (String "-" (String "-" (String ">" b)))) with (cur :: split_arrow "" b). now rewrite split_none.
  - destruct Na as [N1 N2]. change ((String c a ++ "-->" ++ b)%string) with (String c (a ++ "-->" ++ b)%string). rewrite split_skip by now apply straddle.
    rewrite IH by exact N2. rewrite str_app_assoc. reflexivity.
Qed.
Definition stripped (l : list (string * string)) : list (string * string) := map (fun p => (strip (fst p), strip (snd p))) l.
Lemma load_txrx l : match load_pairs (TxRx l) with Ok ps => ps = stripped l /\ NoDup ps | Err e => e = DataExn /\ ~ NoDup (stripped l) end.
Proof. pose proof (fold_add l []) as H. cbn [load_pairs]. destruct (foldM add_pair [] l); cbn [app] in H; [|exact H]. destruct H as [-> H]. split; [reflexivity|]. apply H. constructor. Qed.
Lemma load_two l : load_pairs (TwoSites l) = load_pairs (TxRx (both_ways l)).
Proof. apply fold_two. Qed.
Lemma load_cells l : Forall (fun p => no_arrow (fst p) /\ no_arrow (snd p)) l ->
  load_pairs (SitePairs (map (fun p => (fst p ++ "-->" ++ snd p)%string) l)) = load_pairs (TxRx l).
Proof.
  intros F. cbn [load_pairs]. rewrite <- foldM_map. apply foldM_ext. intros s p Hp. rewrite Forall_forall in F. destruct (F p Hp) as [A B]. rewrite split_cell by assumption. now destruct p.
Qed.
Lemma load_bad_cell l s : In s l -> (forall a b, split_arrow "" s <> [a; b]) -> exists e, load_pairs (SitePairs l) = Err e.
Proof.
  intros Hin Hs. cbn [load_pairs]. generalize (@nil (string * string)). induction l as [|x l IH]; intros acc; [destruct Hin|]. cbn [foldM]. destruct Hin as [->|Hin].
  - destruct (split_arrow "" s) as [|a [|b [|c r]]] eqn:E; try (exists DataExn; reflexivity). exfalso. now apply (Hs a b).
  - match goal with |- context [rbind ?m _] => destruct m as [acc'|e] end; cbn [rbind]; [now apply IH|eauto].
Qed.
