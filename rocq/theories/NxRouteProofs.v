From Coq Require Import ZArith Lia.
From Verif Require Import Base Dict MonadLib SetupModel LosRangeModel TopologyModel TopologySpec TopologyLemmas TopologyProofs GraphSpec GraphProofs NxModel NxSpec NxProofs NxFailProofs NxBuildProofs NxPathProofs.
Local Open Scope list_scope.

(** *** the links on the chosen paths *)
Lemma inner_iff a mid d u v : inner_step (SUPERSOURCE :: (a :: mid) ++ [d]) u v <-> step_of (a :: mid) u v.
Proof.
  split; [intros (m & d' & E & H)|intros H; exists (a :: mid), d; auto]. injection E as E. change (a :: mid ++ [d]) with ((a :: mid) ++ [d]) in E. apply app_inj_tail in E. destruct E as [-> _]. exact H.
Qed.
Lemma path_links_ok t post mid : forall pre a acc, (forall u v, step_of (a :: mid) u v -> dmem (t_links t) (link_id_of u v) = true) -> NoDup acc ->
  exists acc', path_links t (pre ++ (a :: mid) ++ post) (S (List.length pre)) (List.length mid) acc = Ok acc' /\ NoDup acc' /\
    forall k, In k acc' <-> In k acc \/ exists u v, step_of (a :: mid) u v /\ k = link_id_of u v.
Proof.
  induction mid as [|b mid IH]; intros pre a acc H N; cbn [List.length path_links].
  - exists acc. split; [reflexivity|]. split; [exact N|]. intros k. split; [auto|intros [X|(u & v & X & _)]; [exact X|destruct (step_one _ _ _ X)]].
  - cbn [Nat.sub]. rewrite Nat.sub_0_r. replace (pre ++ (a :: b :: mid) ++ post) with (pre ++ a :: (b :: mid ++ post)) by reflexivity. rewrite (node_at_app pre a) by reflexivity. cbn [rbind].
    replace (pre ++ a :: b :: mid ++ post) with ((pre ++ [a]) ++ (b :: mid) ++ post) by (rewrite <- app_assoc; reflexivity).
    rewrite (node_at_app (pre ++ [a]) b (mid ++ post)) by (rewrite app_length; cbn; lia). cbn [rbind]. rewrite H by constructor.
    destruct (IH (pre ++ [a]) b (sadd (link_id_of a b) acc)) as (acc' & E & N' & I'); [intros u v X; apply H; now constructor|now apply sadd_NoDup|].
    rewrite app_length, Nat.add_1_r in E. exists acc'. split; [exact E|]. split; [exact N'|]. intros k. rewrite I', sadd_In. split.
    + intros [[->|X]|(u & v & X & ->)]; [right; exists a, b; split; [constructor|reflexivity]|auto|right; exists u, v; split; [now constructor|reflexivity]].
    + intros [X|(u & v & X & ->)]; [auto|]. apply step_cons in X. destruct X as [[-> ->]|X]; [auto|right; eauto].
Qed.
Section Route.
Variables (t : topo) (g : graph) (paths : dict string (list string)).
Hypothesis Sh : shape t g.
Hypothesis Lk : forall u v, arc g u v -> site_stored t u -> site_stored t v -> dmem (t_links t) (link_id_of u v) = true.
Hypothesis P : forall d D p, dget (t_demands t) d = Some D -> dget paths d = Some p -> path_to (arc g) d p.
Hypothesis Wd : dwf (t_demands t).
Lemma routing_ok : exists L, routing_links t paths = Ok L /\ lists_all L (fun k => exists d D p u v, dget (t_demands t) d = Some D /\ dget paths d = Some p /\ inner_step p u v /\ k = link_id_of u v).
Proof using Sh Lk P Wd.
  unfold routing_links. assert (X : forall l acc, NoDup acc -> (forall d, In d l -> exists D, dget (t_demands t) d = Some D) ->
    exists L, foldM (fun acc i => match dget paths i with None => Ok acc | Some p => path_links t p 2 (List.length p - 3) acc end) acc l = Ok L /\ NoDup L /\
      forall k, In k L <-> In k acc \/ exists d p u v, In d l /\ dget paths d = Some p /\ inner_step p u v /\ k = link_id_of u v).
  { induction l as [|d l IH]; intros acc N Hl; cbn [foldM].
    - exists acc. split; [reflexivity|]. split; [exact N|]. intros k. split; [auto|intros [H|(d & p & u & v & [] & _)]; exact H].
    - assert (Hl' : forall d, In d l -> exists D, dget (t_demands t) d = Some D) by (intros x Hx; apply Hl; now right). destruct (dget paths d) as [p|] eqn:Ep.
      + destruct (Hl d) as [D HD]; [now left|]. destruct (path_form t g paths Sh P d D p HD Ep) as (a & mid & s & E & Nd & Ea & Et & HS & F).
        destruct (path_links_ok t [d] mid [SUPERSOURCE] a acc) as (acc1 & E1 & N1 & I1).
        * intros u v H. apply Lk; [apply F; rewrite E; apply step_later; now apply step_more| |]; apply HS; now apply step_in in H.
        * exact N.
        * cbn [rbind]. replace (path_links t p 2 (List.length p - 3) acc) with (Ok acc1) by (rewrite E; symmetry; cbn [List.length app]; rewrite app_length; cbn [List.length]; replace (S (S (List.length mid + 1)) - 3) with (List.length mid) by lia; exact E1).
          cbn [rbind]. destruct (IH acc1 N1 Hl') as (L & E2 & N2 & I2). exists L. split; [exact E2|]. split; [exact N2|]. intros k. rewrite I2, I1. split.
          -- intros [[H|(u & v & H & ->)]|(x & q & u & v & H1 & H2 & H3)]; [auto| |right; exists x, q, u, v; cbn; tauto]. right. exists d, p, u, v. split; [now left|]. split; [exact Ep|]. split; [|reflexivity]. rewrite E. now apply inner_iff.
          -- intros [H|(x & q & u & v & [<-|H1] & H2 & H3 & ->)]; [auto| |right; exists x, q, u, v; auto]. assert (q = p) by congruence. subst q. rewrite E in H3. apply inner_iff in H3. left. right. eauto.
      + cbn [rbind]. destruct (IH acc N Hl') as (L & E2 & N2 & I2). exists L. split; [exact E2|]. split; [exact N2|]. intros k. rewrite I2. split.
        * intros [H|(x & q & u & v & H1 & H2)]; [auto|]. right. exists x, q, u, v. cbn. tauto.
        * intros [H|(x & q & u & v & [<-|H1] & H2 & H3)]; [auto|congruence|]. right. exists x, q, u, v. auto. }
  destruct (X (dkeys (t_demands t)) []) as (L & E & N & I'); [constructor|intros d Hd; now apply dmem_Some, dmem_keys|]. exists L. split; [exact E|]. split; [exact N|]. intros k. rewrite I'. split.
  - intros [[]|(d & p & u & v & H1 & H2)]. apply dmem_keys, dmem_Some in H1. destruct H1 as [D H1]. exists d, D, p, u, v. tauto.
  - intros (d & D & p & u & v & H1 & H2). right. exists d, p, u, v. split; [|exact H2]. apply dmem_keys, dmem_Some. eauto.
Qed.
End Route.

(** *** zones *)
Lemma sub_ok g L : graph_ok g -> graph_ok (subgraph g L) /\ (forall u v, arc (subgraph g L) u v <-> arc g u v /\ In u L /\ In v L) /\ (forall u, node (subgraph g L) u <-> node g u /\ In u L).
Proof.
  intros G. pose proof G as (W1 & W2 & W3 & N & A). unfold subgraph.
  assert (FG : forall {B} (l : dict string B) x, dget (filter (fun q => mem (fst q) L) l) x = if mem x L then dget l x else None).
  { clear. intros B l x. induction l as [|[k b] l IH]; cbn [filter dget fst]; [now destruct (mem x L)|]. destruct (mem k L) eqn:Ek; cbn [dget]; destruct (beq_spec x k) as [->|Hk].
    - now rewrite Ek.
    - exact IH.
    - rewrite IH. now rewrite Ek.
    - exact IH. }
  assert (MG : forall {B C} (h : string -> B -> C) (l : dict string B) x, dget (map (fun q => (fst q, h (fst q) (snd q))) l) x = option_map (h x) (dget l x)).
  { clear. intros B C h l x. induction l as [|[k b] l IH]; cbn [map dget fst snd]; [reflexivity|]. destruct (beq_spec x k) as [->|]; [reflexivity|exact IH]. }
  assert (FW : forall {B} (l : dict string B), dwf l -> dwf (filter (fun q => mem (fst q) L) l)).
  { clear. intros B l. unfold dwf, dkeys. induction l as [|q l IH]; cbn [filter map]; intros H; [constructor|]. inversion H as [|? ? H1 H2]; subst. destruct (mem (fst q) L); [|auto]. cbn [map]. constructor; [|auto]. intros X. apply H1. apply in_map_iff in X. destruct X as (y & E & X). apply filter_In in X. apply in_map_iff. exists y. tauto. }
  assert (RG : forall u, dget (map (fun q : string * dict string eattr => (fst q, filter (fun r : string * eattr => mem (fst r) L) (snd q))) (filter (fun q => mem (fst q) L) (g_adj g))) u = if mem u L then option_map (fun r => filter (fun e : string * eattr => mem (fst e) L) r) (dget (g_adj g) u) else None).
  { intros u. rewrite (MG _ _ (fun _ r => filter (fun e : string * eattr => mem (fst e) L) r)), FG. now destruct (mem u L). }
  assert (HA : forall u v, arc (subgraph g L) u v <-> arc g u v /\ In u L /\ In v L).
  { intros u v. unfold arc, subgraph. cbn [g_adj]. rewrite RG. destruct (mem u L) eqn:Eu.
    - apply mem_In in Eu. destruct (dget (g_adj g) u) as [r|]; cbn [option_map].
      + split.
        * intros (r' & a & E & E'). injection E as <-. rewrite FG in E'. destruct (mem v L) eqn:Ev; [|discriminate]. apply mem_In in Ev. eauto 6.
        * intros ((r' & a & E & E') & _ & Hv). injection E as <-. eexists. exists a. split; [reflexivity|]. rewrite FG. apply mem_In in Hv. now rewrite Hv.
      + split; [intros (r & a & E & _); discriminate|intros ((r & a & E & _) & _); discriminate].
    - apply mem_not_In in Eu. split; [intros (r & a & E & _); discriminate|tauto]. }
  assert (HN : forall u, node (subgraph g L) u <-> node g u /\ In u L).
  { intros u. unfold node, subgraph. cbn [g_nodes]. rewrite FG. destruct (mem u L) eqn:Eu; [apply mem_In in Eu; tauto|]. apply mem_not_In in Eu. split; [intros [ty E]; discriminate|tauto]. }
  split; [|split; [exact HA|exact HN]]. split; [|split; [|split; [|split]]].
  - cbn [g_nodes subgraph]. now apply FW.
  - cbn [g_adj subgraph]. unfold dwf, dkeys. rewrite map_map. cbn [fst]. apply (FW _ (g_adj g) W2).
  - cbn [g_adj subgraph]. intros u r. rewrite RG. destruct (mem u L); [|discriminate]. destruct (dget (g_adj g) u) as [r'|] eqn:Er; [|discriminate]. intros E. injection E as <-. apply FW. now apply (W3 u).
  - intros u. rewrite HN, N. cbn [g_adj subgraph]. rewrite RG. destruct (mem u L) eqn:Eu.
    + apply mem_In in Eu. destruct (dget (g_adj g) u) as [r|]; cbn [option_map]; split; [eauto|intros _; split; [eauto|exact Eu]|intros [[r E] _]; discriminate|intros [r E]; discriminate].
    + apply mem_not_In in Eu. split; [tauto|intros [r E]; discriminate].
  - intros u v H. apply HA in H. apply HN. split; [now apply (A u)|tauto].
Qed.
Lemma zones_ok (l : list (string * list string)) : forall z, dwf z -> let z' := fold_left (fun z (q : string * list string) =>
      match snd q with
      | _ :: pop :: _ => dset z pop (fold_left (fun acc x => sadd x acc) (snd q) (match dget z pop with Some l => l | None => [] end))
      | _ => z
      end) l z in
  dwf z' /\ (forall pop L, dget z' pop = Some L -> forall x, In x L <-> (exists L0, dget z pop = Some L0 /\ In x L0) \/ exists d p, In (d, p) l /\ second p = Some pop /\ In x p)
  /\ (forall pop, (exists L0, dget z pop = Some L0) \/ (exists d p, In (d, p) l /\ second p = Some pop) -> exists L, dget z' pop = Some L).
Proof.
  induction l as [|[d p] l IH]; intros z W z'; cbn [fold_left snd] in z'.
  - unfold z'. split; [exact W|]. split; [intros pop L E x; rewrite E; split; [intros H; left; eauto|intros [(L0 & E' & H)|(d & p & [] & _)]; congruence]|]. intros pop [H|(d & p & [] & _)]. exact H.
  - destruct p as [|s [|pop0 r]].
    + destruct (IH z W) as (W' & I' & E'). fold z' in W', I', E'. split; [exact W'|]. split.
      * intros pop L E x. rewrite (I' pop L E x). split; [intros [H|(d' & p & H & H')]; [auto|right; exists d', p; cbn; tauto]|intros [H|(d' & p & [X|H] & H')]; [auto|injection X as <- <-; destruct H'; discriminate|right; eauto]].
      * intros pop [H|(d' & p & [X|H] & H')]; [apply E'; auto|injection X as <- <-; discriminate|apply E'; right; eauto].
    + destruct (IH z W) as (W' & I' & E'). fold z' in W', I', E'. split; [exact W'|]. split.
      * intros pop L E x. rewrite (I' pop L E x). split; [intros [H|(d' & p & H & H')]; [auto|right; exists d', p; cbn; tauto]|intros [H|(d' & p & [X|H] & H')]; [auto|injection X as <- <-; destruct H'; discriminate|right; eauto]].
      * intros pop [H|(d' & p & [X|H] & H')]; [apply E'; auto|injection X as <- <-; discriminate|apply E'; right; eauto].
    + assert (FI : forall M x, In x (fold_left (fun acc x => sadd x acc) r (sadd pop0 (sadd s M))) <-> In x (s :: pop0 :: r) \/ In x M) by (intros M x; apply (fold_sadd_In (s :: pop0 :: r))).
      set (z1 := dset z pop0 _) in z'. assert (W1 : dwf z1) by now apply dwf_set. destruct (IH z1 W1) as (W' & I' & E'). fold z' in W', I', E'. split; [exact W'|]. split.
      * intros pop L E x. rewrite (I' pop L E x). unfold z1. destruct (beq_spec pop pop0) as [->|Hp].
        -- split.
           ++ intros [(L0 & X & H)|(d' & p & H & H')]; [|right; exists d', p; cbn; tauto]. rewrite dget_set_eq in X. injection X as <-. apply FI in H. destruct H as [H|H]; [right; exists d, (s :: pop0 :: r); cbn [In]; auto|]. revert H. destruct (dget z pop0) as [L0|]; intros H; [left; eauto|destruct H].
           ++ intros [(L0 & X & H)|(d' & p & [X|H] & H' & H'')].
              ** left. eexists. split; [apply dget_set_eq|]. apply FI. right. now rewrite X.
              ** injection X as <- <-. left. eexists. split; [apply dget_set_eq|]. apply FI. now left.
              ** right. eauto.
        -- rewrite dget_set_neq by exact Hp. split; [intros [H|(d' & p & H & H')]; [auto|right; exists d', p; cbn; tauto]|intros [H|(d' & p & [X|H] & H' & H'')]; [auto|injection X as <- <-; cbn in H'; congruence|right; eauto]].
      * intros pop H. apply E'. unfold z1. destruct (beq_spec pop pop0) as [->|Hp]; [left; rewrite dget_set_eq; eauto|]. rewrite dget_set_neq by exact Hp. destruct H as [H|(d' & p & [X|H] & H')]; [auto|injection X as <- <-; cbn in H'; congruence|right; eauto].
Qed.
Lemma merge_ok (h : list string -> dict string (list string)) (z : list (string * list string)) : forall acc d,
  let r := dget (fold_left (fun acc (q : string * list string) => fold_left (fun acc (e : string * list string) => dset acc (fst e) (snd e)) (h (snd q)) acc) z acc) d in
  (forall p, r = Some p -> dget acc d = Some p \/ exists pop L, In (pop, L) z /\ In (d, p) (h L)) /\
  (r = None -> dget acc d = None /\ forall pop L, In (pop, L) z -> ~ exists p, In (d, p) (h L)).
Proof.
  assert (One : forall (l : list (string * list string)) acc d, let r := dget (fold_left (fun acc (e : string * list string) => dset acc (fst e) (snd e)) l acc) d in
    (forall p, r = Some p -> dget acc d = Some p \/ In (d, p) l) /\ (r = None -> dget acc d = None /\ ~ exists p, In (d, p) l)).
  { induction l as [|[k v] l IH]; intros acc d r; cbn [fold_left fst snd] in r.
    - unfold r. split; [auto|]. intros H. split; [exact H|intros [p []]].
    - destruct (IH (dset acc k v) d) as [I1 I2]. fold r in I1, I2. split.
      + intros p H. destruct (I1 p H) as [X|X]; [|right; now right]. rewrite dget_set in X. destruct (beq_spec d k) as [->|]; [|auto]. injection X as <-. right. now left.
      + intros H. destruct (I2 H) as [X1 X2]. rewrite dget_set in X1. destruct (beq_spec d k) as [->|Hd]; [discriminate|]. split; [exact X1|]. intros [p [X|X]]; [congruence|]. apply X2. eauto. }
  induction z as [|[pop L] z IH]; intros acc d r; cbn [fold_left snd] in r.
  - unfold r. split; [auto|]. intros H. split; [exact H|]. intros pop L [].
  - destruct (IH (fold_left (fun acc (e : string * list string) => dset acc (fst e) (snd e)) (h L) acc) d) as [I1 I2]. fold r in I1, I2. destruct (One (h L) acc d) as [O1 O2]. split.
    + intros p H. destruct (I1 p H) as [X|(pop' & L' & X & X')]; [|right; exists pop', L'; cbn; auto]. destruct (O1 p X) as [Y|Y]; [auto|]. right. exists pop, L. cbn. auto.
    + intros H. destruct (I2 H) as [X1 X2]. destruct (O2 X1) as [Y1 Y2]. split; [exact Y1|]. intros pop' L' [E|X]; [injection E as <- <-; exact Y2|now apply (X2 pop')].
Qed.
Section Dpa.
Variables (t : topo) (g : graph) (paths : dict string (list string)) (cheapest : graph -> dict string (list string)).
Hypothesis G : graph_ok g.
Hypothesis Hs : node g SUPERSOURCE.
Hypothesis Sh : shape t g.
Hypothesis F : fewest g paths.
Hypothesis C : forall h, graph_ok h -> node h SUPERSOURCE -> paths_ok h (cheapest h).
Lemma fewest_demand d D p : dget (t_demands t) d = Some D -> dget paths d = Some p -> path_to (arc g) d p.
Proof using Sh F. intros HD Hp. destruct Sh as (_ & _ & S3), F as ((_ & P1 & _) & _). destruct (S3 _ _ HD) as [_ X]. destruct (P1 _ _ Hp) as [[Y _]|Y]; [contradiction|exact Y]. Qed.
Lemma dpa_ok d D : dget (t_demands t) d = Some D ->
  (dget (dpa_paths cheapest g paths) d = None -> ~ linked (arc g) d) /\
  (forall p, dget (dpa_paths cheapest g paths) d = Some p -> path_to (arc g) d p /\ exists p0 pop, dget paths d = Some p0 /\ second p0 = Some pop /\ second p = Some pop).
Proof using G Hs Sh F C.
  intros HD. pose proof F as ((W & P1 & P2) & Min). destruct (zones_ok paths [] dwf_nil) as (ZW & ZI & ZE). change (fold_left _ paths []) with (zones paths) in ZW, ZI, ZE.
  destruct (merge_ok (fun L => cheapest (subgraph g L)) (zones paths) [] d) as [M1 M2]. change (fold_left _ (zones paths) []) with (dpa_paths cheapest g paths) in M1, M2.
  destruct Sh as (S1 & S2 & S3). destruct (S3 d D HD) as [Hd1 Hd2].
  assert (Out : forall y, ~ arc g d y) by (intros y H; destruct (S2 _ _ H); contradiction).
  assert (Zs : forall pop L, dget (zones paths) pop = Some L -> In SUPERSOURCE L).
  { intros pop L E. assert (X : exists d p, In (d, p) paths /\ second p = Some pop).
    { clear -E. unfold zones in E. assert (X : forall (l : list (string * list string)) z, (exists L, dget z pop = Some L) \/ (exists d p, In (d, p) l /\ second p = Some pop) \/ dget (fold_left (fun z (q : string * list string) =>
      match snd q with
      | _ :: pop :: _ => dset z pop (fold_left (fun acc x => sadd x acc) (snd q) (match dget z pop with Some l => l | None => [] end))
      | _ => z
      end) l z) pop = None).
      { induction l as [|[d p] l IH]; intros z; cbn [fold_left snd]; [destruct (dget z pop); eauto|]. destruct p as [|s [|pop0 r]].
        - destruct (IH z) as [X|[(d' & p & X & Y)|X]]; [auto|right; left; exists d', p; cbn; auto|auto].
        - destruct (IH z) as [X|[(d' & p & X & Y)|X]]; [auto|right; left; exists d', p; cbn; auto|auto].
        - destruct (IH (dset z pop0 (fold_left (fun acc x => sadd x acc) (s :: pop0 :: r) (match dget z pop0 with Some l => l | None => [] end)))) as [X|[(d' & p & X & Y)|X]]; [|right; left; exists d', p; cbn; auto|auto].
          rewrite dget_set in X. destruct (beq_spec pop pop0) as [->|]; [|auto]. right. left. exists d, (s :: pop0 :: r). cbn. auto. }
      destruct (X paths []) as [[L' Y]|[Y|Y]]; [discriminate|exact Y|congruence]. }
    destruct X as (d' & p & X & Y). apply (ZI pop L E). right. exists d', p. split; [exact X|]. split; [exact Y|]. apply In_dget in X; [|exact W]. destruct (P1 _ _ X) as [[_ ->]|(q & -> & _)]; now left. }
  assert (Cz : forall pop L, dget (zones paths) pop = Some L -> paths_ok (subgraph g L) (cheapest (subgraph g L))).
  { intros pop L E. destruct (sub_ok g L G) as (Gs & _ & Ns). apply C; [exact Gs|]. apply Ns. split; [exact Hs|now apply (Zs pop)]. }
  split.
  - intros E Hl. destruct (M2 E) as [_ M]. destruct (dget paths d) as [p|] eqn:Ep; [|exact (P2 _ Ep Hl)].
    pose proof (fewest_demand d D p HD Ep) as Hp. pose proof Hp as (q & Eq & Nd & Fo). destruct q as [|pop q].
    + subst p. destruct Fo as [Fo _]. destruct (S1 _ Fo) as (s & Es & _). apply Hd1. exists s. exact Es.
    + destruct (ZE pop) as [L EL]; [right; exists d, p; split; [now apply dget_In|rewrite Eq; reflexivity]|].
      destruct (sub_ok g L G) as (Gs & As & Ns). destruct (Cz pop L EL) as (Wc & _ & Cn).
      destruct (dget (cheapest (subgraph g L)) d) as [p'|] eqn:Ec; [apply (M pop L); [now apply dget_In|exists p'; now apply dget_In]|].
      apply (Cn d Ec). apply (path_linked _ d p). exists (pop :: q). split; [exact Eq|]. split; [exact Nd|]. apply follows_step. intros u v H. apply As. split; [now apply (proj1 (follows_step _ _) Fo)|].
      assert (X : forall x, In x p -> In x L) by (intros x Hx; apply (ZI pop L EL); right; exists d, p; split; [now apply dget_In|split; [rewrite Eq; reflexivity|exact Hx]]). split; apply X; now apply step_in in H.
  - intros p E. destruct (M1 p E) as [X|(pop & L & HL & Hin)]; [discriminate|]. assert (EL : dget (zones paths) pop = Some L) by now apply In_dget.
    destruct (sub_ok g L G) as (Gs & As & Ns). destruct (Cz pop L EL) as (Wc & Cp & Cn). apply In_dget in Hin; [|exact Wc]. destruct (Cp _ _ Hin) as [[X _]|(q & -> & Nd & Fo)]; [contradiction|].
    pose proof (proj1 (follows_step _ _) Fo) as Fs. split; [exists q; split; [reflexivity|]; split; [exact Nd|]; apply follows_step; intros u v H; apply Fs in H; now apply As in H|].
    assert (HdL : In d L). { assert (X : exists u, step_of (SUPERSOURCE :: q ++ [d]) u d) by (destruct q as [|x q] using rev_ind; [exists SUPERSOURCE; constructor|exists x; apply step_later; apply step_app; exists q, []; now rewrite <- app_assoc]). destruct X as [u X]. apply Fs, As in X. tauto. }
    apply (ZI pop L EL) in HdL. destruct HdL as [(L0 & X & _)|(d' & p0 & H1 & H2 & H3)]; [discriminate|]. apply In_dget in H1; [|exact W].
    assert (d' = d).
    { destruct (P1 _ _ H1) as [[_ ->]|(q' & -> & _ & Fo')]; [discriminate|]. apply in_split in H3. destruct H3 as (l1 & l2 & El). destruct l2 as [|y l2].
      - change (SUPERSOURCE :: q' ++ [d']) with ((SUPERSOURCE :: q') ++ [d']) in El. now apply app_inj_tail in El.
      - exfalso. apply (Out y). apply (proj1 (follows_step _ _) Fo'). rewrite El. apply step_app. eauto. }
    subst d'. exists p0, pop. split; [exact H1|]. split; [exact H2|].
    destruct q as [|x q].
    + exfalso. assert (X : arc g SUPERSOURCE d) by (apply (As SUPERSOURCE d), Fs; constructor). destruct (S1 _ X) as (s & Es & _). apply Hd1. exists s. exact Es.
    + cbn [second app]. f_equal. assert (X : arc g SUPERSOURCE x /\ In SUPERSOURCE L /\ In x L) by (apply As, Fs; constructor). destruct X as (X1 & _ & X2).
      apply (ZI pop L EL) in X2. destruct X2 as [(L0 & Y & _)|(d2 & p2 & Y1 & Y2 & Y3)]; [discriminate|]. apply In_dget in Y1; [|exact W]. destruct (P1 _ _ Y1) as [[_ ->]|(q2 & E2 & N2 & Fo2)]; [discriminate|].
      destruct q2 as [|b q2]; cbn [app] in E2.
      * rewrite E2 in Y2, Y3. cbn in Y2. injection Y2 as ->. destruct Y3 as [<-|[->|[]]]; [|reflexivity]. exfalso. inversion Nd as [|? ? Nx _]; subst. apply Nx. now left.
      * rewrite E2 in Y2, Y3. cbn in Y2. injection Y2 as ->. destruct Y3 as [<-|[->|Y3]]; [exfalso; inversion Nd as [|? ? Nx _]; subst; apply Nx; now left|reflexivity|]. exfalso.
        apply in_split in Y3. destruct Y3 as (m1 & m2 & Em).
        assert (Pt : path_to (arc g) d2 (SUPERSOURCE :: x :: m2)).
        { assert (Em2 : exists q3, x :: m2 = q3 ++ [d2]). { destruct (exists_last (l := x :: m2)) as (q3 & z & E3); [discriminate|]. exists q3. rewrite E3 in Em. rewrite app_assoc in Em. apply app_inj_tail in Em. destruct Em as [_ <-]. exact E3. }
          destruct Em2 as [q3 E3]. exists q3. split; [now rewrite E3|]. rewrite E2 in N2, Fo2. rewrite Em in N2, Fo2. split.
          - inversion N2 as [|? ? N3 N4]; subst. constructor; [intros X; apply N3; right; apply in_or_app; now right|]. inversion N4 as [|? ? _ N5]; subst. now apply NoDup_app_iff in N5.
          - split; [exact X1|]. apply follows_step. intros u v H. apply (proj1 (follows_step _ _) Fo2). apply step_later, step_later. now apply step_after. }
        pose proof (Min _ _ _ Y1 Pt) as Lm. rewrite E2, Em in Lm. cbn [List.length] in Lm. rewrite app_length in Lm. cbn [List.length] in Lm. lia.
Qed.
End Dpa.
