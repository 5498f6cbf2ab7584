(** Proofs about reading the answer of the deployment step. *)
From Coq Require Import QArith Qabs Lqa Lia.
From Verif Require Import Base Dict TopologyModel TopologySpec GraphSpec RfModel RfProofs SetupModel PruneModel IlpModel IlpSpec QLib MonadLib SetupProofs
  IlpLemmas IlpProofs DeploySpec ChanModel ChanSpec ChanProofs ExtractSpec ExtractModel ExtractProofs TuneModel TuneSpec.
Local Open Scope Q_scope.

(** ** lists of 0/1 *)
Lemma zsum_nonneg l : (forall z, In z l -> (0 <= z)%Z) -> (0 <= zsum l)%Z.
Proof. induction l as [|x l IH]; cbn; intros H; [lia|]. assert (A := H x (or_introl eq_refl)). assert (0 <= zsum l)%Z by auto. unfold zsum in *. lia. Qed.
Lemma zsum_ge l z : (forall z, In z l -> (0 <= z)%Z) -> In z l -> (z <= zsum l)%Z.
Proof.
  induction l as [|x l IH]; cbn; intros H Hz; [contradiction|]. assert (A := H x (or_introl eq_refl)). assert (B := zsum_nonneg l (fun y Hy => H y (or_intror Hy))).
  unfold zsum in *. destruct Hz as [->|Hz]; [lia|]. assert (z <= fold_right Z.add 0 l)%Z by auto. lia.
Qed.
Lemma zsum_some l : (forall z, In z l -> z = 0 \/ z = 1)%Z -> zsum l <> 0%Z -> In 1%Z l.
Proof.
  induction l as [|x l IH]; cbn; intros H Hs; [contradiction|]. destruct (H x (or_introl eq_refl)) as [E|E]; subst x; [|now left]. right. apply IH; [auto|exact Hs].
Qed.
Lemma index_seq (f : nat -> Z) n : forall m c, In c (seq m n) -> f c = 1%Z -> (forall c', In c' (seq m n) -> f c' = 1%Z -> c' = c) ->
  index_one (map f (seq m n)) = Z.of_nat (c - m).
Proof.
  induction n as [|n IH]; intros m c Hc Hf U; [destruct Hc|]. cbn [seq map index_one]. destruct (Z.eqb_spec (f m) 1) as [E|E].
  - assert (m = c) by (apply U; [now left|exact E]). subst m. rewrite Nat.sub_diag. reflexivity.
  - destruct Hc as [->|Hc]; [contradiction|]. rewrite (IH (S m) c Hc Hf); [|intros c' Hc' Hf'; apply U; [now right|exact Hf']].
    apply in_seq in Hc. rewrite <- Nat2Z.inj_succ || idtac. lia.
Qed.
Lemma dget_mapv {K A B} `{EqB K} (f : K -> A -> B) (d : dict K A) k : dget (map (fun p => (fst p, f (fst p) (snd p))) d) k = option_map (f k) (dget d k).
Proof.
  induction d as [|[k' x] d IH]; cbn; [reflexivity|]. destruct (beq k k') eqn:E; [|exact IH]. apply beq_true in E. now subst.
Qed.
Lemma fold_ones_other (w : list edge) : forall (d : dict edge Z) e, ~ In e w -> dget (fold_left (fun d e => dset d e 1%Z) w d) e = dget d e.
Proof.
  induction w as [|x w IH]; cbn; intros d e H; [reflexivity|]. rewrite IH by tauto. apply dget_set_neq. intros ->. tauto.
Qed.
Lemma fold_ones_in (w : list edge) : forall (d : dict edge Z) e, In e w -> dget (fold_left (fun d e => dset d e 1%Z) w d) e = Some 1%Z.
Proof.
  induction w as [|x w IH]; cbn; intros d e H; [contradiction|]. destruct (beq e x) eqn:E.
  - apply beq_true in E. subst x. destruct (mem e w) eqn:M; [apply IH; now apply mem_In|]. rewrite fold_ones_other; [apply dget_set_eq|]. now apply mem_not_In.
  - apply beq_false in E. apply IH. destruct H as [->|H]; [contradiction|auto].
Qed.

Section Tune.
Variables (ps : params) (at_ : attrs) (t : topo) (I0 : inst) (dn_limit total_limit : nat) (bad : list (string * string * string)) (P : problem) (v : var -> Q).
Variables (common : option Q) (sol : plan).
Hypothesis Hw : well_formed t.
Hypothesis Hn : names_ok at_ t.
Hypothesis Hss : sectors_stored t.
Hypothesis Hk : sector_kinds t.
Hypothesis Hch : (1 <= p_channels ps)%nat.
Hypothesis HI : network ps at_ t = Ok I0.
Hypothesis HP : deploy_problem dn_limit total_limit bad I0 = Ok P.
Hypothesis Hv : feasible P v.
Hypothesis HE : deployment common bad I0 v = Ok (Some sol).
Let I := deploy_inst I0.
Let kept (sites : list string) (on : list edge) (k : edge) : bool := mem (fst k) sites && mem k on.

Lemma pieces : exists V act ok ak sk tk site tdm odd fl links secs on serving,
  active_sites I = Ok act /\ odd_keys I = Ok ok /\ active_link_keys I = Ok ak /\ sector_keys I = Ok sk /\ tdm_keys I = Ok tk /\
  site_constants I act = Ok (v_site V) /\ v_sector V = dict_of (fresh sector_var sk) /\ v_flow V = dict_of (fresh flow_var (flow_keys I)) /\
  v_tdm V = dict_of (fresh tdm_var tk) /\ v_odd V = dict_of (fresh VOdd ok) /\ v_active V = dict_of (fresh active_var ak) /\
  site_values V = Ok site /\ concatM (tdm_choice I V v) (i_links I) = Ok tdm /\ odd_choices I V v site = Ok odd /\
  get_link_decisions I V v fl = Ok links /\ get_sector_and_channel_decisions I V v links = Ok secs /\
  sectors_with_active_links I links = Ok on /\ serving_sites I site = Ok serving /\
  let sites := (sites_with_active_links I links ++ serving)%list in
  pl_link sol = links /\
  pl_site sol = map (fun p => (fst p, if mem (fst p) sites then snd p else 0%Z)) site /\
  pl_sector sol = map (fun p => (fst p, if kept sites on (fst p) then snd p else 0%Z)) (fst secs) /\
  pl_channel sol = map (fun p => (fst p, if kept sites on (fst p) then snd p else no_channel)) (snd secs) /\
  pl_odd sol = map (fun p => (fst p, if mem (fst p) sites then fst (snd p) else 0%Z)) odd /\
  pl_even sol = map (fun p => (fst p, if mem (fst p) sites then snd (snd p) else 0%Z)) odd /\
  pl_tdm sol = dict_of tdm /\ pl_flow sol = fl.
Proof.
  assert (H := HE). unfold deployment in H. fold I in H. apply rbind_ok in H. destruct H as ((V & Dp) & EV & H). cbn [fst] in H.
  unfold deploy_tables in EV. apply rbind_ok in EV. destruct EV as (act & Eact & EV). apply rbind_ok in EV. destruct EV as (vs & Evs & EV).
  apply rbind_ok in EV. destruct EV as (ok & Eok & EV). apply rbind_ok in EV. destruct EV as (ak & Eak & EV). apply rbind_ok in EV. destruct EV as (sk & Esk & EV).
  apply rbind_ok in EV. destruct EV as (tk & Etk & EV). injection EV as EV _.
  unfold extract_deployment in H. apply rbind_ok in H. destruct H as (site & Esite & H). apply rbind_ok in H. destruct H as (tdm & Etdm & H).
  apply rbind_ok in H. destruct H as (odd & Eodd & H). apply rbind_ok in H. destruct H as (fl & Efl & H).
  destruct (near_zero _). { apply rbind_ok in H. destruct H as (? & _ & H). discriminate. }
  apply rbind_ok in H. destruct H as (links & Elinks & H). apply rbind_ok in H. destruct H as (secs & Esecs & H).
  apply rbind_ok in H. destruct H as (on & Eon & H). apply rbind_ok in H. destruct H as (serving & Eserving & H). cbv zeta in H. injection H as H.
  exists V, act, ok, ak, sk, tk, site, tdm, odd, fl, links, secs, on, serving. rewrite <- H. subst V. cbn [v_site v_sector v_flow v_tdm v_odd v_active] in *.
  repeat (split; [first [assumption | reflexivity]|]). reflexivity.
Qed.
Ltac tps := destruct pieces as (V & act & ok & ak & sk & tk & site & tdm & odd & fl & links & secs & on & serving &
  Eact & Eok & Eak & Esk & Etk & VS & VSec & VF & VT & VO & VA & Esite & Etdm & Eodd & Elinks & Esecs & Eon & Eserving & PL & PS & PX & PC & PO & PE & PT & PF).

(** ** links *)
Lemma link_value V ak fl links k l : active_link_keys I = Ok ak -> v_active V = dict_of (fresh active_var ak) -> get_link_decisions I V v fl = Ok links ->
  link_stored t k l -> eligible at_ l -> dget links (l_tx l, l_rx l) = Some (get_binary_value (v (VActive (l_tx l) (l_rx l)))).
Proof.
  intros Eak VA E El He. assert (D := D0 ps at_ t I0 Hw Hn HI). assert (G := active_get ps at_ t I0 Hw Hn HI V ak k l Eak VA El He).
  unfold get_link_decisions in E. apply rbind_ok in E. destruct E as (la & Ela & E). apply rbind_ok in E. destruct E as (w & Ew & E). injection E as <-.
  rewrite fold_ones_other.
  - rewrite dict_of_app. rewrite (dict_of_None la).
    + apply dict_of_value.
      * apply dget_In. rewrite binary_get, G. reflexivity.
      * intros v' Hin. apply in_map_iff in Hin. destruct Hin as ((e' & x) & Eq & Hin). cbn in Eq. injection Eq as -> <-.
        assert (Q : dget (v_active V) (l_tx l, l_rx l) = Some x). { apply In_dget; [rewrite VA; apply dict_of_wf|exact Hin]. } rewrite G in Q. injection Q as <-. reflexivity.
    + intros Hin. apply in_map_iff in Hin. destruct Hin as ((e' & z) & Eq & Hin). cbn in Eq. subst e'. destruct (concatM_inv _ _ _ _ Ela Hin) as (e & r & _ & Er & Hr).
      unfold flow_decision in Er. destruct (dmem (v_active V) e) eqn:M; [injection Er as <-; destruct Hr|].
      apply rbind_ok in Er. destruct Er as (ti & _ & Er). apply rbind_ok in Er. destruct Er as (tj & _ & Er). destruct (imaginary ti || imaginary tj); [injection Er as <-; destruct Hr|].
      apply rbind_ok in Er. destruct Er as (q & _ & Er). injection Er as <-. destruct Hr as [Hr|[]]. injection Hr as -> _. apply dmem_None in M. congruence.
  - intros Hin. destruct (concatM_inv _ _ _ _ Ew Hin) as (e & r & He' & Er & Hr). unfold cable_on in Er.
    apply rbind_ok in Er. destruct Er as (ti & _ & Er). apply rbind_ok in Er. destruct Er as (tj & _ & Er). destruct (imaginary ti || imaginary tj); [injection Er as <-; destruct Hr|].
    apply rbind_ok in Er. destruct Er as (q1 & _ & Er). apply rbind_ok in Er. destruct Er as (q2 & _ & Er). injection Er as <-.
    assert (e = (l_tx l, l_rx l)) by (destruct (q1 && q2); [destruct Hr as [->|[]]; reflexivity|destruct Hr]). subst e.
    assert (M := D_wired _ _ _ _ _ D _ _ El). change (i_wired I) with (i_wired I0) in He'. apply mem_In in He'. destruct He as (W & _). rewrite W in M. cbn in M. congruence.
Qed.
Lemma tune_link k l : link_stored t k l -> eligible at_ l ->
  (used v (l_tx l, l_rx l) -> yes (pl_link sol) (l_tx l, l_rx l)) /\ (~ used v (l_tx l, l_rx l) -> no (pl_link sol) (l_tx l, l_rx l)).
Proof.
  intros El He. tps. unfold yes, no. rewrite PL, (link_value V ak fl links k l Eak VA Elinks El He).
  destruct (used_bin ps at_ t I0 dn_limit total_limit bad P v Hw Hn HI HP Hv k l El He) as [Z|Z].
  - split; [intros U; unfold used in U; cbn [fst snd] in U; lra|]. intros _. now rewrite binary_zero.
  - split; [intros _; now rewrite binary_one|]. intros U. destruct (U Z).
Qed.
(** ** sites *)
Lemma site_value V act site i s : active_sites I = Ok act -> site_constants I act = Ok (v_site V) -> site_values V = Ok site -> dget (t_sites t) i = Some s ->
  dget site i = Some (if mem i act then 1%Z else 0%Z).
Proof.
  intros Eact VS E Hs. assert (G := site_val ps at_ t I0 Hw Hn HI V act i s Eact VS Hs). unfold site_values in E.
  assert (R := mapM_eq _ (fun p => (fst p, match dget (v_site V) (fst p) with Some (Cst q) => if Qeq_bool q 1 then 1%Z else 0%Z | _ => 0%Z end)) _ _ E).
  rewrite R; [|intros p y _ Hy; unfold site_on in Hy; apply rbind_ok in Hy; destruct Hy as (b & Hb & Hy); injection Hy as <-; apply rbind_ok in Hb; destruct Hb as (x & Hx & Hb); apply get_ok in Hx; injection Hb as <-; rewrite Hx; destruct x; reflexivity].
  rewrite (dget_mapv (fun i (_ : expr) => match dget (v_site V) i with Some (Cst q) => if Qeq_bool q 1 then 1%Z else 0%Z | _ => 0%Z end)). rewrite G. cbn. destruct (mem i act); reflexivity.
Qed.
Lemma active_links_sites links e : In e (i_links I) -> dget links e = Some 1%Z -> In (fst e) (sites_with_active_links I links) /\ In (snd e) (sites_with_active_links I links).
Proof.
  intros He Hg. assert (A : ExtractModel.is_active links e = true) by (unfold ExtractModel.is_active; now rewrite Hg).
  split; apply in_flat_map; exists e; (split; [exact He|]); rewrite A; cbn; auto.
Qed.
Lemma tune_ends k l : link_stored t k l -> eligible at_ l -> used v (l_tx l, l_rx l) -> yes (pl_site sol) (l_tx l) /\ yes (pl_site sol) (l_rx l).
Proof.
  intros El He Hu. assert (Y := proj1 (tune_link k l El He) Hu). tps. assert (D := D0 ps at_ t I0 Hw Hn HI).
  assert (Hl : In (l_tx l, l_rx l) (i_links I)) by exact (link_in ps at_ t (a_cap at_) I0 D k l El).
  unfold yes in *. rewrite PL in Y. destruct (active_links_sites links _ Hl Y) as (A & B). cbn [fst snd] in A, B.
  destruct (chan_deployed ps at_ t I0 dn_limit total_limit bad P v Hw Hn Hss Hch HI HP Hv k l El He Hu) as (D1 & D2). destruct (link_sites t Hw k l El) as ((s1 & H1) & (s2 & H2)).
  assert (K : forall i s, dget (t_sites t) i = Some s -> deployed t i -> In i (sites_with_active_links I links) -> dget (pl_site sol) i = Some 1%Z).
  { intros i s Hs Hd Hi. rewrite PS, (dget_mapv (fun i z => if mem i (sites_with_active_links I links ++ serving) then z else 0%Z)), (site_value V act site i s Eact VS Esite Hs). cbn [option_map].
    assert (M : mem i (sites_with_active_links I links ++ serving) = true) by (apply mem_In, in_app_iff; auto). rewrite M.
    apply (active_deployed ps at_ t I0 Hw Hn Hch HI act Eact), mem_In in Hd. now rewrite Hd. }
  split; eauto.
Qed.
(** ** sectors *)
Definition fits (x : sector) (c : nat) : Prop := (c = 0 \/ k_cn (x_key x) = false)%nat /\ (c < p_channels ps)%nat.
Lemma cv_bin V sk i a z : sector_keys I = Ok sk -> v_sector V = dict_of (fresh sector_var sk) -> In z (channel_values I V v i a) ->
  z = 0%Z \/ (z = 1%Z /\ exists c, In c (channels I) /\ In (i, a, c) sk /\ tuned v i a c).
Proof.
  intros Esk VSec Hz. apply in_flat_map in Hz. destruct Hz as (c & Hc & Hz). destruct (dget (v_sector V) (i, a, c)) as [y|] eqn:Ey; [|destruct Hz].
  destruct Hz as [<-|[]]. destruct (sector_inv I0 V sk i a c y Esk VSec Ey) as (-> & Hin). cbn [eval].
  destruct (sector_bin I0 dn_limit total_limit bad P v HP Hv sk Esk i a c Hin) as [Z|Z]; [left; now apply binary_zero|right; split; [now apply binary_one|eauto]].
Qed.
Lemma cv_on V sk k x c : sector_keys I = Ok sk -> v_sector V = dict_of (fresh sector_var sk) -> sector_stored t k x -> fits x c -> tuned v (x_site x) k c ->
  In 1%Z (channel_values I V v (x_site x) k).
Proof.
  intros Esk VSec Hx (Hc & Hlt) Ht. apply in_flat_map. exists c. split; [now apply (chans ps at_ t I0 Hch HI)|].
  rewrite (sector_get ps at_ t I0 Hw Hn Hch HI V sk k x c Esk VSec Hx Hc Hlt). left. cbn [eval]. now apply binary_one.
Qed.
Lemma cv_dn V sk k x : sector_keys I = Ok sk -> v_sector V = dict_of (fresh sector_var sk) -> sector_stored t k x -> k_cn (x_key x) = false ->
  channel_values I V v (x_site x) k = map (fun c => get_binary_value (v (VSector (x_site x) k c))) (channels I).
Proof.
  intros Esk VSec Hx Hcn. unfold channel_values.
  assert (K : forall cs, incl cs (channels I) -> flat_map (fun c => match dget (v_sector V) (x_site x, k, c) with Some y => [get_binary_value (eval v y)] | None => [] end) cs = map (fun c => get_binary_value (v (VSector (x_site x) k c))) cs); [|apply K, incl_refl].
  induction cs as [|c cs IH]; intros Hi; [reflexivity|]. cbn [flat_map map]. rewrite IH by (intros y Hy; apply Hi; now right).
  rewrite (sector_get ps at_ t I0 Hw Hn Hch HI V sk k x c Esk VSec Hx (or_intror Hcn)); [reflexivity|]. apply (chans ps at_ t I0 Hch HI), Hi. now left.
Qed.
Lemma choice_on V sk k x c r : sector_keys I = Ok sk -> v_sector V = dict_of (fresh sector_var sk) -> sector_stored t k x -> fits x c -> tuned v (x_site x) k c ->
  sector_choice I V v (x_site x) k = Ok r -> fst r = 1%Z /\ (k_cn (x_key x) = false -> snd r = Z.of_nat c).
Proof.
  intros Esk VSec Hx Hf Ht E. assert (H1 := cv_on V sk k x c Esk VSec Hx Hf Ht). unfold sector_choice in E. cbv zeta in E.
  apply rbind_ok in E. destruct E as (? & _ & E). apply rbind_ok in E. destruct E as (? & G & E). apply guard_ok in G. apply Z.leb_le in G. injection E as <-. cbn [fst snd].
  assert (One : zsum (channel_values I V v (x_site x) k) = 1%Z).
  { apply Z.le_antisymm; [exact G|]. apply zsum_ge; [|exact H1]. intros z Hz. destruct (cv_bin V sk _ _ z Esk VSec Hz) as [->|(-> & _)]; lia. }
  split; [exact One|]. intros Hcn. rewrite One. cbn [Z.eqb]. rewrite Z.eqb_refl || idtac. rewrite (cv_dn V sk k x Esk VSec Hx Hcn). destruct Hf as (_ & Hlt).
  change (channels I) with (seq 0 (p_channels (i_params I0))). rewrite (chan_params ps at_ t I0 HI).
  rewrite (index_seq _ (p_channels ps) 0 c); [now rewrite Nat.sub_0_r|apply in_seq; lia|now apply binary_one|].
  intros c' Hc' Hb. apply in_seq in Hc'. assert (Hc2 : (c' < p_channels ps)%nat) by lia.
  apply (chan_one_channel ps at_ t I0 dn_limit total_limit bad P v Hw Hn Hch HI HP Hv k x c' c Hx Hcn Hc2 Hlt); [|exact Ht].
  destruct (sector_bin I0 dn_limit total_limit bad P v HP Hv sk Esk (x_site x) k c') as [Z|Z]; [|rewrite binary_zero in Hb by exact Z; discriminate|exact Z].
  apply (sector_key_in ps at_ t I0 Hw Hn Hch HI sk k x c' Esk Hx (or_intror Hcn) Hc2).
Qed.
Definition kind_of (x : sector) : sec_type := if k_cn (x_key x) then SecCN else SecDN.
Lemma rs_in rs k x : real_sectors I = Ok rs -> sector_stored t k x -> In ((x_site x, k), kind_of x) rs.
Proof.
  intros E Hx. assert (D := D0 ps at_ t I0 Hw Hn HI). destruct (D_secs _ _ _ _ _ D _ _ Hx) as (sl & Esl & Hin).
  destruct (concatM_In _ _ _ _ E (dget_In _ _ _ Esl)) as (r & Er & Hr). cbn [fst snd] in Er. destruct (concatM_In _ _ _ _ Er Hin) as (r1 & Er1 & Hr1).
  change (i_sectype I) with (i_sectype I0) in Er1. unfold get in Er1. rewrite (D_sectype _ _ _ _ _ D _ _ Hx) in Er1. cbn [rbind] in Er1. injection Er1 as <-.
  apply Hr, Hr1. unfold kind_of. destruct (k_cn (x_key x)); now left.
Qed.
Lemma rs_kind rs k x i st : real_sectors I = Ok rs -> sector_stored t k x -> In ((i, k), st) rs -> st = kind_of x.
Proof.
  intros E Hx Hin. assert (D := D0 ps at_ t I0 Hw Hn HI). destruct (concatM_inv _ _ _ _ E Hin) as (p & r & _ & Er & Hr). destruct (concatM_inv _ _ _ _ Er Hr) as (a & r1 & _ & Er1 & Hr1).
  apply rbind_ok in Er1. destruct Er1 as (st' & Est & Er1). apply get_ok in Est. injection Er1 as <-. destruct (imaginary_sec st'); [destruct Hr1|]. destruct Hr1 as [Hr1|[]]. injection Hr1 as _ -> ->.
  change (i_sectype I) with (i_sectype I0) in Est. rewrite (D_sectype _ _ _ _ _ D _ _ Hx) in Est. injection Est as <-. reflexivity.
Qed.
(** the first loop *)
Lemma first_loop V sk rs first k x c : sector_keys I = Ok sk -> v_sector V = dict_of (fresh sector_var sk) -> real_sectors I = Ok rs ->
  mapM (fun p => do y <- sector_choice I V v (fst (fst p)) (snd (fst p)) ; Ok (p, y)) rs = Ok first ->
  sector_stored t k x -> fits x c -> tuned v (x_site x) k c ->
  dget (dict_of (map (fun q : (edge * sec_type) * (Z * Z) => (fst (fst q), fst (snd q))) first)) (x_site x, k) = Some 1%Z /\
  (k_cn (x_key x) = false ->
   dget (dict_of (flat_map (fun q : (edge * sec_type) * (Z * Z) => if is_client (snd (fst q)) then [] else [(fst (fst q), snd (snd q))]) first)) (x_site x, k) = Some (Z.of_nat c)).
Proof.
  intros Esk VSec Ers E Hx Hf Ht. destruct (mapM_In _ _ _ _ E (rs_in rs k x Ers Hx)) as (y & Ey & Hy). cbn [fst snd] in Ey. apply rbind_ok in Ey. destruct Ey as (r & Er & Ey). injection Ey as <-.
  destruct (choice_on V sk k x c r Esk VSec Hx Hf Ht Er) as (A & B).
  assert (U : forall st r', In (((x_site x, k), st), r') first -> r' = r /\ st = kind_of x).
  { intros st r' Hin. destruct (mapM_inv _ _ _ _ E Hin) as (p & Hp & Ep). apply rbind_ok in Ep. destruct Ep as (r2 & Er2 & Ep). injection Ep as -> <-. cbn [fst snd] in Er2. split; [congruence|].
    exact (rs_kind rs k x _ st Ers Hx Hp). }
  split.
  - apply dict_of_value.
    + apply in_map_iff. exists (((x_site x, k), kind_of x), r). split; [cbn; now rewrite A|exact Hy].
    + intros z Hz. apply in_map_iff in Hz. destruct Hz as (((e' & st) & r') & Eq & Hin). cbn in Eq. injection Eq as -> <-. destruct (U _ _ Hin) as (-> & _). exact A.
  - intros Hcn. apply dict_of_value.
    + apply in_flat_map. exists (((x_site x, k), kind_of x), r). split; [exact Hy|]. cbn. unfold kind_of. rewrite Hcn. cbn. left. now rewrite B.
    + intros z Hz. apply in_flat_map in Hz. destruct Hz as (((e' & st) & r') & Hin & Hz). cbn in Hz. destruct (is_client st); [destruct Hz|]. destruct Hz as [Hz|[]]. injection Hz as -> <-.
      destruct (U _ _ Hin) as (-> & _). auto.
Qed.
(** the second loop changes client sectors only *)
Lemma step_other V links st p st' e : client_step I V links st p = Ok st' -> (fst p <> e \/ is_client (snd p) = false) -> dget (fst st') e = dget (fst st) e /\ dget (snd st') e = dget (snd st) e.
Proof.
  intros E H. unfold client_step in E. destruct (is_client (snd p)) eqn:C; cbn [negb] in E; [|injection E as <-; auto]. destruct H as [H|H]; [|discriminate].
  assert (N : e <> fst p) by congruence.
  apply rbind_ok in E. destruct E as (d & _ & E). destruct (Z.eqb d 0); [injection E as <-; cbn; split; [reflexivity|now apply dget_set_neq]|].
  apply rbind_ok in E. destruct E as (cs & _ & E). destruct cs as [|c [|? ?]]; [|  |discriminate]; injection E as <-; cbn; split; try reflexivity; now apply dget_set_neq.
Qed.
Lemma loop_dn V links rs e : (forall st, In (e, st) rs -> is_client st = false) -> forall s s', foldM (client_step I V links) rs s = Ok s' ->
  dget (fst s') e = dget (fst s) e /\ dget (snd s') e = dget (snd s) e.
Proof.
  induction rs as [|p rs IH]; cbn [foldM]; intros H s s' E; [injection E as <-; auto|]. apply rbind_ok in E. destruct E as (s1 & E1 & E).
  destruct (IH (fun st Hst => H st (or_intror Hst)) _ _ E) as (-> & ->). apply (step_other V links s p s1 e E1).
  destruct (beq (fst p) e) eqn:B; [right|left; now apply beq_false]. apply beq_true in B. apply H. left. destruct p. cbn in *. now subst.
Qed.
Lemma loop_cn V links rs e src c :
  (forall st, In (src, st) rs -> is_client st = false) ->
  (forall ch cs, serving_channels I V links ch (fst e) (snd e) = Ok cs -> dget ch src = Some c -> In c cs) ->
  forall s s', foldM (client_step I V links) rs s = Ok s' -> dget (fst s) e = Some 1%Z -> dget (snd s) src = Some c ->
  (In (e, SecCN) rs \/ dget (snd s) e = Some c) -> dget (fst s') e = Some 1%Z /\ dget (snd s') e = Some c.
Proof.
  intros Hsrc Hserve. revert Hsrc. induction rs as [|p rs IH]; cbn [foldM]; intros Hsrc s s' E H1 H2 H3.
  - injection E as <-. destruct H3 as [[]|H3]. auto.
  - apply rbind_ok in E. destruct E as (s1 & E1 & E).
    assert (S1 : dget (snd s1) src = Some c).
    { rewrite <- H2. apply (step_other V links s p s1 src E1). destruct (beq (fst p) src) eqn:B; [right|left; now apply beq_false]. apply beq_true in B. apply Hsrc. left. destruct p. cbn in *. now subst. }
    assert (R : forall x, dget (fst s1) e = Some 1%Z -> In (e, SecCN) rs \/ dget (snd s1) e = Some c -> x = s' -> dget (fst x) e = Some 1%Z /\ dget (snd x) e = Some c).
    { intros x A B ->. apply (IH (fun st Hst => Hsrc st (or_intror Hst)) _ _ E A S1 B). }
    destruct (beq (fst p) e && is_client (snd p)) eqn:B.
    + apply andb_true_iff in B. destruct B as (B & C). apply beq_true in B. apply (R s'); [| |reflexivity]; unfold client_step in E1; rewrite C, B in E1; cbn [negb] in E1;
        unfold get at 1 in E1; rewrite H1 in E1; cbn [rbind Z.eqb] in E1; apply rbind_ok in E1; destruct E1 as (cs & Ecs & E1); assert (Hin := Hserve _ _ Ecs H2);
        destruct cs as [|c' [|? ?]]; try discriminate; [destruct Hin| |destruct Hin|]; injection E1 as <-; cbn [fst snd]; [exact H1|].
      right. destruct Hin as [->|[]]. apply dget_set_eq.
    + assert (O : fst p <> e \/ is_client (snd p) = false). { apply andb_false_iff in B. destruct B as [B|B]; [left; now apply beq_false|now right]. }
      destruct (step_other V links s p s1 e E1 O) as (A1 & A2). apply (R s'); [congruence| |reflexivity]. destruct H3 as [[H3|H3]|H3]; [|now left|right; congruence].
      subst p. cbn in O. destruct O as [O|O]; [destruct (O eq_refl)|discriminate].
Qed.
(** the sectors at the ends of a link in use are on nodes with links in use *)
Lemma node_self loc a r l : node_sectors I loc (Some a) = Ok r -> dget (i_secs I) loc = Some l -> In a l -> (exists ty, dget (i_sectype I) a = Some ty /\ imaginary_sec ty = false) -> In (loc, a) r.
Proof.
  intros E El Ha (ty & Ety & Hty). unfold node_sectors in E. unfold get at 1 in E. rewrite Ety in E. cbn [rbind] in E. rewrite Hty in E.
  apply rbind_ok in E. destruct E as (n & En & E). unfold get at 1 in E. rewrite El in E. cbn [rbind] in E.
  destruct (concatM_In _ _ _ _ E Ha) as (r1 & Er1 & Hr1). unfold get at 1 in Er1. rewrite Ety in Er1. cbn [rbind] in Er1. rewrite Hty, En in Er1. cbn [rbind] in Er1. rewrite Nat.eqb_refl in Er1.
  injection Er1 as <-. apply Hr1. now left.
Qed.
Lemma on_ends links on k l a b : sectors_with_active_links I links = Ok on -> link_stored t k l -> l_sectors l = Some (a, b) -> dget links (l_tx l, l_rx l) = Some 1%Z ->
  In (l_tx l, key_id a) on /\ In (l_rx l, key_id b) on.
Proof.
  intros E El Es Hg. assert (D := D0 ps at_ t I0 Hw Hn HI). assert (Hl : In (l_tx l, l_rx l) (i_links I)) by exact (link_in ps at_ t (a_cap at_) I0 D k l El).
  destruct (concatM_In _ _ _ _ E Hl) as (r & Er & Hr). unfold ExtractModel.is_active in Er. rewrite Hg in Er. cbn [Z.eqb] in Er. rewrite Z.eqb_refl in Er || idtac.
  change (i_l2s I) with (i_l2s I0) in Er. unfold get at 1 in Er. rewrite (D_l2s _ _ _ _ _ D _ _ El), Es in Er. cbn [rbind fst snd] in Er.
  apply rbind_ok in Er. destruct Er as (r1 & E1 & Er). apply rbind_ok in Er. destruct Er as (r2 & E2 & Er). injection Er as <-.
  destruct (link_ends t Hss k l a b El Es) as (x & w & Hx & Kx & Sx & Hw' & Kw & Sw).
  assert (K : forall kk y, sector_stored t kk y -> exists ty, dget (i_sectype I) kk = Some ty /\ imaginary_sec ty = false).
  { intros kk y Hy. change (i_sectype I) with (i_sectype I0). rewrite (D_sectype _ _ _ _ _ D _ _ Hy). eexists. split; [reflexivity|]. destruct (k_cn (x_key y)); reflexivity. }
  destruct (D_secs _ _ _ _ _ D _ _ Hx) as (s1 & Es1 & I1). destruct (D_secs _ _ _ _ _ D _ _ Hw') as (s2 & Es2 & I2). rewrite Sx in Es1. rewrite Sw in Es2.
  split; apply Hr, in_app_iff; [left; eapply node_self; eauto|right; eapply node_self; eauto].
Qed.
Lemma tune_sectors k l a b : link_stored t k l -> eligible at_ l -> l_sectors l = Some (a, b) -> used v (l_tx l, l_rx l) -> ~ type_is t (l_tx l) CN ->
  exists c, (c < p_channels ps)%nat /\ tuned v (l_tx l) (key_id a) c /\
    yes (pl_sector sol) (l_tx l, key_id a) /\ yes (pl_sector sol) (l_rx l, key_id b) /\
    dget (pl_channel sol) (l_tx l, key_id a) = Some (Z.of_nat c) /\ dget (pl_channel sol) (l_rx l, key_id b) = Some (Z.of_nat c).
Proof.
  intros El He Es Hu Htx. assert (Y := proj1 (tune_link k l El He) Hu). assert (D := D0 ps at_ t I0 Hw Hn HI).
  destruct (chan_used_link ps at_ t I0 dn_limit total_limit bad P v Hw Hn Hss Hch HI HP Hv k l a b El He Es Hu) as (_ & _ & (c & Hc & _ & Ta) & (c2 & Hc2 & Cn2 & Tb) & Same).
  destruct (link_ends t Hss k l a b El Es) as (x & w & Hx & Kx & Sx & Hw' & Kw & Sw). destruct (link_sites t Hw k l El) as ((s1 & H1) & (s2 & H2)).
  assert (Xa : k_cn (x_key x) = false). { destruct (k_cn (x_key x)) eqn:E; [exfalso|reflexivity]. apply Htx. exists s1. split; [exact H1|]. rewrite <- Sx in H1. now apply (Hk _ _ s1 Hx H1). }
  exists c. split; [exact Hc|]. split; [exact Ta|]. tps. unfold yes in *. rewrite PL in Y.
  assert (Hl : In (l_tx l, l_rx l) (i_links I)) by exact (link_in ps at_ t (a_cap at_) I0 D k l El).
  destruct (active_links_sites links _ Hl Y) as (A & B). cbn [fst snd] in A, B. destruct (on_ends links on k l a b Eon El Es Y) as (Oa & Ob).
  assert (Ka : kept (sites_with_active_links I links ++ serving) on (l_tx l, key_id a) = true). { apply andb_true_iff. split; apply mem_In; [apply in_app_iff; now left|exact Oa]. }
  assert (Kb : kept (sites_with_active_links I links ++ serving) on (l_rx l, key_id b) = true). { apply andb_true_iff. split; apply mem_In; [apply in_app_iff; now left|exact Ob]. }
  rewrite PX, PC, !(dget_mapv (fun e z => if kept (sites_with_active_links I links ++ serving) on e then z else 0%Z)), !(dget_mapv (fun e z => if kept (sites_with_active_links I links ++ serving) on e then z else no_channel)).
  unfold get_sector_and_channel_decisions in Esecs. apply rbind_ok in Esecs. destruct Esecs as (rs & Ers & Esecs). apply rbind_ok in Esecs. destruct Esecs as (first & Efirst & Esecs).
  assert (Fx : fits x c) by (split; [now right|exact Hc]). rewrite <- Sx in Ta.
  destruct (first_loop V sk rs first _ x c Esk VSec Ers Efirst Hx Fx Ta) as (F1 & F2). specialize (F2 Xa).
  assert (Nx : forall st, In ((x_site x, key_id a), st) rs -> is_client st = false). { intros st Hin. rewrite (rs_kind rs _ x _ st Ers Hx Hin). unfold kind_of. now rewrite Xa. }
  destruct (loop_dn V links rs _ Nx _ _ Esecs) as (G1 & G2). cbn [fst snd] in G1, G2. rewrite F1 in G1. rewrite F2 in G2. rewrite Sx in *.
  assert (R : dget (fst secs) (l_rx l, key_id b) = Some 1%Z /\ dget (snd secs) (l_rx l, key_id b) = Some (Z.of_nat c)).
  { destruct (k_cn (x_key w)) eqn:Xb.
    - rewrite Kw in Xb. assert (c2 = 0)%nat by auto. subst c2. rewrite <- Sw in Tb. assert (Fw : fits w 0) by (split; [now left|exact Hc2]).
      destruct (first_loop V sk rs first _ w 0 Esk VSec Ers Efirst Hw' Fw Tb) as (W1 & _). rewrite Sw in W1.
      apply (loop_cn V links rs (l_rx l, key_id b) (l_tx l, key_id a) (Z.of_nat c) Nx) with (2 := Esecs); [|exact W1|exact F2|].
      + intros ch cs Ecs Hch'. cbn [fst snd] in Ecs. unfold serving_channels in Ecs. apply rbind_ok in Ecs. destruct Ecs as (es & Ees & Ecs).
        assert (Hin : In (l_tx l, l_rx l) es). { apply (incoming_ok ps at_ t (a_cap at_) I0 D) in Ees. apply Ees. split; [right; right; eauto|reflexivity]. }
        destruct (concatM_In _ _ _ _ Ecs Hin) as (r & Er & Hr). assert (G := active_get ps at_ t I0 Hw Hn HI V ak k l Eak VA El He).
        assert (M : dmem (v_active V) (l_tx l, l_rx l) = true) by (apply dmem_Some; eauto). rewrite M in Er. cbn [negb] in Er. unfold get at 1 in Er. rewrite Y in Er. cbn [rbind Z.eqb] in Er.
        change (i_l2s I) with (i_l2s I0) in Er. unfold get at 1 in Er. rewrite (D_l2s _ _ _ _ _ D _ _ El), Es in Er. cbn [rbind fst snd] in Er. rewrite beq_refl in Er.
        unfold get in Er. rewrite Hch' in Er. cbn [rbind] in Er. injection Er as <-. apply Hr. now left.
      + left. assert (Q := rs_in rs _ w Ers Hw'). unfold kind_of in Q. rewrite Kw, Xb, Sw in Q. exact Q.
    - assert (N : ~ type_is t (l_rx l) CN). { intros (s3 & H3 & Ty). rewrite <- Sw in H3. apply (Hk _ _ s3 Hw' H3) in Ty. congruence. }
      assert (T : tuned v (l_rx l) (key_id b) c) by (apply Same; auto). rewrite <- Sw in T. assert (Fw : fits w c) by (split; [now right|exact Hc]).
      destruct (first_loop V sk rs first _ w c Esk VSec Ers Efirst Hw' Fw T) as (W1 & W2). specialize (W2 Xb).
      assert (Nw : forall st, In ((x_site w, key_id b), st) rs -> is_client st = false). { intros st Hin. rewrite (rs_kind rs _ w _ st Ers Hw' Hin). unfold kind_of. now rewrite Xb. }
      destruct (loop_dn V links rs _ Nw _ _ Esecs) as (U1 & U2). cbn [fst snd] in U1, U2. rewrite W1 in U1. rewrite W2 in U2. rewrite Sw in *. auto. }
  destruct R as (R1 & R2). rewrite G1, G2, R1, R2. cbn [option_map]. rewrite Ka, Kb. auto.
Qed.
(** a sector that is on has a link in use on its node *)
Lemma loop_one V links rs e : forall s s', foldM (client_step I V links) rs s = Ok s' -> dget (fst s') e = Some 1%Z -> dget (fst s) e = Some 1%Z.
Proof.
  induction rs as [|p rs IH]; cbn [foldM]; intros s s' E H; [now injection E as <-|]. apply rbind_ok in E. destruct E as (s1 & E1 & E). assert (A := IH _ _ E H).
  destruct (beq (fst p) e) eqn:B; [|apply beq_false in B; destruct (step_other V links s p s1 e E1 (or_introl B)) as (Q & _); congruence]. apply beq_true in B.
  unfold client_step in E1. destruct (is_client (snd p)); cbn [negb] in E1; [|injection E1 as <-; exact A].
  apply rbind_ok in E1. destruct E1 as (d & _ & E1). destruct (Z.eqb d 0); [injection E1 as <-; exact A|]. apply rbind_ok in E1. destruct E1 as (cs & _ & E1).
  destruct cs as [|c [|? ?]]; [|injection E1 as <-; exact A|discriminate]. injection E1 as <-. cbn [fst] in A. rewrite B, dget_set_eq in A. discriminate.
Qed.
Lemma node_inv loc a r p : node_sectors I loc a = Ok r -> In p r -> fst p = loc.
Proof.
  intros E Hp. unfold node_sectors in E. destruct a as [a|]; [|injection E as <-; destruct Hp]. apply rbind_ok in E. destruct E as (ty & _ & E). destruct (imaginary_sec ty); [injection E as <-; destruct Hp|].
  apply rbind_ok in E. destruct E as (n & _ & E). apply rbind_ok in E. destruct E as (os & _ & E). destruct (concatM_inv _ _ _ _ E Hp) as (o & r1 & _ & Er1 & Hr1).
  apply rbind_ok in Er1. destruct Er1 as (ty' & _ & Er1). destruct (imaginary_sec ty'); [injection Er1 as <-; destruct Hr1|]. apply rbind_ok in Er1. destruct Er1 as (n' & _ & Er1). injection Er1 as <-.
  destruct (Nat.eqb n n'); [|destruct Hr1]. destruct Hr1 as [<-|[]]. reflexivity.
Qed.
Lemma tune_sector_on k x : sector_stored t k x -> yes (pl_sector sol) (x_site x, k) ->
  yes (pl_site sol) (x_site x) /\ (exists c, fits x c /\ tuned v (x_site x) k c) /\ exists e, yes (pl_link sol) e /\ (fst e = x_site x \/ snd e = x_site x).
Proof.
  intros Hx H. tps. unfold yes in *. rewrite PL, PS. rewrite PX, (dget_mapv (fun e z => if kept (sites_with_active_links I links ++ serving) on e then z else 0%Z)) in H.
  destruct (dget (fst secs) (x_site x, k)) as [z|] eqn:Ez; [|discriminate]. cbn [option_map] in H. injection H as H.
  destruct (kept _ on (x_site x, k)) eqn:Kp; [subst z|discriminate]. apply andb_true_iff in Kp. cbn [fst] in Kp. destruct Kp as (K1 & K2).
  assert (T : exists c, fits x c /\ tuned v (x_site x) k c).
  { unfold get_sector_and_channel_decisions in Esecs. apply rbind_ok in Esecs. destruct Esecs as (rs & Ers & Esecs). apply rbind_ok in Esecs. destruct Esecs as (first & Efirst & Esecs).
    assert (Q := loop_one V links rs _ _ _ Esecs Ez). cbn [fst] in Q. apply dict_of_In, in_map_iff in Q. destruct Q as (((e' & st) & r) & Eq & Hin). cbn in Eq. injection Eq as -> Er1.
    destruct (mapM_inv _ _ _ _ Efirst Hin) as (p & _ & Ep). apply rbind_ok in Ep. destruct Ep as (r2 & Er2 & Ep). injection Ep as -> ->. cbn [fst snd] in Er2.
    unfold sector_choice in Er2. cbv zeta in Er2. apply rbind_ok in Er2. destruct Er2 as (? & _ & Er2). apply rbind_ok in Er2. destruct Er2 as (? & _ & Er2). injection Er2 as <-. cbn [fst] in Er1.
    assert (O : In 1%Z (channel_values I V v (x_site x) k)). { apply zsum_some; [|rewrite Er1; discriminate]. intros z Hz. destruct (cv_bin V sk _ _ z Esk VSec Hz) as [->|(-> & _)]; auto. }
    destruct (cv_bin V sk _ _ _ Esk VSec O) as [?|(_ & c & Hc & Hsk & Ht)]; [discriminate|]. exists c. split; [|exact Ht]. split; [|now apply (chans ps at_ t I0 Hch HI)].
    destruct (k_cn (x_key x)) eqn:C; [left|now right]. exact (sector_cn_key ps at_ t I0 Hw Hn HI sk k x c Esk Hx C Hsk). }
  split; [|split; [exact T|]].
  - destruct T as (c & (Hc & Hlt) & Ht). assert (Dp := chan_sector_site ps at_ t I0 dn_limit total_limit bad P v Hw Hn Hch HI HP Hv k x c Hx Hc Hlt Ht).
    destruct (sector_site_stored t k x Hw Hx) as (s & Hs). rewrite (dget_mapv (fun i z => if mem i (sites_with_active_links I links ++ serving) then z else 0%Z)), (site_value V act site _ s Eact VS Esite Hs). cbn [option_map]. rewrite K1.
    apply (active_deployed ps at_ t I0 Hw Hn Hch HI act Eact), mem_In in Dp. now rewrite Dp.
  - apply mem_In in K2. destruct (concatM_inv _ _ _ _ Eon K2) as (e & r & He & Er & Hr). unfold ExtractModel.is_active in Er. destruct (dget links e) as [z|] eqn:Eg; [|injection Er as <-; destruct Hr].
    destruct (Z.eqb_spec z 1) as [->|]; [|injection Er as <-; destruct Hr]. exists e. split; [exact Eg|].
    apply rbind_ok in Er. destruct Er as (s & _ & Er). apply rbind_ok in Er. destruct Er as (r1 & E1 & Er). apply rbind_ok in Er. destruct Er as (r2 & E2 & Er). injection Er as <-.
    apply in_app_iff in Hr. destruct Hr as [Hr|Hr]; [left; symmetry; exact (node_inv _ _ _ _ E1 Hr)|right; symmetry; exact (node_inv _ _ _ _ E2 Hr)].
Qed.
(** a site that is on is in the network, and has a link in use or serves demand *)
Lemma tune_site i s : dget (t_sites t) i = Some s -> yes (pl_site sol) i ->
  deployed t i /\ ((exists e, yes (pl_link sol) e /\ (fst e = i \/ snd e = i)) \/ serves t i).
Proof.
  intros Hs H. tps. assert (D := D0 ps at_ t I0 Hw Hn HI). unfold yes in *. rewrite PL. rewrite PS, (dget_mapv (fun i z => if mem i (sites_with_active_links I links ++ serving) then z else 0%Z)), (site_value V act site _ s Eact VS Esite Hs) in H.
  cbn [option_map] in H. injection H as H. destruct (mem i (sites_with_active_links I links ++ serving)) eqn:M; [|discriminate]. destruct (mem i act) eqn:A; [|discriminate].
  split; [apply (active_deployed ps at_ t I0 Hw Hn Hch HI act Eact), mem_In, A|]. apply mem_In, in_app_iff in M. destruct M as [M|M].
  - left. apply in_flat_map in M. destruct M as (e & _ & M). unfold ExtractModel.is_active in M. destruct (dget links e) as [z|] eqn:Eg; [|destruct M]. destruct (Z.eqb_spec z 1) as [->|]; [|destruct M].
    exists e. split; [exact Eg|]. destruct M as [->|[->|[]]]; auto.
  - right. destruct (concatM_inv _ _ _ _ Eserving M) as (e & r & He & Er & Hr). apply rbind_ok in Er. destruct Er as (t2 & Et & Er). apply get_ok in Et.
    change (i_type I) with (i_type I0) in Et. change (i_links I) with (i_links I0) in He. destruct t2; try (injection Er as <-; destruct Hr).
    apply rbind_ok in Er. destruct Er as (z & _ & Er). injection Er as <-. destruct (Z.eqb z 1); [|destruct Hr]. destruct Hr as [<-|[]].
    apply (D_links _ _ _ _ _ D) in He. destruct He as [(_ & (s' & Hp & _))|[(k & d & Hd & Hi & _)|(k & l & El & ->)]].
    + rewrite (D_site _ _ _ _ _ D _ _ Hp) in Et. discriminate.
    + exists k, d. auto.
    + destruct (link_sites t Hw k l El) as (_ & (s2 & H2)). cbn [snd] in Et. rewrite (D_site _ _ _ _ _ D _ _ H2) in Et. discriminate.
Qed.
(** polarities *)
Lemma tune_polarity k l : p_ignore_polarities ps = false -> link_stored t k l -> eligible at_ l -> backhaul_site t (l_tx l) -> backhaul_site t (l_rx l) -> used v (l_tx l, l_rx l) ->
  (yes (pl_odd sol) (l_tx l) /\ no (pl_even sol) (l_tx l) /\ no (pl_odd sol) (l_rx l) /\ yes (pl_even sol) (l_rx l)) \/
  (no (pl_odd sol) (l_tx l) /\ yes (pl_even sol) (l_tx l) /\ yes (pl_odd sol) (l_rx l) /\ no (pl_even sol) (l_rx l)).
Proof.
  intros Hp El He B1 B2 Hu. assert (Y := proj1 (tune_link k l El He) Hu). destruct (tune_ends k l El He Hu) as (S1 & S2). assert (D := D0 ps at_ t I0 Hw Hn HI).
  assert (O := chan_polarity ps at_ t I0 dn_limit total_limit bad P v Hw Hn HI HP Hv k l Hp El He B1 B2 Hu). tps. unfold yes, no in *. rewrite PL in Y.
  assert (Hl : In (l_tx l, l_rx l) (i_links I)) by exact (link_in ps at_ t (a_cap at_) I0 D k l El). destruct (active_links_sites links _ Hl Y) as (A & B). cbn [fst snd] in A, B.
  assert (K : forall i, backhaul_site t i -> In i (sites_with_active_links I links) -> dget (pl_site sol) i = Some 1%Z ->
    dget (pl_odd sol) i = Some (get_binary_value (v (VOdd i))) /\ dget (pl_even sol) i = Some (1 - get_binary_value (v (VOdd i)))%Z).
  { intros i Hb Hi Hs. assert (M : mem i (sites_with_active_links I links ++ serving) = true) by (apply mem_In, in_app_iff; now left).
    rewrite PS, (dget_mapv (fun i z => if mem i (sites_with_active_links I links ++ serving) then z else 0%Z)) in Hs. destruct (dget site i) as [z|] eqn:Ez; [|discriminate]. cbn [option_map] in Hs. rewrite M in Hs. injection Hs as ->.
    destruct (chan_odd ps at_ t I0 dn_limit total_limit bad P v Hw Hn HI HP Hv i ok Hp Hb Eok) as (G & _).
    unfold odd_choices in Eodd. change (p_ignore_polarities (i_params I)) with (p_ignore_polarities (i_params I0)) in Eodd. rewrite (chan_params ps at_ t I0 HI), Hp in Eodd.
    assert (R := mapM_eq _ (fun p => (fst p, match dget site (fst p) with Some s => if Z.eqb s 0 then (0%Z, 0%Z) else (snd p, (1 - snd p)%Z) | None => (0%Z, 0%Z) end)) _ _ Eodd).
    rewrite PO, PE, (dget_mapv (fun i (q : Z * Z) => if mem i (sites_with_active_links I links ++ serving) then fst q else 0%Z)), (dget_mapv (fun i (q : Z * Z) => if mem i (sites_with_active_links I links ++ serving) then snd q else 0%Z)).
    rewrite R; [|intros p y _ Hy; apply rbind_ok in Hy; destruct Hy as (s & Hy1 & Hy); apply get_ok in Hy1; injection Hy as <-; now rewrite Hy1].
    rewrite (dget_mapv (fun i z => match dget site i with Some s => if Z.eqb s 0 then (0%Z, 0%Z) else (z, (1 - z)%Z) | None => (0%Z, 0%Z) end)), binary_get, VO, G. cbn [option_map eval]. rewrite M, Ez. auto. }
  destruct (K _ B1 A S1) as (-> & ->). destruct (K _ B2 B S2) as (-> & ->).
  destruct O as [(O1 & O2)|(O1 & O2)]; [left|right]; rewrite ?(binary_one _ O1), ?(binary_zero _ O1), ?(binary_one _ O2), ?(binary_zero _ O2); auto.
Qed.
(** cables *)
Lemma tune_cable k l : link_stored t k l -> l_wireless l = false -> deployed t (l_tx l) -> deployed t (l_rx l) -> yes (pl_link sol) (l_tx l, l_rx l).
Proof.
  intros El W D1 D2. tps. assert (D := D0 ps at_ t I0 Hw Hn HI). unfold yes. rewrite PL. unfold get_link_decisions in Elinks. apply rbind_ok in Elinks. destruct Elinks as (la & Ela & E). apply rbind_ok in E. destruct E as (w & Ew & E). injection E as <-.
  apply fold_ones_in. assert (M := D_wired _ _ _ _ _ D _ _ El). rewrite W in M. cbn [negb] in M. apply mem_In in M. change (i_wired I0) with (i_wired I) in M.
  destruct (concatM_In _ _ _ _ Ew M) as (r & Er & Hr). destruct (link_sites t Hw k l El) as ((s1 & H1) & (s2 & H2)). unfold cable_on, get in Er. cbn [fst snd] in Er. change (i_type I) with (i_type I0) in Er.
  rewrite (D_site _ _ _ _ _ D _ _ H1), (D_site _ _ _ _ _ D _ _ H2) in Er. cbn [rbind imaginary orb] in Er.
  assert (K : forall i s, dget (t_sites t) i = Some s -> deployed t i -> site_on V i = Ok true).
  { intros i s Hs Hd. unfold site_on, get. rewrite (site_val ps at_ t I0 Hw Hn HI V act i s Eact VS Hs). cbn [rbind]. apply (active_deployed ps at_ t I0 Hw Hn Hch HI act Eact), mem_In in Hd. now rewrite Hd. }
  rewrite (K _ _ H1 D1) in Er. cbn [rbind] in Er. rewrite (K _ _ H2 D2) in Er. cbn [rbind andb] in Er. injection Er as <-. apply Hr. now left.
Qed.
(** airtime *)
Lemma tune_airtime k l : link_stored t k l -> l_wireless l = true ->
  exists q, dget (pl_tdm sol) (l_tx l, l_rx l) = Some q /\ q == total (fun c => share v c (l_tx l, l_rx l)) (seq 0 (p_channels ps)).
Proof.
  intros El W. tps. assert (D := D0 ps at_ t I0 Hw Hn HI). rewrite PT.
  assert (G : forall c, In c (channels I) -> dget (v_tdm V) ((l_tx l, l_rx l), c) = Some (Var (VTdm (l_tx l) (l_rx l) c))) by (intros c Hc; exact (tdm_get ps at_ t (a_cap at_) I0 D Hw V (ex_intro _ tk (conj Etk VT)) k l c El W Hc)).
  assert (M : dmem (v_tdm V) ((l_tx l, l_rx l), 0%nat) = true). { apply dmem_Some. eexists. apply G. apply (chans ps at_ t I0 Hch HI). lia. }
  assert (X : forall r, tdm_choice I V v (l_tx l, l_rx l) = Ok r -> r = [((l_tx l, l_rx l), fold_left Qplus (map (fun c => v (VTdm (l_tx l) (l_rx l) c)) (channels I)) 0)]).
  { intros r Er. unfold tdm_choice in Er. rewrite M in Er. cbn [negb] in Er. apply rbind_ok in Er. destruct Er as (xs & Exs & Er). cbv zeta in Er. apply rbind_ok in Er. destruct Er as (? & _ & Er). injection Er as <-.
    rewrite (mapM_eq _ (fun c => Var (VTdm (l_tx l) (l_rx l) c)) _ _ Exs), map_map; [reflexivity|]. intros c y Hc Hy. apply get_ok in Hy. rewrite (G c Hc) in Hy. now injection Hy. }
  eexists. split.
  - apply dict_of_value.
    + destruct (concatM_In _ _ _ _ Etdm (link_in ps at_ t (a_cap at_) I0 D k l El)) as (r & Er & Hr). rewrite (X r Er) in Hr. apply Hr. now left.
    + intros q Hq. destruct (concatM_inv _ _ _ _ Etdm Hq) as (e & r & _ & Er & Hr).
      assert (e = (l_tx l, l_rx l)). { unfold tdm_choice in Er. destruct (negb (dmem (v_tdm V) (e, 0%nat))); [injection Er as <-; destruct Hr|]. apply rbind_ok in Er. destruct Er as (xs & _ & Er). cbv zeta in Er. apply rbind_ok in Er. destruct Er as (? & _ & Er). injection Er as <-. destruct Hr as [Hr|[]]. now injection Hr. }
      subst e. rewrite (X r Er) in Hr. destruct Hr as [Hr|[]]. now injection Hr.
  - rewrite fold_plus, total_map. change (channels I) with (seq 0 (p_channels (i_params I0))). rewrite (chan_params ps at_ t I0 HI). unfold share. cbn [fst snd]. lra.
Qed.
(** other links of the plan are cables between sites of the network, or carry traffic *)
Lemma tune_other k l : link_stored t k l -> ~ eligible at_ l -> yes (pl_link sol) (l_tx l, l_rx l) ->
  (l_wireless l = false /\ deployed t (l_tx l) /\ deployed t (l_rx l)) \/
  exists q, dget (pl_flow sol) (l_tx l, l_rx l) = Some q /\ ~ (- epsilon <= q <= epsilon).
Proof.
  intros El He H. tps. assert (D := D0 ps at_ t I0 Hw Hn HI). unfold yes in H. rewrite PL in H. rewrite PF.
  unfold get_link_decisions in Elinks. apply rbind_ok in Elinks. destruct Elinks as (la & Ela & E). apply rbind_ok in E. destruct E as (w & Ew & E). injection E as <-.
  destruct (mem (l_tx l, l_rx l) w) eqn:M.
  - left. apply mem_In in M. destruct (concatM_inv _ _ _ _ Ew M) as (e & r & Hin & Er & Hr). unfold cable_on in Er.
    apply rbind_ok in Er. destruct Er as (ti & _ & Er). apply rbind_ok in Er. destruct Er as (tj & _ & Er). destruct (imaginary ti || imaginary tj); [injection Er as <-; destruct Hr|].
    apply rbind_ok in Er. destruct Er as (a & Ea & Er). apply rbind_ok in Er. destruct Er as (b & Eb & Er). injection Er as <-. destruct (a && b) eqn:AB; [|destruct Hr]. destruct Hr as [->|[]].
    apply andb_true_iff in AB. destruct AB as (-> & ->). cbn [fst snd] in Ea, Eb. destruct (link_sites t Hw k l El) as ((s1 & H1) & (s2 & H2)).
    assert (K : forall i s, dget (t_sites t) i = Some s -> site_on V i = Ok true -> deployed t i).
    { intros i s Hs Ho. unfold site_on, get in Ho. rewrite (site_val ps at_ t I0 Hw Hn HI V act i s Eact VS Hs) in Ho. cbn [rbind] in Ho. destruct (mem i act) eqn:A; [|discriminate].
      apply (active_deployed ps at_ t I0 Hw Hn Hch HI act Eact), mem_In, A. }
    split; [|split; eauto]. assert (Wd := D_wired _ _ _ _ _ D _ _ El). change (i_wired I) with (i_wired I0) in Hin. apply mem_In in Hin. rewrite Hin in Wd. destruct (l_wireless l); [discriminate|reflexivity].
  - right. rewrite fold_ones_other in H by now apply mem_not_In. rewrite dict_of_app in H.
    destruct (dget (dict_of la) (l_tx l, l_rx l)) as [z|] eqn:Ez.
    + injection H as ->. apply dict_of_In in Ez. destruct (concatM_inv _ _ _ _ Ela Ez) as (e & r & _ & Er & Hr). unfold flow_decision in Er. destruct (dmem (v_active V) e); [injection Er as <-; destruct Hr|].
      apply rbind_ok in Er. destruct Er as (ti & _ & Er). apply rbind_ok in Er. destruct Er as (tj & _ & Er). destruct (imaginary ti || imaginary tj); [injection Er as <-; destruct Hr|].
      apply rbind_ok in Er. destruct Er as (q & Eq & Er). injection Er as <-. destruct Hr as [Hr|[]]. injection Hr as -> Hz. apply get_ok in Eq. exists q. split; [exact Eq|].
      destruct (near_zero q) eqn:N; [discriminate|]. intros Hq. apply Qabs_Qle_condition in Hq. apply Qle_bool_iff in Hq. unfold near_zero in N. congruence.
    + exfalso. apply dict_of_In, in_map_iff in H. destruct H as ((e & y) & Eq & Hin). cbn in Eq. injection Eq as -> _. apply He.
      assert (Q : dget (v_active V) (l_tx l, l_rx l) = Some y) by (apply In_dget; [rewrite VA; apply dict_of_wf|exact Hin]).
      rewrite VA, fresh_get in Q. destruct (mem (l_tx l, l_rx l) ak) eqn:Ma; [|discriminate]. apply mem_In in Ma. apply (active_keys ps at_ t I0 Hw Hn HI ak Eak) in Ma. destruct Ma as (k' & l' & El' & He' & Eq').
      assert (W : l' = l) by (eapply link_fun; eauto; congruence). now rewrite <- W.
Qed.
(** sites of the network with a link of the plan, or that serve demand, are in the plan *)
Lemma tune_site_kept i : deployed t i ->
  (exists k l, link_stored t k l /\ yes (pl_link sol) (l_tx l, l_rx l) /\ (l_tx l = i \/ l_rx l = i)) \/
  (exists k d n, dget (t_demands t) k = Some d /\ In i (d_sites d) /\ consumer_of at_ d n) -> yes (pl_site sol) i.
Proof.
  intros Hd H. tps. assert (D := D0 ps at_ t I0 Hw Hn HI). assert (Hs : exists s, dget (t_sites t) i = Some s) by (destruct Hd as (s & (Hs & _) & _); eauto). destruct Hs as (s & Hs).
  assert (A := Hd). apply (active_deployed ps at_ t I0 Hw Hn Hch HI act Eact), mem_In in A. assert (Sv := site_value V act site i s Eact VS Esite Hs). rewrite A in Sv.
  unfold yes in *. rewrite PS, (dget_mapv (fun i z => if mem i (sites_with_active_links I links ++ serving) then z else 0%Z)), Sv. cbn [option_map].
  assert (M : mem i (sites_with_active_links I links ++ serving) = true); [|now rewrite M]. apply mem_In, in_app_iff. destruct H as [(k & l & El & Y & Hi)|(k & d & n & Hk' & Hi & Hc)].
  - left. rewrite PL in Y. destruct (active_links_sites links _ (link_in ps at_ t (a_cap at_) I0 D k l El) Y) as (L1 & L2). cbn [fst snd] in *. destruct Hi as [<-|<-]; auto.
  - right. assert (Hl : In (i, n) (i_links I)). { apply (D_links _ _ _ _ _ D). right; left. exists k, d. auto. }
    destruct (concatM_In _ _ _ _ Eserving Hl) as (r & Er & Hr). cbn [fst snd] in Er. unfold get at 1 in Er. change (i_type I) with (i_type I0) in Er.
    rewrite (D_cons _ _ _ _ _ D n) in Er by (exists k, d; auto). cbn [rbind] in Er. unfold get in Er. rewrite Sv in Er. cbn [rbind Z.eqb] in Er. injection Er as <-. apply Hr. now left.
Qed.
Lemma tune_site_off i s : dget (t_sites t) i = Some s -> yes (pl_site sol) i \/ no (pl_site sol) i.
Proof.
  intros Hs. tps. unfold yes, no. rewrite PS, (dget_mapv (fun i z => if mem i (sites_with_active_links I links ++ serving) then z else 0%Z)), (site_value V act site i s Eact VS Esite Hs). cbn [option_map].
  destruct (mem i (sites_with_active_links I links ++ serving)), (mem i act); auto.
Qed.
(** channels of sectors *)
Lemma loop_off V links rs e : forall s s', foldM (client_step I V links) rs s = Ok s' ->
  In (e, SecCN) rs \/ (dget (fst s) e = Some 0%Z -> dget (snd s) e = Some no_channel) -> dget (fst s') e = Some 0%Z -> dget (snd s') e = Some no_channel.
Proof.
  induction rs as [|p rs IH]; cbn [foldM]; intros s s' E H; [injection E as <-; destruct H as [[]|H]; exact H|]. apply rbind_ok in E. destruct E as (s1 & E1 & E). apply (IH s1 s' E).
  destruct (beq (fst p) e && is_client (snd p)) eqn:B.
  - right. intros Z. apply andb_true_iff in B. destruct B as (B & C). apply beq_true in B. unfold client_step in E1. rewrite C in E1. cbn [negb] in E1. apply rbind_ok in E1. destruct E1 as (d & Ed & E1). apply get_ok in Ed.
    destruct (Z.eqb_spec d 0) as [->|Nd]; [injection E1 as <-; cbn [snd]; rewrite B; apply dget_set_eq|]. apply rbind_ok in E1. destruct E1 as (cs & _ & E1).
    destruct cs as [|c [|? ?]]; [injection E1 as <-; cbn [snd]; rewrite B; apply dget_set_eq| |discriminate]. injection E1 as <-. cbn [fst] in Z. rewrite <- B, Ed in Z. congruence.
  - assert (O : fst p <> e \/ is_client (snd p) = false). { apply andb_false_iff in B. destruct B as [B|B]; [left; now apply beq_false|now right]. }
    destruct (step_other V links s p s1 e E1 O) as (-> & ->). destruct H as [[H|H]|H]; [|now left|now right]. subst p. cbn in O. destruct O as [O|O]; [destruct (O eq_refl)|discriminate].
Qed.
Lemma tune_sector_off k x : sector_stored t k x -> no (pl_sector sol) (x_site x, k) -> forall c, dget (pl_channel sol) (x_site x, k) = Some c -> c = no_channel.
Proof.
  intros Hx H c Hc. tps. unfold no in H. rewrite PX, (dget_mapv (fun e z => if kept (sites_with_active_links I links ++ serving) on e then z else 0%Z)) in H.
  rewrite PC, (dget_mapv (fun e z => if kept (sites_with_active_links I links ++ serving) on e then z else no_channel)) in Hc.
  destruct (kept _ on (x_site x, k)) eqn:Kp; [|destruct (dget (snd secs) _); [now injection Hc|discriminate]].
  destruct (dget (fst secs) (x_site x, k)) as [z|] eqn:Ez; [|discriminate]. cbn [option_map] in H. injection H as ->. destruct (dget (snd secs) (x_site x, k)) as [c'|] eqn:Ec; [|discriminate]. cbn [option_map] in Hc. injection Hc as ->.
  unfold get_sector_and_channel_decisions in Esecs. apply rbind_ok in Esecs. destruct Esecs as (rs & Ers & Esecs). apply rbind_ok in Esecs. destruct Esecs as (first & Efirst & Esecs).
  destruct (k_cn (x_key x)) eqn:C.
  - assert (Q := rs_in rs k x Ers Hx). unfold kind_of in Q. rewrite C in Q. assert (R := loop_off V links rs _ _ _ Esecs (or_introl Q) Ez). congruence.
  - assert (N : forall st, In ((x_site x, k), st) rs -> is_client st = false). { intros st Hin. rewrite (rs_kind rs k x _ st Ers Hx Hin). unfold kind_of. now rewrite C. }
    destruct (loop_dn V links rs _ N _ _ Esecs) as (G1 & G2). cbn [fst snd] in G1, G2. rewrite Ez in G1. rewrite Ec in G2. symmetry in G1, G2.
    apply dict_of_In, in_map_iff in G1. destruct G1 as (((e1 & st1) & r1) & Eq1 & Hin1). cbn in Eq1. injection Eq1 as -> Z1.
    apply dict_of_In, in_flat_map in G2. destruct G2 as (((e2 & st2) & r2) & Hin2 & Eq2). cbn in Eq2. destruct (is_client st2); [destruct Eq2|]. destruct Eq2 as [Eq2|[]]. injection Eq2 as -> Z2.
    destruct (mapM_inv _ _ _ _ Efirst Hin1) as (p1 & _ & E1). apply rbind_ok in E1. destruct E1 as (y1 & Ey1 & E1). injection E1 as -> ->. destruct (mapM_inv _ _ _ _ Efirst Hin2) as (p2 & _ & E2). apply rbind_ok in E2. destruct E2 as (y2 & Ey2 & E2). injection E2 as -> ->.
    cbn [fst snd] in Ey1, Ey2. rewrite Ey1 in Ey2. injection Ey2 as <-. unfold sector_choice in Ey1. cbv zeta in Ey1. apply rbind_ok in Ey1. destruct Ey1 as (? & _ & Ey1). apply rbind_ok in Ey1. destruct Ey1 as (? & _ & Ey1). injection Ey1 as <-. cbn [fst snd] in Z1, Z2. rewrite Z1 in Z2. now rewrite <- Z2.
Qed.
Lemma tune_sector_channel k x : sector_stored t k x -> k_cn (x_key x) = false -> yes (pl_sector sol) (x_site x, k) ->
  exists c, (c < p_channels ps)%nat /\ tuned v (x_site x) k c /\ dget (pl_channel sol) (x_site x, k) = Some (Z.of_nat c).
Proof.
  intros Hx C Y. destruct (tune_sector_on k x Hx Y) as (_ & (c & Hf & Ht) & _). exists c. split; [apply Hf|]. split; [exact Ht|]. tps. unfold yes in Y.
  rewrite PX, (dget_mapv (fun e z => if kept (sites_with_active_links I links ++ serving) on e then z else 0%Z)) in Y. rewrite PC, (dget_mapv (fun e z => if kept (sites_with_active_links I links ++ serving) on e then z else no_channel)).
  destruct (dget (fst secs) (x_site x, k)) as [z|]; [|discriminate]. cbn [option_map] in Y. destruct (kept _ on (x_site x, k)); [|discriminate].
  unfold get_sector_and_channel_decisions in Esecs. apply rbind_ok in Esecs. destruct Esecs as (rs & Ers & Esecs). apply rbind_ok in Esecs. destruct Esecs as (first & Efirst & Esecs).
  assert (N : forall st, In ((x_site x, k), st) rs -> is_client st = false). { intros st Hin. rewrite (rs_kind rs k x _ st Ers Hx Hin). unfold kind_of. now rewrite C. }
  destruct (loop_dn V links rs _ N _ _ Esecs) as (_ & G2). cbn [snd] in G2. rewrite G2, (proj2 (first_loop V sk rs first k x c Esk VSec Ers Efirst Hx Hf Ht) C). reflexivity.
Qed.
End Tune.
