(** When the answer of the deployment step can be read. *)
From Coq Require Import QArith Qabs Lqa Lia.
From Verif Require Import Base Dict TopologyModel TopologySpec GraphSpec RfModel RfProofs SetupModel PruneModel PruneProofs IlpModel IlpSpec QLib MonadLib SetupProofs
  IlpLemmas IlpProofs DeploySpec ChanModel ChanSpec ChanProofs ExtractSpec ExtractModel ExtractProofs SolveProofs TuneModel TuneSpec TuneProofs.
Local Open Scope Q_scope.

(** ** lists with at most one element of a kind *)
Lemma flat_one {A B} (g : A -> list B) l : NoDup l -> (forall x, In x l -> (List.length (g x) <= 1)%nat) ->
  (forall x y, In x l -> In y l -> g x <> [] -> g y <> [] -> x = y) -> (List.length (flat_map g l) <= 1)%nat.
Proof.
  induction l as [|x l IH]; cbn; intros Nd L U; [lia|]. apply NoDup_cons_iff in Nd. destruct Nd as (Nx & Nd). rewrite app_length.
  assert (A1 := L x (or_introl eq_refl)). assert (A2 : (List.length (flat_map g l) <= 1)%nat) by (apply IH; auto).
  destruct (g x) as [|b r] eqn:E; [cbn; lia|]. destruct (flat_map g l) as [|b' r'] eqn:F; [cbn in *; lia|]. exfalso.
  assert (Hb : In b' (flat_map g l)) by (rewrite F; now left). apply in_flat_map in Hb. destruct Hb as (y & Hy & Hb').
  assert (x = y); [|congruence]. apply U; auto; intros Q; [congruence|]. rewrite Q in Hb'. destruct Hb'.
Qed.
Lemma zsum_len l : (forall z, In z l -> z = 0 \/ z = 1)%Z -> (List.length (filter (Z.eqb 1) l) <= 1)%nat -> (zsum l <= 1)%Z.
Proof.
  intros H Hl. assert (E : zsum l = Z.of_nat (List.length (filter (Z.eqb 1) l))); [|lia]. clear Hl.
  induction l as [|z l IH]; [reflexivity|]. cbn [filter]. unfold zsum in *. cbn [fold_right]. rewrite IH by (intros; apply H; now right).
  destruct (H z (or_introl eq_refl)) as [E|E]; subst z; cbn [Z.eqb]; [lia|]. cbn [List.length Pos.eqb]. lia.
Qed.
Lemma filter_flat {A B} (p : B -> bool) (g : A -> list B) l : filter p (flat_map g l) = flat_map (fun x => filter p (g x)) l.
Proof. induction l as [|x l IH]; cbn; [reflexivity|]. now rewrite filter_app, IH. Qed.
Lemma filter_map_len {A B} (p : B -> bool) (f : A -> B) l : List.length (filter p (map f l)) = List.length (flat_map (fun x => if p (f x) then [x] else []) l).
Proof. induction l as [|x l IH]; cbn; [reflexivity|]. destruct (p (f x)); cbn; now rewrite IH. Qed.

Section Read.
Variables (ps : params) (at_ : attrs) (t : topo) (I0 : inst) (dn_limit total_limit : nat) (bad : list (string * string * string)) (P : problem) (v : var -> Q).
Hypothesis Hw : well_formed t.
Hypothesis Hn : names_ok at_ t.
Hypothesis Hss : sectors_stored t.
Hypothesis Hk : sector_kinds t.
Hypothesis Hch : (1 <= p_channels ps)%nat.
Hypothesis HI : network ps at_ t = Ok I0.
Hypothesis HP : deploy_problem dn_limit total_limit bad I0 = Ok P.
Hypothesis Hv : feasible P v.
Hypothesis Hone : forall k l c c', link_stored t k l -> l_wireless l = true -> (c < p_channels ps)%nat -> (c' < p_channels ps)%nat ->
  epsilon < share v c (l_tx l, l_rx l) -> epsilon < share v c' (l_tx l, l_rx l) -> c = c'.
Hypothesis Hcn : forall k l, link_stored t k l -> type_is t (l_tx l) CN -> ~ type_is t (l_rx l) CN.
Let I := deploy_inst I0.
Let D : describes ps at_ t (a_cap at_) I0 := D0 ps at_ t I0 Hw Hn HI.

Lemma end_type n : In n (i_locations I) -> exists ty, dget (i_type I) n = Some ty.
Proof.
  intros H. apply (D_locs _ _ _ _ _ D) in H. destruct H as [->|[(s & Hs)|Hc]]; eexists; [apply (D_super _ _ _ _ _ D)|apply (D_site _ _ _ _ _ D _ _ Hs)|apply (D_cons _ _ _ _ _ D _ Hc)].
Qed.
Lemma real_edge e ti tj : In e (i_links I) -> dget (i_type I) (fst e) = Some ti -> dget (i_type I) (snd e) = Some tj -> imaginary ti = false -> imaginary tj = false ->
  exists k l, link_stored t k l /\ e = (l_tx l, l_rx l).
Proof.
  intros He Hi Hj Ri Rj. destruct (edge_kinds ps at_ t (a_cap at_) I0 D Hn e He) as [H|[(E & _)|(_ & Hc)]]; [exact H| |].
  - rewrite E in Hi. assert (Q := D_super _ _ _ _ _ D). change (i_type I) with (i_type I0) in Hi. rewrite Q in Hi. injection Hi as <-. discriminate.
  - assert (Q := D_cons _ _ _ _ _ D _ Hc). change (i_type I) with (i_type I0) in Hj. rewrite Q in Hj. injection Hj as <-. discriminate.
Qed.
Lemma wired_link e : In e (i_wired I) -> In e (i_links I).
Proof.
  destruct (setup_fields ps at_ t I0 (proj1 (network_setup ps at_ t I0 HI))) as (thr & Ethr & Eep & Edem & Eself & Fps & Floc & Ftype & Fset & Fsecs & Fst & Fl2s & Fcap & Fdem & Fgeo & Fcol & Fwired & _).
  change (i_wired I) with (i_wired I0). change (i_links I) with (i_links I0). rewrite Fwired. intros H. 
  apply in_app_iff in H. destruct H as [H|H].
  - apply in_map_iff in H. destruct H as ((e' & l) & <- & H). apply filter_In in H. destruct H as (H & _). unfold topology_edges in H. apply in_map_iff in H. destruct H as ((k & l') & Eq & H).
    injection Eq as <- ->. cbn. apply (link_in ps at_ t (a_cap at_) I0 D k l). apply In_dget; [apply Hw|exact H].
  - unfold i_links. rewrite Fcap. apply in_app_iff in H. destruct H as [H|H]; [now apply filter_In in H|]. apply in_flat_map in H. destruct H as (? & _ & H). now apply filter_In in H.
Qed.
Section Tables.
Variables (V : tables) (act ok : list string) (ak : list edge) (sk tk : list key3).
Hypothesis Eact : active_sites I = Ok act.
Hypothesis Eok : odd_keys I = Ok ok.
Hypothesis Eak : active_link_keys I = Ok ak.
Hypothesis Esk : sector_keys I = Ok sk.
Hypothesis Etk : tdm_keys I = Ok tk.
Hypothesis VS : site_constants I act = Ok (v_site V).
Hypothesis VSec : v_sector V = dict_of (fresh sector_var sk).
Hypothesis VF : v_flow V = dict_of (fresh flow_var (flow_keys I)).
Hypothesis VT : v_tdm V = dict_of (fresh tdm_var tk).
Hypothesis VO : v_odd V = dict_of (fresh VOdd ok).
Hypothesis VA : v_active V = dict_of (fresh active_var ak).

Lemma read_sites : exists site, site_values V = Ok site.
Proof.
  apply mapM_total. intros (i & x) Hin. unfold site_on, get. assert (W : dwf (v_site V)).
  { assert (H := VS). unfold site_constants in H. apply rbind_ok in H. destruct H as (l & _ & H). injection H as <-. apply dict_of_wf. }
  cbn [fst]. rewrite (In_dget _ _ _ W Hin). cbn. eauto.
Qed.
Lemma read_tdm : exists tdm, concatM (tdm_choice I V v) (i_links I) = Ok tdm.
Proof.
  apply concatM_total. intros e He. unfold tdm_choice. destruct (dmem (v_tdm V) (e, 0%nat)) eqn:M; [|cbn; eauto]. cbn [negb].
  apply dmem_Some in M. destruct M as (y & My). destruct (tdm_get_inv ps at_ t (a_cap at_) I0 D Hn V (ex_intro _ tk (conj Etk VT)) e 0%nat y My) as (_ & (k & l & El & -> & W) & _).
  rewrite (mapM_pure _ (fun c => Var (VTdm (l_tx l) (l_rx l) c))).
  2:{ intros c Hc. apply get_ok. exact (tdm_get ps at_ t (a_cap at_) I0 D Hw V (ex_intro _ tk (conj Etk VT)) k l c El W Hc). }
  cbn [rbind]. cbv zeta. rewrite map_map, filter_map_len. cbn [eval].
  assert (L : (List.length (flat_map (fun c => if negb (near_zero (v (VTdm (l_tx l) (l_rx l) c))) then [c] else []) (channels I)) <= 1)%nat).
  { apply flat_one; [apply chans_nd| |].
    - intros c _. destruct (negb _); cbn; lia.
    - assert (K : forall c, In c (channels I) -> (if negb (near_zero (v (VTdm (l_tx l) (l_rx l) c))) then [c] else []) <> [] -> (c < p_channels ps)%nat /\ epsilon < share v c (l_tx l, l_rx l)).
      { intros c Hc H. apply (chans ps at_ t I0 Hch HI) in Hc. split; [exact Hc|]. destruct (near_zero (v (VTdm (l_tx l) (l_rx l) c))) eqn:N; [destruct (H eq_refl)|].
        assert (Pos := chan_share_kind ps at_ t I0 dn_limit total_limit bad P v Hw Hn Hch HI HP Hv k l c El W Hc). unfold share in *. cbn [fst snd] in *.
        apply Qnot_le_lt. intros Hle. unfold near_zero in N. rewrite Qabs_pos in N by exact Pos. apply Qle_bool_iff in Hle. congruence. }
      intros c c' Hc Hc' H H'. destruct (K c Hc H), (K c' Hc' H'). eapply Hone; eauto. }
  apply Nat.leb_le in L. rewrite L. cbn. eauto.
Qed.
Lemma read_odd site : site_values V = Ok site -> exists odd, odd_choices I V v site = Ok odd.
Proof.
  intros Es. unfold odd_choices. destruct (p_ignore_polarities (i_params I)) eqn:Ig; [eauto|]. apply mapM_total. intros (i & z) Hin. cbn [fst snd].
  apply in_map_iff in Hin. destruct Hin as ((i' & x) & Eq & Hin). cbn in Eq. injection Eq as -> _. rewrite VO in Hin.
  assert (G : In i ok). { assert (Hi : In i (dkeys (dict_of (fresh VOdd ok)))) by (apply in_map_iff; exists (i, x); auto). apply (proj1 (dict_of_keys _ _)) in Hi. unfold fresh in Hi. rewrite map_map in Hi. cbn in Hi. now rewrite map_id in Hi. }
  assert (H := Eok). unfold odd_keys in H. rewrite Ig in H. destruct (filterM_ok _ _ _ H) as (_ & F & _). apply F in G. destruct G as (_ & G). apply rbind_ok in G. destruct G as (ty & Ety & G). apply get_ok in Ety.
  apply (D_type _ _ _ _ _ D) in Ety. destruct Ety as [(_ & ->)|[(s & Hs & _)|(_ & ->)]]; [discriminate| |discriminate].
  unfold get. rewrite (site_value ps at_ t I0 Hw Hn HI V act site i s Eact VS Es Hs). cbn. eauto.
Qed.
Lemma site_on_ok i : site_stored t i -> exists b, site_on V i = Ok b.
Proof. intros (s & Hs). unfold site_on, get. rewrite (site_val ps at_ t I0 Hw Hn HI V act i s Eact VS Hs). cbn. eauto. Qed.
Lemma read_links fl : (forall e, In e (i_links I) -> exists q, dget fl e = Some q) -> exists links, get_link_decisions I V v fl = Ok links.
Proof.
  intros Hfl. unfold get_link_decisions. destruct (concatM_total (flow_decision I V fl) (dkeys (v_flow V))) as (la & Ela).
  { intros e He. rewrite VF in He. apply (proj1 (dict_of_keys _ _)) in He. unfold fresh in He. rewrite map_map in He. cbn in He. rewrite map_id in He.
    unfold flow_decision. destruct (dmem (v_active V) e); [eauto|]. destruct (D_ends _ _ _ _ _ D e He) as (A & B). destruct (end_type _ A) as (ti & Hti). destruct (end_type _ B) as (tj & Htj).
    destruct (Hfl e He) as (q & Eq). unfold get. rewrite Hti. cbn [rbind]. rewrite Htj. cbn [rbind]. destruct (imaginary ti || imaginary tj); [eauto|]. rewrite Eq. cbn. eauto. }
  rewrite Ela. cbn [rbind]. destruct (concatM_total (cable_on I V) (i_wired I)) as (w & Ew); [|rewrite Ew; cbn; eauto].
  intros e He. apply wired_link in He. destruct (D_ends _ _ _ _ _ D e He) as (A & B). destruct (end_type _ A) as (ti & Hti). destruct (end_type _ B) as (tj & Htj).
  unfold cable_on, get. rewrite Hti. cbn [rbind]. rewrite Htj. cbn [rbind]. destruct (imaginary ti || imaginary tj) eqn:Im; [eauto|]. apply orb_false_iff in Im. destruct Im as (Ii & Ij).
  destruct (real_edge e ti tj He Hti Htj Ii Ij) as (k & l & El & ->). destruct (link_sites t Hw k l El) as (S1 & S2). cbn [fst snd].
  destruct (site_on_ok _ S1) as (a & Ea). destruct (site_on_ok _ S2) as (b & Eb). rewrite Ea. cbn [rbind]. rewrite Eb. cbn. eauto.
Qed.
(** *** sectors *)
Lemma rs_ok : exists rs, real_sectors I = Ok rs /\ forall e st, In (e, st) rs -> exists x, sector_stored t (snd e) x /\ x_site x = fst e /\ st = kind_of x.
Proof.
  destruct (concatM_total (fun p => concatM (fun a => do st <- get (i_sectype I) a ; Ok (if imaginary_sec st then [] else [((fst p, a), st)])) (snd p)) (i_secs I)) as (rs & Ers).
  { intros p Hp. assert (T := Esk). unfold sector_keys in T. destruct (concatM_In _ _ _ _ T Hp) as (r & Er & _). apply concatM_total. intros a Ha. destruct (concatM_In _ _ _ _ Er Ha) as (r1 & Er1 & _).
    apply rbind_ok in Er1. destruct Er1 as (ty & Ety & _). rewrite Ety. cbn. eauto. }
  exists rs. split; [exact Ers|]. intros e st Hin. destruct (concatM_inv _ _ _ _ Ers Hin) as (p & r & Hp & Er & Hr). destruct (concatM_inv _ _ _ _ Er Hr) as (a & r1 & Ha & Er1 & Hr1).
  apply rbind_ok in Er1. destruct Er1 as (st' & Est & Er1). apply get_ok in Est. injection Er1 as <-. destruct (imaginary_sec st') eqn:Im; [destruct Hr1|]. destruct Hr1 as [Hr1|[]]. injection Hr1 as <- <-. cbn [fst snd].
  assert (W : dwf (i_secs I)). { destruct (setup_fields ps at_ t I0 (proj1 (network_setup ps at_ t I0 HI))) as (thr & _ & _ & _ & _ & _ & _ & _ & _ & Fsecs & _). change (i_secs I) with (i_secs I0). rewrite Fsecs. apply setup_secs_wf. }
  destruct p as (loc & sl). cbn [fst snd] in *. assert (G := In_dget _ _ _ W Hp). destruct (D_sec_inv _ _ _ _ _ D loc sl a st' G Ha Est Im) as (x & Hx & Hxs). exists x. split; [exact Hx|]. split; [exact Hxs|].
  change (i_sectype I) with (i_sectype I0) in Est. rewrite (D_sectype _ _ _ _ _ D _ _ Hx) in Est. injection Est as <-. reflexivity.
Qed.
Lemma choice_ok k x : sector_stored t k x -> exists r, sector_choice I V v (x_site x) k = Ok r.
Proof.
  intros Hx. unfold sector_choice. cbv zeta.
  assert (B : forall z, In z (channel_values I V v (x_site x) k) -> z = 0%Z \/ z = 1%Z).
  { intros z Hz. destruct (cv_bin I0 dn_limit total_limit bad P v HP Hv V sk _ _ z Esk VSec Hz) as [E|(E & _)]; auto. }
  assert (Ne : channel_values I V v (x_site x) k <> []).
  { intros E. assert (Q : In (get_binary_value (v (VSector (x_site x) k 0))) (channel_values I V v (x_site x) k)); [|rewrite E in Q; destruct Q].
    apply in_flat_map. exists 0%nat. split; [apply (chans ps at_ t I0 Hch HI); lia|]. rewrite (sector_get ps at_ t I0 Hw Hn Hch HI V sk k x 0%nat Esk VSec Hx (or_introl eq_refl)) by lia. now left. }
  assert (S : (zsum (channel_values I V v (x_site x) k) <= 1)%Z).
  { apply zsum_len; [exact B|]. unfold channel_values. rewrite filter_flat. apply flat_one; [apply chans_nd| |].
    - intros c _. destruct (dget (v_sector V) (x_site x, k, c)); cbn; [|lia]. destruct (get_binary_value (eval v e)) as [|[| |]|]; cbn; lia.
    - assert (K : forall c, In c (channels I) -> filter (Z.eqb 1) (match dget (v_sector V) (x_site x, k, c) with Some y => [get_binary_value (eval v y)] | None => [] end) <> [] ->
        (c < p_channels ps)%nat /\ In (x_site x, k, c) sk /\ tuned v (x_site x) k c).
      { intros c Hc H. split; [now apply (chans ps at_ t I0 Hch HI)|]. destruct (dget (v_sector V) (x_site x, k, c)) as [y|] eqn:Ey; [|destruct (H eq_refl)].
        destruct (sector_inv I0 V sk _ _ c y Esk VSec Ey) as (-> & Hin). split; [exact Hin|]. cbn [eval] in H.
        destruct (sector_bin I0 dn_limit total_limit bad P v HP Hv sk Esk _ _ c Hin) as [Z|Z]; [|exact Z]. unfold sector_var in H. cbn [fst snd] in H. rewrite (binary_zero _ Z) in H. destruct (H eq_refl). }
      intros c c' Hc Hc' H H'. destruct (K c Hc H) as (C1 & C2 & C3), (K c' Hc' H') as (C1' & C2' & C3').
      destruct (k_cn (x_key x)) eqn:Cn.
      + rewrite (sector_cn_key ps at_ t I0 Hw Hn HI sk k x c Esk Hx Cn C2). symmetry. exact (sector_cn_key ps at_ t I0 Hw Hn HI sk k x c' Esk Hx Cn C2').
      + exact (chan_one_channel ps at_ t I0 dn_limit total_limit bad P v Hw Hn Hch HI HP Hv k x c c' Hx Cn C1 C1' C3 C3'). }
  apply Z.leb_le in S. rewrite S. destruct (channel_values I V v (x_site x) k); [destruct (Ne eq_refl)|]. cbn. eauto.
Qed.
Definition get_links_ok (links : dict edge Z) : Prop := forall k l, link_stored t k l -> eligible at_ l -> dget links (l_tx l, l_rx l) = Some (get_binary_value (v (VActive (l_tx l) (l_rx l)))).
Lemma read_serving links channel k x : get_links_ok links -> sector_stored t k x -> k_cn (x_key x) = true ->
  (forall k' x', sector_stored t k' x' -> k_cn (x_key x') = false -> exists c, dget channel (x_site x', k') = Some c) ->
  exists cs, serving_channels I V links channel (x_site x) k = Ok cs /\ (List.length cs <= 1)%nat.
Proof.
  intros GL Hx Cn Hc. assert (Hs := sector_site_stored t k x Hw Hx). assert (Hs' := Hs). destruct Hs' as (s & Es). assert (Ty : type_is t (x_site x) CN) by (exists s; split; [exact Es|]; now apply (Hk k x s Hx Es)).
  assert (Hloc : In (x_site x) (i_locations I)) by (apply (D_locs _ _ _ _ _ D); auto).
  destruct (lists_in ps at_ t (a_cap at_) I0 D (x_site x) Hloc) as (es & Ees & Hnd & Hes). unfold serving_channels. change (incoming I) with (incoming I0). rewrite Ees. cbn [rbind].
  set (g := fun e : edge => match dget links e, dget (i_l2s I) e with
     | Some z, Some (Some sa, sb) => if dmem (v_active V) e && negb (Z.eqb z 0) && beq sb (Some k) then match dget channel (fst e, sa) with Some c => [c] | None => [] end else []
     | _, _ => [] end).
  rewrite (concatM_pure _ g).
  2:{ intros e He. apply Hes in He. destruct He as (_ & Er). unfold g. destruct (dmem (v_active V) e) eqn:M; cbn [negb].
      2:{ destruct (dget links e); [|reflexivity]. destruct (dget (i_l2s I) e) as [[[sa|] sb]|]; reflexivity. }
      apply dmem_Some in M. destruct M as (y & My). rewrite VA, fresh_get in My. destruct (mem e ak) eqn:Ma; [|discriminate]. apply mem_In in Ma. apply (active_keys ps at_ t I0 Hw Hn HI ak Eak) in Ma. destruct Ma as (k' & l & El & He' & ->).
      rewrite (GL k' l El He'). cbn [get]. unfold get at 1. rewrite (GL k' l El He'). cbn [rbind]. destruct He' as (W & (a & b & Eab) & Cap). change (i_l2s I) with (i_l2s I0). unfold get. rewrite (D_l2s _ _ _ _ _ D _ _ El), Eab. cbn [rbind fst snd].
      destruct (Z.eqb _ 0); [reflexivity|]. cbn [negb andb]. destruct (beq (Some (key_id b)) (Some k)); [|reflexivity].
      destruct (link_ends t Hss k' l a b El Eab) as (xa & xb & Ha & Ka & Sa & _). rewrite <- Sa. destruct (Hc _ _ Ha) as (c & Ec); [|rewrite Ec; reflexivity].
      destruct (k_cn (x_key xa)) eqn:Ca; [|reflexivity]. exfalso. destruct (link_sites t Hw k' l El) as ((s1 & H1) & _). cbn [snd] in Er. apply (Hcn k' l El); [|rewrite Er; exact Ty].
      exists s1. split; [exact H1|]. apply (Hk _ xa s1 Ha); [now rewrite Sa|exact Ca]. }
  eexists. split; [reflexivity|]. apply flat_one; [exact Hnd| |].
  - intros e _. unfold g. destruct (dget links e); [|cbn; lia]. destruct (dget (i_l2s I) e) as [[[sa|] sb]|]; cbn; try lia. destruct (_ && _ && _); cbn; [|lia]. destruct (dget channel _); cbn; lia.
  - assert (K : forall e, In e es -> g e <> [] -> exists k' l, link_stored t k' l /\ eligible at_ l /\ e = (l_tx l, l_rx l) /\ l_rx l = x_site x /\ used v e).
    { intros e He H. apply Hes in He. destruct He as (_ & Er). unfold g in H. destruct (dget links e) as [z|] eqn:Ez; [|destruct (H eq_refl)]. destruct (dget (i_l2s I) e) as [[[sa|] sb]|]; try (destruct (H eq_refl)).
      destruct (dmem (v_active V) e) eqn:M; [|destruct (H eq_refl)]. destruct (Z.eqb z 0) eqn:Z0; [destruct (H eq_refl)|]. clear H.
      apply dmem_Some in M. destruct M as (y & My). rewrite VA, fresh_get in My. destruct (mem e ak) eqn:Ma; [|discriminate]. apply mem_In in Ma. apply (active_keys ps at_ t I0 Hw Hn HI ak Eak) in Ma. destruct Ma as (k' & l & El & He' & ->).
      exists k', l. split; [exact El|]. split; [exact He'|]. split; [reflexivity|]. split; [exact Er|]. rewrite (GL k' l El He') in Ez. injection Ez as <-.
      destruct (used_bin ps at_ t I0 dn_limit total_limit bad P v Hw Hn HI HP Hv k' l El He') as [Z|Z]; [rewrite (binary_zero _ Z) in Z0; discriminate|exact Z]. }
    intros e e' He He' H H'. destruct (K e He H) as (k1 & l1 & El1 & E1 & -> & R1 & U1). destruct (K e' He' H') as (k2 & l2 & El2 & E2 & -> & R2 & U2).
    assert (l1 = l2); [|congruence]. eapply (chan_cn ps at_ t I0 dn_limit total_limit bad P v Hw Hn HI HP Hv k1 l1 k2 l2); eauto; [congruence|]. now rewrite R1.
Qed.
Lemma read_sectors links : get_links_ok links -> exists secs, get_sector_and_channel_decisions I V v links = Ok secs.
Proof.
  intros GL. unfold get_sector_and_channel_decisions. destruct rs_ok as (rs & Ers & Hrs). rewrite Ers. cbn [rbind].
  destruct (mapM_total (fun p : edge * sec_type => do x <- sector_choice I V v (fst (fst p)) (snd (fst p)) ; Ok (p, x)) rs) as (first & Ef).
  { intros (e & st) Hin. destruct (Hrs e st Hin) as (x & Hx & Hxs & _). destruct (choice_ok _ x Hx) as (r & Er). cbn [fst snd]. rewrite <- Hxs, Er. cbn. eauto. }
  rewrite Ef. cbn [rbind].
  destruct (foldM_total (client_step I V links) (fun s => (forall e st, In (e, st) rs -> exists d, dget (fst s) e = Some d) /\ (forall k x, sector_stored t k x -> k_cn (x_key x) = false -> exists c, dget (snd s) (x_site x, k) = Some c)) rs
    (dict_of (map (fun q => (fst (fst q), fst (snd q))) first), dict_of (flat_map (fun q => if is_client (snd (fst q)) then [] else [(fst (fst q), snd (snd q))]) first))) as (s' & Es' & _); [| |eauto].
  - assert (Keep : forall (d : dict edge Z) e e' z, (exists y, dget d e = Some y) -> exists y, dget (dset d e' z) e = Some y).
    { intros d e e' z (y & Ey). destruct (beq e e') eqn:B; [apply beq_true in B; subst; rewrite dget_set_eq; eauto|]. apply beq_false in B. rewrite dget_set_neq by auto. eauto. }
    intros s (e & st) (P1 & P2) Hin. unfold client_step. cbn [fst snd]. destruct (is_client st) eqn:C; cbn [negb]; [|eauto].
    destruct (P1 e st Hin) as (d & Ed). unfold get. rewrite Ed. cbn [rbind]. destruct (Z.eqb d 0); [eexists; split; [reflexivity|]; cbn [fst snd]; auto|].
    destruct (Hrs e st Hin) as (x & Hx & Hxs & Est). assert (Cn : k_cn (x_key x) = true) by (subst st; unfold kind_of in C; now destruct (k_cn (x_key x))).
    destruct (read_serving links (snd s) _ x GL Hx Cn P2) as (cs & Ecs & L). rewrite <- Hxs, Ecs. cbn [rbind]. destruct cs as [|c [|c' cs]]; [| |cbn in L; lia]; (eexists; split; [reflexivity|]; cbn [fst snd]; split; intros; eauto).
  - cbn [fst snd]. split.
    + intros e st Hin. destruct (mapM_In _ _ _ _ Ef Hin) as (y & Ey & Hy). apply rbind_ok in Ey. destruct Ey as (r & _ & Ey). injection Ey as <-.
      destruct (dict_of_get (map (fun q : (edge * sec_type) * (Z * Z) => (fst (fst q), fst (snd q))) first) e) as (z & Ez & _); [|eauto]. rewrite map_map. apply in_map_iff. exists ((e, st), r). auto.
    + intros k x Hx C. destruct (mapM_In _ _ _ _ Ef (rs_in ps at_ t I0 Hw Hn HI rs k x Ers Hx)) as (y & Ey & Hy). apply rbind_ok in Ey. destruct Ey as (r & _ & Ey). injection Ey as <-.
      destruct (dict_of_get (flat_map (fun q : (edge * sec_type) * (Z * Z) => if is_client (snd (fst q)) then [] else [(fst (fst q), snd (snd q))]) first) (x_site x, k)) as (z & Ez & _); [|eauto].
      apply in_map_iff. exists ((x_site x, k), snd r). split; [reflexivity|]. apply in_flat_map. exists (((x_site x, k), kind_of x), r). split; [exact Hy|]. cbn. unfold kind_of. rewrite C. now left.
Qed.
Definition real_ends (e : edge) : Prop := exists ti tj, dget (i_type I) (fst e) = Some ti /\ dget (i_type I) (snd e) = Some tj /\ imaginary ti || imaginary tj = false.
Lemma links_real fl links e z : get_link_decisions I V v fl = Ok links -> dget links e = Some z -> real_ends e.
Proof.
  intros E H. unfold get_link_decisions in E. apply rbind_ok in E. destruct E as (la & Ela & E). apply rbind_ok in E. destruct E as (w & Ew & E). injection E as <-.
  destruct (mem e w) eqn:M.
  - apply mem_In in M. destruct (concatM_inv _ _ _ _ Ew M) as (e' & r & _ & Er & Hr). unfold cable_on in Er.
    apply rbind_ok in Er. destruct Er as (ti & Hti & Er). apply rbind_ok in Er. destruct Er as (tj & Htj & Er). apply get_ok in Hti, Htj. destruct (imaginary ti || imaginary tj) eqn:Im; [injection Er as <-; destruct Hr|].
    apply rbind_ok in Er. destruct Er as (a & _ & Er). apply rbind_ok in Er. destruct Er as (b & _ & Er). injection Er as <-. destruct (a && b); [|destruct Hr]. destruct Hr as [->|[]]. exists ti, tj. auto.
  - rewrite fold_ones_other in H by now apply mem_not_In. apply dict_of_In, in_app_iff in H. destruct H as [H|H].
    + apply in_map_iff in H. destruct H as ((e' & y) & Eq & Hin). cbn in Eq. injection Eq as -> _.
      assert (Q : dget (v_active V) e = Some y) by (apply In_dget; [rewrite VA; apply dict_of_wf|exact Hin]). rewrite VA, fresh_get in Q. destruct (mem e ak) eqn:Ma; [|discriminate].
      apply mem_In in Ma. apply (active_keys ps at_ t I0 Hw Hn HI ak Eak) in Ma. destruct Ma as (k & l & El & _ & ->). destruct (link_sites t Hw k l El) as ((s1 & H1) & (s2 & H2)).
      exists (Real (s_type s1)), (Real (s_type s2)). cbn [fst snd]. split; [apply (D_site _ _ _ _ _ D _ _ H1)|]. split; [apply (D_site _ _ _ _ _ D _ _ H2)|reflexivity].
    + destruct (concatM_inv _ _ _ _ Ela H) as (e' & r & _ & Er & Hr). unfold flow_decision in Er. destruct (dmem (v_active V) e'); [injection Er as <-; destruct Hr|].
      apply rbind_ok in Er. destruct Er as (ti & Hti & Er). apply rbind_ok in Er. destruct Er as (tj & Htj & Er). apply get_ok in Hti, Htj. destruct (imaginary ti || imaginary tj) eqn:Im; [injection Er as <-; destruct Hr|].
      apply rbind_ok in Er. destruct Er as (q & _ & Er). injection Er as <-. destruct Hr as [Hr|[]]. injection Hr as -> _. exists ti, tj. auto.
Qed.
Lemma read_on fl links : get_link_decisions I V v fl = Ok links -> exists on, sectors_with_active_links I links = Ok on.
Proof.
  intros EL. apply concatM_total. intros e He. destruct (ExtractModel.is_active links e) eqn:A; [|eauto]. unfold ExtractModel.is_active in A. destruct (dget links e) as [z|] eqn:Ez; [|discriminate].
  destruct (links_real fl links e z EL Ez) as (ti & tj & Hti & Htj & Im). apply orb_false_iff in Im. destruct Im as (Ii & Ij). destruct (real_edge e ti tj He Hti Htj Ii Ij) as (k & l & El & ->).
  cbn [fst snd]. unfold get at 1. change (i_l2s I) with (i_l2s I0). rewrite (D_l2s _ _ _ _ _ D _ _ El). cbn [rbind]. destruct (l_sectors l) as [[a b]|] eqn:Es; cbn [fst snd]; [|cbn; eauto].
    destruct (link_sites t Hw _ _ El) as (T1 & T2). assert (K1 := site_location ps at_ t I0 Hw Hn HI _ T1). assert (K2 := site_location ps at_ t I0 Hw Hn HI _ T2).
    destruct (link_ends t Hss k l a b El Es) as (xa & xb & Ha & _ & Sa & Hb & _ & Sb).
    destruct (node_sectors_ok ps at_ t I0 Hw Hn HI _ a xa K1 Ha Sa) as (r1 & Er1 & _). destruct (node_sectors_ok ps at_ t I0 Hw Hn HI _ b xb K2 Hb Sb) as (r2 & Er2 & _).
    change (node_sectors I) with (node_sectors (with_channels 1 I0)). rewrite Er1. cbn [rbind]. rewrite Er2. cbn. eauto.
Qed.
Lemma read_serve site : site_values V = Ok site -> exists sv, serving_sites I site = Ok sv.
Proof.
  intros Es. apply concatM_total. intros e He. assert (He' := He). apply (D_links _ _ _ _ _ D) in He'. destruct He' as [(E & (s & Hs & _))|[(k & d & Ed & Hin & Hc)|(k & l & El & ->)]].
  - unfold get. change (i_type I) with (i_type I0). rewrite (D_site _ _ _ _ _ D _ _ Hs). cbn. eauto.
  - assert (Hco : consumer at_ t (snd e)) by (exists k, d; auto). unfold get at 1. change (i_type I) with (i_type I0). rewrite (D_cons _ _ _ _ _ D _ Hco). cbn [rbind].
    assert (Hst : site_stored t (fst e)) by (assert (N := Hn); destruct N as (_ & _ & _ & _ & N5); eapply N5; eauto). destruct Hst as (s & Hs).
    unfold get. rewrite (site_value ps at_ t I0 Hw Hn HI V act site _ s Eact VS Es Hs). cbn. eauto.
  - cbn [fst snd]. destruct (link_sites t Hw _ _ El) as (_ & (s & Hs)). unfold get. change (i_type I) with (i_type I0). rewrite (D_site _ _ _ _ _ D _ _ Hs). cbn. eauto.
Qed.
Lemma read_all : exists o, extract_deployment I V v None = Ok o.
Proof.
  unfold extract_deployment. destruct read_sites as (site & Es). rewrite Es. cbn [rbind]. destruct read_tdm as (tdm & Et). rewrite Et. cbn [rbind].
  destruct (read_odd site Es) as (odd & Eo). rewrite Eo. cbn [rbind].
  destruct (prune_loops_ok (i_links I) (i_locations I) (values v (v_flow V))) as (fl & Efl & _ & Def & _); [exact (graph ps at_ t I0 v Hw Hn HI V VF)|]. rewrite Efl. cbn [rbind].
  destruct (near_zero _); [cbn; eauto|].
  destruct (read_links fl) as (links & EL). { intros e He. apply Def in He. now apply In_dkeys. } rewrite EL. cbn [rbind].
  assert (GL : get_links_ok links) by (intros k l El He; exact (link_value ps at_ t I0 v Hw Hn HI V ak fl links k l Eak VA EL El He)).
  destruct (read_sectors links GL) as (secs & Ex). rewrite Ex. cbn [rbind]. destruct (read_on fl links EL) as (on & Eon). rewrite Eon. cbn [rbind].
  destruct (read_serve site Es) as (sv & Esv). rewrite Esv. cbn. eauto.
Qed.
End Tables.
Lemma tune_readable : exists o, deployment None bad I0 v = Ok o.
Proof.
  unfold deployment. fold I. assert (H := HP). unfold deploy_problem in H. fold I in H. apply rbind_ok in H. destruct H as ((V & Dp) & EV & _). rewrite EV. cbn [rbind fst].
  unfold deploy_tables in EV. apply rbind_ok in EV. destruct EV as (act & Eact & EV). apply rbind_ok in EV. destruct EV as (vs & Evs & EV).
  apply rbind_ok in EV. destruct EV as (ok & Eok & EV). apply rbind_ok in EV. destruct EV as (ak & Eak & EV). apply rbind_ok in EV. destruct EV as (sk & Esk & EV).
  apply rbind_ok in EV. destruct EV as (tk & Etk & EV). injection EV as EV _. apply (read_all V act ok ak sk tk); auto; now rewrite <- EV.
Qed.
End Read.
