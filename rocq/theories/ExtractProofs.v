(** The plan read from a feasible answer. *)
From Coq Require Import QArith Qabs Lqa Lia Permutation.
From Verif Require Import Base Dict TopologyModel TopologySpec TopologyLemmas GraphSpec GraphProofs RfModel RfProofs SetupModel PruneModel PruneSpec PruneProofs
  IlpModel IlpSpec QLib MonadLib SetupProofs IlpLemmas IlpProofs ExtractModel ExtractSpec.
Local Open Scope Q_scope.

(** ** loops *)
Lemma foldM_inv {A S} (f : S -> A -> result S) (P : S -> Prop) l : forall s s',
  (forall s x s', P s -> In x l -> f s x = Ok s' -> P s') -> P s -> foldM f l s = Ok s' -> P s'.
Proof.
  induction l as [|x l IH]; cbn; intros s s' H Hs E; [injection E as <-; exact Hs|].
  apply rbind_ok in E. destruct E as (s1 & E1 & E2). eapply IH; [|eapply H; eauto|exact E2]. intros; eapply H; eauto.
Qed.
Lemma foldM_total {A S} (f : S -> A -> result S) (P : S -> Prop) l : forall s,
  (forall s x, P s -> In x l -> exists s', f s x = Ok s' /\ P s') -> P s -> exists s', foldM f l s = Ok s' /\ P s'.
Proof.
  induction l as [|x l IH]; cbn; intros s H Hs; [eauto|].
  destruct (H s x Hs (or_introl eq_refl)) as (s1 & E1 & H1). rewrite E1. cbn. apply IH; auto.
Qed.
Lemma dget_map_val {K A B} `{EqB K} (f : A -> B) (d : dict K A) (k : K) :
  dget (map (fun p => (fst p, f (snd p))) d) k = option_map f (dget d k).
Proof. induction d as [|[k1 a] d IH]; cbn; [reflexivity|]. destruct (beq k k1); [reflexivity|exact IH]. Qed.
Lemma values_get {K} `{EqB K} v (d : dict K expr) k : dget (values v d) k = option_map (eval v) (dget d k).
Proof. apply dget_map_val. Qed.
Lemma binary_get {K} `{EqB K} v (d : dict K expr) k : dget (binary_values v d) k = option_map (fun x => get_binary_value (eval v x)) (dget d k).
Proof. apply (dget_map_val (fun x => get_binary_value (eval v x))). Qed.
Lemma gtb_true x y : gtb x y = true <-> y < x.
Proof. unfold gtb. rewrite negb_true_iff. rewrite qle_false. reflexivity. Qed.
Lemma gtb_false x y : gtb x y = false <-> x <= y.
Proof. unfold gtb. rewrite negb_false_iff. apply qle_true. Qed.
Lemma eps_pos : 0 < epsilon. Proof. reflexivity. Qed.
Lemma eps_lt1 : epsilon < 1. Proof. reflexivity. Qed.
Lemma binary_one q : q == 1 -> get_binary_value q = 1%Z.
Proof. intros H. unfold get_binary_value. assert (G : gtb q (1 - epsilon) = true); [|now rewrite G]. apply gtb_true. assert (P := eps_pos). lra. Qed.
Lemma binary_zero q : q == 0 -> get_binary_value q = 0%Z.
Proof. intros H. unfold get_binary_value. assert (G : gtb q (1 - epsilon) = false); [|now rewrite G]. apply gtb_false. assert (P := eps_lt1). lra. Qed.
Lemma near_zero_false q : epsilon < q -> near_zero q = false.
Proof.
  intros H. unfold near_zero. apply qle_false. assert (P := eps_pos). rewrite Qabs_pos; lra.
Qed.

(** ** prices *)
Fixpoint new_nodes (seen : list (string * nat)) (l : list (string * sector)) : list (string * nat) :=
  match l with
  | [] => []
  | (_, x) :: r => if mem (node_of x) seen then new_nodes (node_of x :: seen) r else node_of x :: new_nodes (node_of x :: seen) r
  end.
Lemma new_nodes_In l : forall seen n, In n (new_nodes seen l) <-> (exists p, In p l /\ node_of (snd p) = n) /\ ~ In n seen.
Proof.
  induction l as [|[k x] l IH]; intros seen n; cbn [new_nodes].
  - split; [contradiction|]. intros ((p & [] & _) & _).
  - destruct (mem (node_of x) seen) eqn:M.
    + apply mem_In in M. rewrite IH. cbn [In]. split.
      * intros ((p & Hp & E) & Hni). split; [exists p; auto|]. intros Hin. apply Hni. auto.
      * intros ((p & [<-|Hp] & E) & Hni); [cbn in E; subst; contradiction|]. split; [eauto|]. intros [<-|Hin]; contradiction.
    + apply mem_not_In in M. cbn [In]. rewrite IH. cbn [In]. split.
      * intros [<-|((p & Hp & E) & Hni)]; [split; [exists (k, x); auto|auto]|]. split; [exists p; auto|tauto].
      * intros ((p & Hp & E) & Hni). destruct (beq_spec (node_of x) n) as [?|Hne]; [auto|]. right. destruct Hp as [<-|Hp]; [cbn in E; contradiction|]. split; [eauto|]. intros [?|?]; contradiction.
Qed.
Lemma new_nodes_NoDup l : forall seen, NoDup (new_nodes seen l).
Proof.
  induction l as [|[k x] l IH]; intros seen; cbn [new_nodes]; [constructor|]. destruct (mem (node_of x) seen); [apply IH|]. constructor; [|apply IH].
  rewrite new_nodes_In. cbn. tauto.
Qed.
Lemma costs_by_node at_ (zz : edge -> Q) (W : string * nat -> Q) l : forall seen,
  (forall p, In p l -> zz (x_site (snd p), fst p) == W (node_of (snd p))) ->
  total (fun e => snd e * zz (fst e)) (sector_costs at_ seen l) == total (fun n => a_node_capex at_ (fst n) * W n) (new_nodes seen l).
Proof.
  induction l as [|[k x] l IH]; intros seen HW; cbn [sector_costs new_nodes]; [reflexivity|]. cbn [total]. cbn [fst snd].
  rewrite IH by (intros p Hp; apply HW; now right). assert (E := HW (k, x) (or_introl eq_refl)). cbn [fst snd] in E. rewrite E.
  change (x_site x, k_node (x_key x)) with (node_of x). destruct (mem (node_of x) seen); cbn [total]; [ring|]. unfold node_of at 3. cbn [fst]. reflexivity.
Qed.
Lemma costs_keys at_ l : forall seen, map fst (sector_costs at_ seen l) = map (fun p => (x_site (snd p), fst p)) l.
Proof. induction l as [|[k x] l IH]; intros seen; cbn; [reflexivity|]. now rewrite IH. Qed.
Lemma costs_cases at_ l : forall seen e q, In (e, q) (sector_costs at_ seen l) -> q = 0 \/ q = a_node_capex at_ (fst e).
Proof.
  induction l as [|[k x] l IH]; intros seen e q; cbn [sector_costs]; [contradiction|]. intros [E|Hin]; [|eauto]. injection E as <- <-. cbn. destruct (mem _ seen); auto.
Qed.
Definition val {K} `{EqB K} (d : dict K Q) (k : K) : Q := match dget d k with Some q => q | None => 0 end.
Lemma costs_lookup at_ (zz : edge -> Q) l : NoDup (map fst l) ->
  total (fun p => val (dict_of (sector_costs at_ [] l)) (x_site (snd p), fst p) * zz (x_site (snd p), fst p)) l ==
  total (fun e => snd e * zz (fst e)) (sector_costs at_ [] l).
Proof.
  intros Hnd. set (L := sector_costs at_ [] l).
  assert (Hk : NoDup (map fst L)).
  { unfold L. rewrite costs_keys. apply NoDup_map_inj; [|now apply NoDup_map_inv in Hnd].
    intros [k x] [k' x'] H1 H2 E. cbn in E. injection E as _ <-. clear - Hnd H1 H2. induction l as [|[k1 x1] l IH]; [contradiction|]. cbn in Hnd. inversion Hnd as [|? ? Hn Hd]; subst.
    destruct H1 as [H1|H1], H2 as [H2|H2]; [congruence| | |now apply IH].
    - injection H1 as -> ->. exfalso. apply Hn. apply in_map_iff. exists (k, x'). auto.
    - injection H2 as -> ->. exfalso. apply Hn. apply in_map_iff. exists (k, x). auto. }
  assert (E : total (fun e => snd e * zz (fst e)) L == total (fun k => val (dict_of L) k * zz k) (map fst L)).
  { rewrite total_map. apply total_ext. intros [k q] Hin. cbn. unfold val. rewrite (dict_of_value L k q Hin); [reflexivity|].
    intros q' Hin'. clear - Hk Hin Hin'. induction L as [|[k1 q1] L IH]; [contradiction|]. cbn in Hk. inversion Hk as [|? ? Hn Hd]; subst.
    destruct Hin as [Hin|Hin], Hin' as [Hin'|Hin']; [congruence| | |now apply IH].
    - injection Hin as -> ->. exfalso. apply Hn. apply in_map_iff. exists (k, q'). auto.
    - injection Hin' as -> ->. exfalso. apply Hn. apply in_map_iff. exists (k, q). auto. }
  rewrite E. unfold L at 3. rewrite costs_keys, total_map. reflexivity.
Qed.
Lemma flows_val (d : dict edge Q) : dwf d -> forall f : edge -> bool, sumq (fun p => if f (fst p) then snd p else 0) d == total (fun e => if f e then val d e else 0) (dkeys d).
Proof.
  intros Hd f. unfold dkeys. rewrite total_map. assert (S : forall l, (forall p, In p l -> In p d) -> sumq (fun p => if f (fst p) then snd p else 0) l == total (fun p => if f (fst p) then val d (fst p) else 0) l).
  { induction l as [|[e q] l IH]; intros Hl; cbn [sumq total]; [reflexivity|]. rewrite IH by (intros; apply Hl; now right). cbn [fst snd]. assert (Ev : val d e = q) by (unfold val; now rewrite (In_dget _ _ _ Hd (Hl _ (or_introl eq_refl)))). rewrite Ev. reflexivity. }
  apply S. auto.
Qed.
Lemma sector_site_stored t k x : well_formed t -> sector_stored t k x -> site_stored t (x_site x).
Proof. intros (_ & _ & _ & _ & _ & T) Hx. now apply (proj2 (proj2 T) _ _ Hx). Qed.
Section Extract.
Variables (ps : params) (at_ : attrs) (t : topo) (I0 : inst) (g : goal) (adv : list edge) (P : problem) (v : var -> Q).
Hypothesis Hw : well_formed t.
Hypothesis Hn : names_ok at_ t.
Hypothesis HI : network ps at_ t = Ok I0.
Hypothesis HP : site_problem g adv I0 = Ok P.
Hypothesis Hv : feasible P v.
Let I := with_channels 1 I0.
Let D : describes ps at_ t (a_cap at_) I := desc ps at_ t I0 Hw Hn HI.
Let polar := negb (p_ignore_polarities (i_params I)).

Definition bit (x : var) : Z := get_binary_value (v x).
Lemma bit_site i : site_stored t i -> (bit (VSite i) = 1%Z /\ v (VSite i) == 1) \/ (bit (VSite i) = 0%Z /\ v (VSite i) == 0).
Proof.
  intros Hi. destruct (decls_all ps at_ t I0 g adv P v Hw Hn HI HP Hv) as (B & _). destruct (B i Hi) as [H|H].
  - right. split; [now apply binary_zero|exact H].
  - left. split; [now apply binary_one|exact H].
Qed.
Lemma polar_ps : polar = negb (p_ignore_polarities ps).
Proof. unfold polar. destruct (params_val ps at_ t I0 HI) as (_ & Q & _). fold I in Q. now rewrite Q. Qed.
Lemma bit_odd i : polar = true -> backhaul_site t i -> (bit (VOdd i) = 1%Z /\ v (VOdd i) == 1) \/ (bit (VOdd i) = 0%Z /\ v (VOdd i) == 0).
Proof.
  intros Hp Hi. rewrite polar_ps in Hp. apply negb_true_iff in Hp.
  destruct (decls_all ps at_ t I0 g adv P v Hw Hn HI HP Hv) as (_ & _ & _ & B & _). destruct (B i Hp Hi) as [H|H].
  - right. split; [now apply binary_zero|exact H].
  - left. split; [now apply binary_one|exact H].
Qed.

(** the tables of the model *)
Lemma tables_ok : exists V sk ok tk, site_tables I = Ok V /\ site_decisions I = Ok sk /\ odd_keys I = Ok ok /\ tdm_keys I = Ok tk /\
  v_site V = dict_of (fresh VSite sk) /\ v_odd V = dict_of (fresh VOdd ok) /\
  v_flow V = dict_of (fresh flow_var (flow_keys I)) /\ v_tdm V = dict_of (fresh tdm_var tk).
Proof.
  assert (H := HP). unfold site_problem in H. fold I in H. apply rbind_ok in H. destruct H as (V & EV & _). exists V.
  assert (EV' := EV). unfold site_tables in EV. apply rbind_ok in EV. destruct EV as (sk & Esk & EV). apply rbind_ok in EV. destruct EV as (sec & Esec & EV).
  apply rbind_ok in EV. destruct EV as (tk & Etk & EV). apply rbind_ok in EV. destruct EV as (ok & Eok & EV). injection EV as EV.
  exists sk, ok, tk. rewrite EV'. rewrite <- EV. cbn. auto 10.
Qed.

(** ** sites and polarities *)
(** every site has a decision which only ever drops a site the solver chose; polarities go with it *)
Definition good (st : choice) : Prop :=
  (forall i, site_stored t i -> exists z, dget (c_site st) i = Some z /\ (z = 0%Z \/ (z = 1%Z /\ v (VSite i) == 1))) /\
  (polar = true -> forall i z, backhaul_site t i -> dget (c_site st) i = Some z ->
     dget (c_odd st) i = Some (if Z.eqb z 0 then 0%Z else bit (VOdd i)) /\
     dget (c_even st) i = Some (if Z.eqb z 0 then 0%Z else (1 - bit (VOdd i))%Z)).
Lemma drop_good st loc : good st -> good (drop polar st loc).
Proof.
  intros (G1 & G2). split.
  - intros i Hi. assert (E : c_site (drop polar st loc) = dset (c_site st) loc 0%Z) by (unfold drop; now destruct polar). rewrite E, dget_set.
    destruct (beq i loc); [eauto|auto].
  - intros Hp i z Hi. specialize (G2 Hp i). unfold drop. rewrite Hp. cbn [c_site c_odd c_even]. rewrite !dget_set. destruct (beq i loc).
    + intros E. injection E as <-. cbn. auto.
    + intros E. apply G2; auto.
Qed.
Lemma drop_site st loc i : dget (c_site (drop polar st loc)) i = if beq i loc then Some 0%Z else dget (c_site st) i.
Proof. unfold drop. destruct polar; cbn; now rewrite dget_set. Qed.

Section Run.
Variables (V : tables) (sk ok : list string) (tk : list key3).
Hypothesis EV : site_tables I = Ok V.
Hypothesis Esk : site_decisions I = Ok sk.
Hypothesis Eok : odd_keys I = Ok ok.
Hypothesis Etk : tdm_keys I = Ok tk.
Hypothesis VS : v_site V = dict_of (fresh VSite sk).
Hypothesis VO : v_odd V = dict_of (fresh VOdd ok).
Hypothesis VF : v_flow V = dict_of (fresh flow_var (flow_keys I)).
Hypothesis VT : v_tdm V = dict_of (fresh tdm_var tk).

Lemma sk_iff i : In i sk <-> site_stored t i.
Proof.
  destruct (filterM_ok _ _ _ Esk) as (_ & H & _). split.
  - intros Hi. assert (Hi' := Hi). apply H in Hi'. destruct Hi' as (Hl & _). now apply (real_location ps at_ t I0 Hw Hn HI i Hl sk Esk).
  - intros Hi. apply (real_location ps at_ t I0 Hw Hn HI i (site_location ps at_ t I0 Hw Hn HI i Hi) sk Esk). exact Hi.
Qed.
Lemma site0_get i : dget (binary_values v (v_site V)) i = if mem i sk then Some (bit (VSite i)) else None.
Proof. rewrite binary_get, VS, fresh_get. now destruct (mem i sk). Qed.
Lemma site0_stored i : site_stored t i -> dget (binary_values v (v_site V)) i = Some (bit (VSite i)).
Proof. intros H. rewrite site0_get. apply sk_iff, mem_In in H. now rewrite H. Qed.
Lemma odd_site i : In i ok -> site_stored t i.
Proof.
  intros Hi. unfold odd_keys in Eok. destruct (p_ignore_polarities (i_params I)); [injection Eok as <-; contradiction|].
  destruct (filterM_ok _ _ _ Eok) as (_ & H & _). apply H in Hi. destruct Hi as (_ & Hi). inv_do. apply (D_type _ _ _ _ _ D) in E.
  destruct E as [(_ & ->)|[(s & Es & _)|(_ & ->)]]; try discriminate. exists s; assumption.
Qed.
Lemma split_ok : exists st, split_polarities (binary_values v (v_site V)) (if polar then binary_values v (v_odd V) else []) = Ok st /\
  good st /\ c_site st = binary_values v (v_site V).
Proof.
  unfold split_polarities. set (odd := if polar then binary_values v (v_odd V) else []).
  assert (Hodd : forall p, In p odd -> In (fst p) ok).
  { intros p Hp. unfold odd in Hp. destruct polar; [|contradiction]. unfold binary_values in Hp. apply in_map_iff in Hp. destruct Hp as (q & <- & Hq). cbn.
    rewrite VO in Hq. destruct q as [k x]. assert (Hk : In k (dkeys (dict_of (fresh VOdd ok)))) by (apply in_map_iff; exists (k, x); auto).
    apply (proj1 (dict_of_keys _ _)) in Hk. unfold fresh in Hk. rewrite map_map in Hk. cbn in Hk. now rewrite map_id in Hk. }
  set (h := fun p : string * Z => (fst p, if Z.eqb (bit (VSite (fst p))) 0 then (0%Z, 0%Z) else (snd p, (1 - snd p)%Z))).
  rewrite (mapM_pure _ h).
  2:{ intros p Hp. unfold get. rewrite (site0_stored (fst p)) by (apply odd_site, Hodd, Hp). reflexivity. }
  cbn [rbind]. eexists. split; [reflexivity|]. split; [|reflexivity]. split.
  - intros i Hi. cbn [c_site]. rewrite site0_stored by auto. eexists. split; [reflexivity|]. destruct (bit_site i Hi) as [(H1 & H2)|(H1 & H2)]; auto.
  - intros Hp i z Hi Ez. cbn [c_site c_odd c_even] in *.
    assert (Hs : site_stored t i) by (destruct Hi as (s & Es & _); now exists s).
    rewrite site0_stored in Ez by auto. injection Ez as <-. rewrite !map_map. unfold h. cbn [fst snd].
    assert (Ei : dget odd i = Some (bit (VOdd i))).
    { unfold odd. rewrite Hp, binary_get, VO. rewrite (odd_get ps at_ t I0 Hw Hn HI i); auto. rewrite polar_ps in Hp. now apply negb_true_iff in Hp. }
    clear - Ei. induction odd as [|[k z] o IH]; cbn [map dget fst snd] in *; [discriminate|]. destruct (beq_spec i k) as [<-|Hk]; [|auto].
    injection Ei as ->. destruct (Z.eqb (bit (VSite i)) 0); auto.
Qed.

(** ** flows *)
Lemma graph : graph_ok (i_links I) (i_locations I) (values v (v_flow V)).
Proof.
  assert (K : dkeys (values v (v_flow V)) = dkeys (v_flow V)) by (unfold values, dkeys; rewrite map_map; reflexivity).
  split; [|split].
  - unfold dwf. rewrite K, VF. apply dict_of_wf.
  - intros e He. rewrite K, VF in He. apply (proj1 (dict_of_keys _ _)) in He. unfold fresh in He. rewrite map_map in He. cbn in He. now rewrite map_id in He.
  - intros e He. destruct (D_ends _ _ _ _ _ D e He) as (A & B). split; [auto|]. split; [auto|].
    destruct (edge_kinds _ _ _ _ _ D Hn e He) as [(k & l & El & ->)|[(E & (s & Es & _))|(Hs & Hc)]].
    + destruct (setup_fields ps at_ t I0 (proj1 (network_setup ps at_ t I0 HI))) as (_ & _ & _ & _ & Hself & _). cbn. eapply Hself; eauto.
    + rewrite E. intros F. rewrite <- F in Es. apply (proj1 Hn). exists s; assumption.
    + intros F. assert (N := Hn). destruct N as (_ & _ & N3 & _). apply (N3 _ Hc). now rewrite <- F.
Qed.
Lemma flow_value e : In e (i_links I) -> dget (values v (v_flow V)) e = Some (flow v e).
Proof. intros He. rewrite values_get, VF, fresh_get. unfold flow_keys. apply mem_In in He. now rewrite He. Qed.
Lemma pruned : exists fl, prune_loops (i_links I) (i_locations I) (values v (v_flow V)) = Ok fl /\
  dwf fl /\ (forall e, In e (dkeys fl) <-> In e (i_links I)) /\
  (forall e, In e (i_links I) -> exists y, dget fl e = Some y /\ 0 <= y <= flow v e) /\
  (forall n, net fl n == net (values v (v_flow V)) n) /\ acyclic_above fl epsilon.
Proof.
  destruct (prune_loops_ok _ _ _ graph) as (fl & E & Wf & Def & Net & Val & _ & Acy). exists fl. split; [auto|]. split; [auto|]. split; [exact Def|]. split; [|auto].
  intros e He. destruct (Val e (flow v e) (flow_value e He)) as (y & Ey & Hle & Hpos). exists y. split; [auto|]. split; [|auto]. apply Hpos.
  destruct (decls_all ps at_ t I0 g adv P v Hw Hn HI HP Hv) as (_ & B & _). apply B. now apply (D_links _ _ _ _ _ D).
Qed.

Section Flow.
Variable fl : dict edge Q.
Hypothesis Dfl : forall e, In e (dkeys fl) <-> In e (i_links I).
Hypothesis Hfl : forall e, In e (i_links I) -> exists y, dget fl e = Some y /\ 0 <= y <= flow v e.
Definition fval (e : edge) : Q := match dget fl e with Some y => y | None => 0 end.
Lemma through_ok es : (forall e, In e es -> In e (i_links I)) -> exists q, flow_through fl es = Ok q /\ q == total fval es.
Proof.
  intros Hes. unfold flow_through. rewrite (mapM_pure _ fval).
  - cbn [rbind]. eexists. split; [reflexivity|]. rewrite fold_plus, total_map. change (fun x => fval x) with fval. lra.
  - intros e He. destruct (Hfl e (Hes e He)) as (y & Ey & _). unfold get, fval. now rewrite Ey.
Qed.
Lemma fval_nonneg e : 0 <= fval e.
Proof.
  unfold fval. destruct (dget fl e) as [y|] eqn:E; [|lra]. assert (He : In e (i_links I)) by (apply Dfl, In_dkeys; eauto).
  destruct (Hfl e He) as (y' & Ey & ?). rewrite E in Ey. injection Ey as <-. lra.
Qed.
Lemma through_ge es e q : In e es -> (forall e, In e es -> In e (i_links I)) -> flow_through fl es = Ok q -> fval e <= q.
Proof.
  intros He Hes E. destruct (through_ok es Hes) as (q' & E' & Hq). rewrite E in E'. injection E' as <-. rewrite Hq. apply total_member; auto. intros. apply fval_nonneg.
Qed.
(** a site on a link that carries a noticeable flow *)
Definition busy (i : string) : Prop := exists e, In e (i_links I) /\ (fst e = i \/ snd e = i) /\ epsilon < fval e.
Lemma deselect_step st loc : good st -> In loc (i_locations I) -> exists st', deselect I fl st loc = Ok st' /\ (st' = st \/ (st' = drop polar st loc /\ ~ busy loc /\ ~ In loc (forced_active I))).
Proof.
  intros (G1 & _) Hloc. unfold deselect. assert (Hty := Hloc). apply (D_locs _ _ _ _ _ D) in Hty.
  assert (Ety : exists ty, dget (i_type I) loc = Some ty /\ (imaginary ty = true \/ site_stored t loc)).
  { destruct Hty as [->|[(s & Es)|Hc]]; [exists Supersource; split; [apply (D_super _ _ _ _ _ D)|auto]|exists (Real (s_type s)); split; [now apply (D_site _ _ _ _ _ D)|right; now exists s]|exists Demand; split; [now apply (D_cons _ _ _ _ _ D)|auto]]. }
  destruct Ety as (ty & Ety & Hre). unfold get at 1. rewrite Ety. cbn [rbind]. destruct (imaginary ty); [eauto|]. destruct Hre as [?|Hre]; [discriminate|].
  destruct (G1 loc Hre) as (z & Ez & _). unfold get at 1. rewrite Ez. cbn [rbind]. destruct (Z.eqb z 0 || mem loc (forced_active I)) eqn:B; [eauto|].
  destruct (lists_in _ _ _ _ _ D loc Hloc) as (ei & Ei & Li). destruct (lists_out _ _ _ _ _ D loc Hloc) as (eo & Eo & Lo). rewrite Ei. cbn [rbind].
  assert (Li' : forall e, In e ei -> In e (i_links I)) by (intros e He; apply Li in He; now apply (D_links _ _ _ _ _ D)).
  assert (Lo' : forall e, In e eo -> In e (i_links I)) by (intros e He; apply Lo in He; now apply (D_links _ _ _ _ _ D)).
  destruct (through_ok ei Li') as (a & Ea & _). destruct (through_ok eo Lo') as (b & Eb & _). rewrite Ea. cbn [rbind]. rewrite Eo. cbn [rbind]. rewrite Eb. cbn [rbind].
  eexists. split; [reflexivity|]. destruct (near_zero a && near_zero b) eqn:Z; [|auto]. right. split; [reflexivity|]. split.
  - intros (e & He & Hend & Hbig). apply andb_true_iff in Z. destruct Z as (Z1 & Z2). destruct Hend as [Hf|Hs].
    + assert (Hin : In e eo) by (apply Lo; split; [now apply (D_links _ _ _ _ _ D)|auto]). assert (G := through_ge eo e b Hin Lo' Eb). rewrite near_zero_false in Z2 by lra. discriminate.
    + assert (Hin : In e ei) by (apply Li; split; [now apply (D_links _ _ _ _ _ D)|auto]). assert (G := through_ge ei e a Hin Li' Ea). rewrite near_zero_false in Z1 by lra. discriminate.
  - apply orb_false_iff in B. destruct B as (_ & B). now apply mem_not_In in B.
Qed.
(** a busy site keeps its decision *)
Definition kept (st : choice) : Prop := good st /\ forall i, site_stored t i -> busy i \/ In i (forced_active I) -> dget (c_site st) i = Some (bit (VSite i)).
Lemma deselect_ok st : kept st -> exists st', foldM (deselect I fl) (i_locations I) st = Ok st' /\ kept st'.
Proof.
  intros Hk. apply foldM_total; [|exact Hk]. intros s loc (G & K) Hloc. destruct (deselect_step s loc G Hloc) as (st' & E & Hst'). exists st'. split; [exact E|].
  destruct Hst' as [->|(-> & Hb & Hf)]; [split; auto|]. split; [now apply drop_good|]. intros i Hi Hor. rewrite drop_site. destruct (beq_spec i loc) as [->|_]; [destruct Hor; contradiction|auto].
Qed.
End Flow.

(** ** sectors *)
Lemma sectors_ok st : good st -> exists sec, sector_decisions I (c_site st) = Ok sec /\
  (forall k x, sector_stored t k x -> dget sec (x_site x, k) = dget (c_site st) (x_site x)) /\
  (forall loc a z, dget sec (loc, a) = Some z -> exists x, sector_stored t a x /\ x_site x = loc /\ dget (c_site st) loc = Some z).
Proof.
  intros (G1 & _). unfold sector_decisions.
  assert (Tot : exists l, concatM (fun loc => do ty <- get (i_type I) loc ; if imaginary ty then Ok [] else do secs <- get (i_secs I) loc ;
      concatM (fun a => do st0 <- get (i_sectype I) a ; if imaginary_sec st0 then Ok [] else do s <- get (c_site st) loc ; Ok [((loc, a), s)]) secs) (i_locations I) = Ok l).
  { apply concatM_total. intros loc Hloc. assert (Hty := Hloc). apply (D_locs _ _ _ _ _ D) in Hty. destruct Hty as [->|[(s & Es)|Hc]].
    - unfold get at 1. rewrite (D_super _ _ _ _ _ D). cbn. eauto.
    - unfold get at 1. rewrite (D_site _ _ _ _ _ D _ _ Es). cbn [rbind imaginary]. destruct (D_secs_tot _ _ _ _ _ D loc Hloc) as (secs & Esecs).
      unfold get at 1. rewrite Esecs. cbn [rbind]. apply concatM_total. intros a Ha. destruct (D_sectype_tot _ _ _ _ _ D loc secs a Esecs Ha) as (ty & Ety).
      unfold get at 1. rewrite Ety. cbn [rbind]. destruct (imaginary_sec ty); [eauto|]. destruct (G1 loc) as (z & Ez & _); [now exists s|]. unfold get. rewrite Ez. cbn. eauto.
    - unfold get at 1. rewrite (D_cons _ _ _ _ _ D _ Hc). cbn. eauto. }
  destruct Tot as (l & El). rewrite El. cbn [rbind]. eexists. split; [reflexivity|].
  assert (Inv : forall loc a z, In ((loc, a), z) l -> exists x, sector_stored t a x /\ x_site x = loc /\ dget (c_site st) loc = Some z).
  { intros loc a z Hin. destruct (concatM_inv _ _ _ _ El Hin) as (loc' & r & _ & Er & Hr). inv_do. destruct (imaginary x); [injection Er as <-; contradiction|]. inv_do.
    destruct (concatM_inv _ _ _ _ Er Hr) as (a' & r' & Ha' & Er' & Hr'). inv_do. destruct (imaginary_sec x1) eqn:Him; inv_do; subst r'; [contradiction|]. destruct Hr' as [Hr'|[]].
    injection Hr' as -> -> ->. destruct (D_sec_inv _ _ _ _ _ D loc x0 a x1 E0 Ha' E1 Him) as (y & Hy & Hs). exists y. auto. }
  split.
  - intros k x Hx. assert (Hst : site_stored t (x_site x)) by (eapply sector_site_stored; eauto).
    destruct (G1 _ Hst) as (z & Ez & _). rewrite Ez. apply dict_of_value.
    + assert (Hloc : In (x_site x) (i_locations I)) by now apply (site_location ps at_ t I0 Hw Hn HI).
      destruct (concatM_In _ _ _ _ El Hloc) as (r & Er & Hr). apply Hr. destruct Hst as (s & Es). unfold get at 1 in Er. rewrite (D_site _ _ _ _ _ D _ _ Es) in Er. cbn [rbind imaginary] in Er.
      destruct (D_secs _ _ _ _ _ D _ _ Hx) as (secs & Esecs & Hin). unfold get at 1 in Er. rewrite Esecs in Er. cbn [rbind] in Er.
      destruct (concatM_In _ _ _ _ Er Hin) as (r1 & Er1 & Hr1). apply Hr1. unfold get in Er1. rewrite (D_sectype _ _ _ _ _ D _ _ Hx), Ez in Er1. cbn [rbind] in Er1.
      destruct (k_cn (x_key x)); cbn in Er1; injection Er1 as <-; now left.
    + intros z' Hz'. destruct (Inv _ _ _ Hz') as (y & _ & _ & E). congruence.
  - intros loc a z E. apply dict_of_In in E. apply Inv. exact E.
Qed.

(** ** links *)
Lemma odd_compat st k l : good st -> polar = true -> link_stored t k l -> l_wireless l = true -> backhaul_site t (l_tx l) -> backhaul_site t (l_rx l) ->
  dget (c_site st) (l_tx l) = Some 1%Z -> dget (c_site st) (l_rx l) = Some 1%Z -> opposite v (l_tx l) (l_rx l) ->
  exists z z', dget (c_odd st) (l_tx l) = Some z /\ dget (c_odd st) (l_rx l) = Some z' /\ z <> z'.
Proof.
  intros (_ & G2) Hp El W Bt Br S1 S2 Hop. destruct (G2 Hp _ _ Bt S1) as (O1 & _). destruct (G2 Hp _ _ Br S2) as (O2 & _). cbn in O1, O2.
  exists (bit (VOdd (l_tx l))), (bit (VOdd (l_rx l))). split; [auto|]. split; [auto|]. unfold bit.
  destruct Hop as [(A & B)|(A & B)]; [rewrite (binary_one _ A), (binary_zero _ B)|rewrite (binary_zero _ A), (binary_one _ B)]; discriminate.
Qed.
Section Links.
Variables (st : choice) (sec : dict edge Z).
Hypothesis G : good st.
Hypothesis Sec1 : forall k x, sector_stored t k x -> dget sec (x_site x, k) = dget (c_site st) (x_site x).
Hypothesis Sec2 : forall loc a z, dget sec (loc, a) = Some z -> exists x, sector_stored t a x /\ x_site x = loc /\ dget (c_site st) loc = Some z.

Lemma decision_imaginary e : In e (i_links I) -> ~ (exists k l, link_stored t k l /\ e = (l_tx l, l_rx l)) -> link_decision I (c_site st) (c_odd st) sec e = Ok 0%Z.
Proof.
  intros He Hno. unfold link_decision. destruct (edge_kinds _ _ _ _ _ D Hn e He) as [?|[(E & (s & Es & _))|((s & Es) & Hc)]]; [contradiction| |].
  - unfold get. rewrite E, (D_super _ _ _ _ _ D), (D_site _ _ _ _ _ D _ _ Es). reflexivity.
  - unfold get. rewrite (D_site _ _ _ _ _ D _ _ Es), (D_cons _ _ _ _ _ D _ Hc). reflexivity.
Qed.
(** the decision for a link of the topology *)
Definition wanted (l : link) : Prop :=
  ~ In (l_tx l, l_rx l) (i_inactive_links I) /\ 0 < a_cap at_ (l_tx l, l_rx l) /\
  dget (c_site st) (l_tx l) = Some 1%Z /\ dget (c_site st) (l_rx l) = Some 1%Z /\
  (polar = true -> compatible_polarity I (c_odd st) (l_tx l, l_rx l) = Ok true) /\
  (l_wireless l = true -> exists a b x y, l_sectors l = Some (a, b) /\ sector_stored t (key_id a) x /\ x_site x = l_tx l /\ sector_stored t (key_id b) y /\ x_site y = l_rx l).
Lemma compat_total e k l : link_stored t k l -> e = (l_tx l, l_rx l) -> exists b, compatible_polarity I (c_odd st) e = Ok b.
Proof.
  intros El ->. unfold compatible_polarity. destruct (mem _ _ || mem _ _); [eauto|]. destruct (link_sites t Hw _ _ El) as ((s1 & S1) & (s2 & S2)).
  unfold get. cbn [fst snd]. rewrite (D_site _ _ _ _ _ D _ _ S1), (D_site _ _ _ _ _ D _ _ S2). cbn. eauto.
Qed.
Lemma decision_link k l : link_stored t k l -> exists z, link_decision I (c_site st) (c_odd st) sec (l_tx l, l_rx l) = Ok z /\
  (z = 0%Z \/ z = 1%Z) /\ (z = 1%Z <-> wanted l).
Proof.
  intros El. unfold link_decision, wanted. destruct (link_sites t Hw _ _ El) as ((s1 & S1) & (s2 & S2)). unfold get at 1 2. cbn [fst snd].
  rewrite (D_site _ _ _ _ _ D _ _ S1), (D_site _ _ _ _ _ D _ _ S2). cbn [rbind imaginary orb].
  destruct (mem (l_tx l, l_rx l) (i_inactive_links I)) eqn:Mi.
  { exists 0%Z. split; [auto|]. split; [auto|]. split; [discriminate|]. apply mem_In in Mi. tauto. }
  apply mem_not_In in Mi. unfold get at 1. rewrite (D_cap _ _ _ _ _ D _ _ El). cbn [rbind].
  destruct (Qle_bool (a_cap at_ (l_tx l, l_rx l)) 0) eqn:Ec.
  { exists 0%Z. split; [auto|]. split; [auto|]. split; [discriminate|]. intros (_ & C & _). apply qle_true in Ec. lra. }
  apply qle_false in Ec.
  destruct (compat_total _ k l El eq_refl) as (b & Eb). assert (Ecomp : exists b', (if polar then compatible_polarity I (c_odd st) (l_tx l, l_rx l) else Ok true) = Ok b' /\
     (b' = true <-> (polar = true -> compatible_polarity I (c_odd st) (l_tx l, l_rx l) = Ok true))).
  { destruct polar; [exists b; split; [auto|]; rewrite Eb; split; [intros -> _; auto|intros H; specialize (H eq_refl); congruence]|exists true; split; [auto|split; [discriminate|auto]]]. }
  destruct Ecomp as (b' & Eb' & Hb'). fold polar. rewrite Eb'. cbn [rbind]. destruct b'; cbn [negb].
  2:{ exists 0%Z. split; [auto|]. split; [auto|]. split; [discriminate|]. intros (_ & _ & _ & _ & C & _). apply Hb' in C. discriminate. }
  assert (C' := proj1 Hb' eq_refl). assert (G_ := G); destruct G_ as (G1 & _). destruct (G1 (l_tx l)) as (z1 & Z1 & B1); [now exists s1|]. destruct (G1 (l_rx l)) as (z2 & Z2 & B2); [now exists s2|].
  unfold get at 1 2. rewrite Z1, Z2. cbn [rbind]. destruct (Z.eqb z1 1 && Z.eqb z2 1) eqn:B; cbn [negb].
  2:{ exists 0%Z. split; [auto|]. split; [auto|]. split; [discriminate|]. intros (_ & _ & A1 & A2 & _). injection A1 as ->. injection A2 as ->. discriminate. }
  apply andb_true_iff in B. rewrite !Z.eqb_eq in B. destruct B as (-> & ->). rewrite (D_wired _ _ _ _ _ D _ _ El). destruct (l_wireless l) eqn:W; cbn [negb].
  2:{ exists 1%Z. split; [auto|]. split; [auto|]. split; [|auto]. intros _. repeat (split; [solve [auto]|]). discriminate. }
  rewrite (D_l2s _ _ _ _ _ D _ _ El). destruct (l_sectors l) as [[a c]|] eqn:Es.
  2:{ exfalso. apply Mi. apply (D_il _ _ _ _ _ D k l El). auto. }
  unfold sector_value.
  assert (R : forall loc x, dget (c_site st) loc = Some 1%Z -> (match dget sec (loc, key_id x) with Some z => z | None => 0%Z end = 1%Z /\ exists y, sector_stored t (key_id x) y /\ x_site y = loc) \/
     (match dget sec (loc, key_id x) with Some z => z | None => 0%Z end = 0%Z /\ ~ exists y, sector_stored t (key_id x) y /\ x_site y = loc)).
  { intros loc x H1. destruct (dget sec (loc, key_id x)) as [z|] eqn:F.
    - left. destruct (Sec2 _ _ _ F) as (y & Y1 & Y2 & Y3). split; [congruence|eauto].
    - right. split; [auto|]. intros (y & Y1 & Y2). assert (S := Sec1 _ _ Y1). rewrite Y2 in S. congruence. }
  destruct (R (l_tx l) a Z1) as [(-> & (y1 & Y1 & Y1'))|(-> & N1)]; destruct (R (l_rx l) c Z2) as [(-> & (y2 & Y2 & Y2'))|(-> & N2)]; cbn.
  - exists 1%Z. split; [auto|]. split; [auto|]. split; [|auto]. intros _. repeat (split; [solve [auto]|]). intros _. exists a, c, y1, y2. auto.
  - exists 0%Z. split; [auto|]. split; [auto|]. split; [discriminate|]. intros (_ & _ & _ & _ & _ & C). destruct (C eq_refl) as (a' & b' & x & y & E & _ & _ & ? & ?). injection E as <- <-. exfalso. eauto.
  - exists 0%Z. split; [auto|]. split; [auto|]. split; [discriminate|]. intros (_ & _ & _ & _ & _ & C). destruct (C eq_refl) as (a' & b' & x & y & E & ? & ? & _). injection E as <- <-. exfalso. eauto.
  - exists 0%Z. split; [auto|]. split; [auto|]. split; [discriminate|]. intros (_ & _ & _ & _ & _ & C). destruct (C eq_refl) as (a' & b' & x & y & E & ? & ? & _). injection E as <- <-. exfalso. eauto.
Qed.
Lemma links_ok : exists links, link_decisions I (c_site st) (c_odd st) sec = Ok links /\
  (forall k l, link_stored t k l -> exists z, dget links (l_tx l, l_rx l) = Some z /\ (z = 0%Z \/ z = 1%Z) /\ (z = 1%Z <-> wanted l)) /\
  (forall e, In e (i_links I) -> is_active links e = true -> exists k l, link_stored t k l /\ e = (l_tx l, l_rx l) /\ wanted l).
Proof.
  unfold link_decisions. set (f := fun e => link_decision I (c_site st) (c_odd st) sec e).
  assert (Tot : forall e, In e (i_links I) -> exists z, f e = Ok z).
  { intros e He. destruct (edge_kinds _ _ _ _ _ D Hn e He) as [(k & l & El & ->)|Hk].
    - destruct (decision_link k l El) as (z & Ez & _). eauto.
    - exists 0%Z. apply decision_imaginary; auto. intros (k & l & El & ->). cbn in Hk. destruct (link_sites t Hw _ _ El) as (S1 & S2).
      destruct Hk as [(E & _)|(_ & Hc)]; [apply (proj1 Hn); now rewrite <- E|]. assert (N := Hn); destruct N as (_ & _ & N3 & _). exact (N3 _ Hc S2). }
  set (h := fun e => (e, match f e with Ok z => z | Err _ => 0%Z end)). rewrite (mapM_pure _ h).
  2:{ intros e He. destruct (Tot e He) as (z & Ez). unfold h. change (link_decision I (c_site st) (c_odd st) sec e) with (f e). rewrite Ez. reflexivity. }
  cbn [rbind]. eexists. split; [reflexivity|].
  assert (Get : forall e, In e (i_links I) -> dget (dict_of (map h (i_links I))) e = Some (snd (h e))).
  { intros e He. apply dict_of_value; [apply in_map_iff; exists e; auto|]. intros z Hz. apply in_map_iff in Hz. destruct Hz as (e' & E & _). unfold h in E. injection E as -> <-. reflexivity. }
  split.
  - intros k l El. destruct (decision_link k l El) as (z & Ez & H1 & H2). exists z. split; [|auto]. rewrite Get by (eapply link_in; eauto). unfold h. cbn. unfold f. now rewrite Ez.
  - intros e He. unfold is_active. rewrite Get by auto. intros Ha. apply Z.eqb_eq in Ha. unfold h in Ha. cbn in Ha.
    destruct (edge_kinds _ _ _ _ _ D Hn e He) as [(k & l & El & ->)|Hk].
    + exists k, l. split; [auto|]. split; [auto|]. destruct (decision_link k l El) as (z & Ez & H1 & H2). unfold f in Ha. rewrite Ez in Ha. now apply H2.
    + exfalso. unfold f in Ha. rewrite decision_imaginary in Ha; auto; [discriminate|]. intros (k & l & El & ->). cbn in Hk. destruct (link_sites t Hw _ _ El) as (S1 & S2).
      destruct Hk as [(E & _)|(_ & Hc)]; [apply (proj1 Hn); now rewrite <- E|]. assert (N := Hn); destruct N as (_ & _ & N3 & _). exact (N3 _ Hc S2).
Qed.
End Links.

(** ** sectors on nodes with active links *)
Lemma node_get k x : sector_stored t k x -> dget (i_node I) k = Some (k_node (x_key x)).
Proof.
  intros Hx. assert (E : i_node I = dict_of (map (fun p => (fst p, k_node (x_key (snd p)))) (t_sectors t))).
  { assert (S := proj1 (network_setup ps at_ t I0 HI)). unfold setup in S. unfold I, with_channels. cbn [i_node]. inv_do. now rewrite <- S. }
  rewrite E. apply dict_of_value.
  - apply in_map_iff. exists (k, x). split; [reflexivity|now apply dget_In].
  - intros n Hin. apply in_map_iff in Hin. destruct Hin as ([k' x'] & F & Hin). cbn in F. injection F as -> <-.
    assert (Dw : dwf (t_sectors t)) by apply Hw. unfold sector_stored in Hx. rewrite (In_dget _ _ _ Dw Hin) in Hx. now injection Hx as ->.
Qed.
Definition same_node (loc : string) (n : nat) (p : edge) : Prop :=
  fst p = loc /\ exists y, sector_stored t (snd p) y /\ x_site y = loc /\ k_node (x_key y) = n.
Lemma node_sectors_ok loc a x : In loc (i_locations I) -> sector_stored t (key_id a) x -> x_site x = loc ->
  exists r, node_sectors I loc (Some (key_id a)) = Ok r /\ forall p, In p r <-> same_node loc (k_node (x_key x)) p.
Proof.
  intros Hloc Hx Hs. unfold node_sectors. unfold get at 1. rewrite (D_sectype _ _ _ _ _ D _ _ Hx). cbn [rbind].
  destruct (D_secs_tot _ _ _ _ _ D loc Hloc) as (secs & Esecs).
  assert (Im : imaginary_sec (if k_cn (x_key x) then SecCN else SecDN) = false) by now destruct (k_cn (x_key x)). rewrite Im.
  unfold get at 1. rewrite (node_get _ _ Hx). cbn [rbind]. unfold get at 1. rewrite Esecs. cbn [rbind].
  set (f := fun o => do ty' <- get (i_sectype I) o ; if imaginary_sec ty' then Ok [] else do n' <- get (i_node I) o ; Ok (if Nat.eqb (k_node (x_key x)) n' then [(loc, o)] else [])).
  assert (F : forall o, In o secs -> exists r, f o = Ok r /\ (forall p, In p r <-> p = (loc, o) /\ same_node loc (k_node (x_key x)) p)).
  { intros o Ho. unfold f. destruct (D_sectype_tot _ _ _ _ _ D loc secs o Esecs Ho) as (ty & Ety). unfold get at 1. rewrite Ety. cbn [rbind].
    destruct (imaginary_sec ty) eqn:Ei.
    - exists []. split; [auto|]. intros p. split; [contradiction|]. intros (-> & _ & y & Hy & _). cbn in Hy. rewrite (D_sectype _ _ _ _ _ D _ _ Hy) in Ety. injection Ety as <-.
      destruct (k_cn (x_key y)); discriminate.
    - destruct (D_sec_inv _ _ _ _ _ D loc secs o ty Esecs Ho Ety Ei) as (y & Hy & Hys). unfold get. rewrite (node_get _ _ Hy). cbn [rbind]. eexists. split; [reflexivity|].
      intros p. destruct (Nat.eqb_spec (k_node (x_key x)) (k_node (x_key y))) as [E|E].
      + split; [intros [<-|[]]; split; [auto|]; split; [auto|]; exists y; auto|]. intros (-> & _). now left.
      + split; [contradiction|]. intros (-> & _ & y' & Hy' & _ & En). cbn in Hy'. unfold sector_stored in *. rewrite Hy in Hy'. injection Hy' as <-. congruence. }
  destruct (concatM_total f secs) as (r & Er). { intros o Ho. destruct (F o Ho) as (r & Er & _). eauto. }
  exists r. split; [exact Er|]. intros p. split.
  - intros Hp. destruct (concatM_inv _ _ _ _ Er Hp) as (o & ro & Ho & Ero & Hin). destruct (F o Ho) as (r' & Er' & H). rewrite Ero in Er'. injection Er' as <-. now apply H.
  - intros Hsn. destruct Hsn as (Hf & y & Hy & Hys & En). destruct (D_secs _ _ _ _ _ D _ _ Hy) as (secs' & Es' & Ho). rewrite Hys, Esecs in Es'. injection Es' as <-.
    destruct (concatM_In _ _ _ _ Er Ho) as (ro & Ero & Hincl). apply Hincl. destruct (F _ Ho) as (r' & Er' & H). rewrite Ero in Er'. injection Er' as <-. apply H.
    split; [destruct p; cbn in *; congruence|]. split; [auto|]. exists y; auto.
Qed.
Section Final.
Variables (fl : dict edge Q) (st : choice) (sec links : dict edge Z).
Hypothesis SP : sectors_present t.
Hypothesis G : good st.
Hypothesis Sec1 : forall k x, sector_stored t k x -> dget sec (x_site x, k) = dget (c_site st) (x_site x).
Hypothesis Sec2 : forall loc a z, dget sec (loc, a) = Some z -> exists x, sector_stored t a x /\ x_site x = loc /\ dget (c_site st) loc = Some z.
Hypothesis L1 : forall k l, link_stored t k l -> exists z, dget links (l_tx l, l_rx l) = Some z /\ (z = 0%Z \/ z = 1%Z) /\ (z = 1%Z <-> wanted st l).
Hypothesis L2 : forall e, In e (i_links I) -> is_active links e = true -> exists k l, link_stored t k l /\ e = (l_tx l, l_rx l) /\ wanted st l.
Definition lit (k : string) (l : link) : Prop := link_stored t k l /\ dget links (l_tx l, l_rx l) = Some 1%Z.
Lemma lit_active k l : lit k l -> is_active links (l_tx l, l_rx l) = true.
Proof. intros (_ & E). unfold is_active. now rewrite E. Qed.
Lemma active_lit e : In e (i_links I) -> is_active links e = true -> exists k l, lit k l /\ e = (l_tx l, l_rx l) /\ wanted st l.
Proof.
  intros He Ha. destruct (L2 e He Ha) as (k & l & El & -> & W). exists k, l. split; [|auto]. split; [auto|]. destruct (L1 k l El) as (z & Ez & _ & Hz). rewrite Ez. f_equal. now apply Hz.
Qed.
Lemma lit_wanted k l : lit k l -> wanted st l.
Proof. intros (El & E). destruct (L1 k l El) as (z & Ez & _ & Hz). apply Hz. congruence. Qed.
Definition on_node (p : edge) : Prop := exists x k l, sector_stored t (snd p) x /\ x_site x = fst p /\ lit k l /\ uses_node t l (node_of x).
Lemma on_ok : exists on, sectors_with_active_links I links = Ok on /\ forall p, In p on <-> on_node p.
Proof.
  unfold sectors_with_active_links.
  set (f := fun e => if is_active links e then do s <- get (i_l2s I) e ; do x <- node_sectors I (fst e) (fst s) ; do y <- node_sectors I (snd e) (snd s) ; Ok (x ++ y)%list else Ok []).
  assert (F : forall e, In e (i_links I) -> exists r, f e = Ok r /\ forall p, In p r <-> exists x k l, e = (l_tx l, l_rx l) /\ sector_stored t (snd p) x /\ x_site x = fst p /\ lit k l /\ uses_node t l (node_of x)).
  { intros e He. unfold f. destruct (is_active links e) eqn:Ha.
    2:{ exists []. split; [auto|]. intros p. split; [contradiction|]. intros (x & k & l & -> & _ & _ & Hl & _). apply lit_active in Hl. congruence. }
    destruct (active_lit e He Ha) as (k & l & Hl & -> & W). assert (El := proj1 Hl). cbn [fst snd]. unfold get at 1. rewrite (D_l2s _ _ _ _ _ D _ _ El).
    destruct (link_sites t Hw _ _ El) as (T1 & T2).
    assert (K1 := site_location ps at_ t I0 Hw Hn HI _ T1). assert (K2 := site_location ps at_ t I0 Hw Hn HI _ T2).
    assert (U : forall k' l', (l_tx l, l_rx l) = (l_tx l', l_rx l') -> lit k' l' -> l' = l).
    { intros k' l' E (El' & _). symmetry. eapply link_fun; eauto. }
    destruct (l_sectors l) as [[a b]|] eqn:Es; cbn [rbind fst snd node_sectors].
    2:{ exists []. split; [reflexivity|]. intros p. split; [contradiction|]. intros (x & k' & l' & E & _ & _ & Hl' & (a & b & _ & E' & _)). rewrite (U _ _ E Hl') in E'. congruence. }
    destruct (SP k l a b El Es) as ((x & Hx & Hxs) & (y & Hy & Hys)).
    destruct (node_sectors_ok _ a x K1 Hx Hxs) as (r1 & Er1 & H1). destruct (node_sectors_ok _ b y K2 Hy Hys) as (r2 & Er2 & H2).
    cbn [node_sectors] in Er1, Er2. rewrite Er1. cbn [rbind]. rewrite Er2. cbn [rbind]. eexists. split; [reflexivity|]. intros p. rewrite in_app_iff, H1, H2. split.
    - intros [(Hf & z & Hz & Hzs & En)|(Hf & z & Hz & Hzs & En)]; exists z, k, l; (split; [auto|]); (split; [auto|]); (split; [congruence|]); (split; [auto|]).
      + exists a, b, x. split; [auto|]. split; [unfold node_of; congruence|]. auto.
      + exists a, b, y. split; [auto|]. split; [unfold node_of; congruence|]. auto.
    - intros (z & k' & l' & E & Hz & Hzs & Hl' & (a' & b' & w & E' & En & Hor)). rewrite (U _ _ E Hl') in *. rewrite Es in E'. injection E' as <- <-. unfold node_of in En. injection En as En1 En2.
      unfold sector_stored in *. destruct Hor as [(Hw1 & Hw2)|(Hw1 & Hw2)]; [left|right]; (split; [congruence|]); exists z; (split; [auto|]); (split; [congruence|]); [rewrite Hx in Hw1|rewrite Hy in Hw1]; injection Hw1 as <-; congruence. }
  destruct (concatM_total f (i_links I)) as (on & Eon). { intros e He. destruct (F e He) as (r & Er & _). eauto. }
  exists on. split; [exact Eon|]. intros p. split.
  - intros Hp. destruct (concatM_inv _ _ _ _ Eon Hp) as (e & r & He & Er & Hin). destruct (F e He) as (r' & Er' & H). rewrite Er in Er'. injection Er' as <-. apply H in Hin.
    destruct Hin as (x & k & l & _ & H'). exists x, k, l. exact H'.
  - intros (x & k & l & H1 & H2 & H3 & H4). assert (He : In (l_tx l, l_rx l) (i_links I)) by (eapply link_in; [exact D|exact (proj1 H3)]).
    destruct (concatM_In _ _ _ _ Eon He) as (r & Er & Hr). apply Hr. destruct (F _ He) as (r' & Er' & H). rewrite Er in Er'. injection Er' as <-. apply H. exists x, k, l. auto.
Qed.
Lemma serving_ok : exists sv, serving_sites I (c_site st) = Ok sv /\ forall i, In i sv -> site_stored t i /\ dget (c_site st) i = Some 1%Z /\ serves t i.
Proof.
  unfold serving_sites.
  set (f := fun e : edge => do t2 <- get (i_type I) (snd e) ; match t2 with Demand => do s <- get (c_site st) (fst e) ; Ok (if Z.eqb s 1 then [fst e] else []) | _ => Ok [] end).
  assert (F : forall e, In e (i_links I) -> exists r, f e = Ok r /\ forall i, In i r -> site_stored t i /\ dget (c_site st) i = Some 1%Z /\ serves t i).
  { intros e He. unfold f. assert (He' := He). apply (D_links _ _ _ _ _ D) in He'. destruct He' as [(E & (s & Es & _))|[(k & d & Ed & Hin & Hc)|(k & l & El & ->)]].
    - unfold get. rewrite (D_site _ _ _ _ _ D _ _ Es). cbn [rbind]. exists []. split; [auto|contradiction].
    - assert (Hco : consumer at_ t (snd e)) by (exists k, d; auto). unfold get at 1. rewrite (D_cons _ _ _ _ _ D _ Hco). cbn [rbind].
      assert (Hst : site_stored t (fst e)) by (assert (N := Hn); destruct N as (_ & _ & _ & _ & N5); eapply N5; eauto).
      destruct (proj1 G _ Hst) as (z & Ez & _). unfold get. rewrite Ez. cbn [rbind]. eexists. split; [reflexivity|]. destruct (Z.eqb_spec z 1) as [->|_]; [|contradiction].
      intros i [<-|[]]. split; [auto|]. split; [auto|]. exists k, d. auto.
    - cbn [fst snd]. destruct (link_sites t Hw _ _ El) as (_ & (s & Es)). unfold get. rewrite (D_site _ _ _ _ _ D _ _ Es). cbn. exists []. split; [auto|contradiction]. }
  destruct (concatM_total f (i_links I)) as (sv & Esv). { intros e He. destruct (F e He) as (r & Er & _). eauto. }
  exists sv. split; [exact Esv|]. intros i Hi. destruct (concatM_inv _ _ _ _ Esv Hi) as (e & r & He & Er & Hin). destruct (F e He) as (r' & Er' & H). rewrite Er in Er'. injection Er' as <-. auto.
Qed.
Lemma with_links_iff i : In i (sites_with_active_links I links) <-> exists k l, lit k l /\ (l_tx l = i \/ l_rx l = i).
Proof.
  unfold sites_with_active_links. rewrite in_flat_map. split.
  - intros (e & He & Hin). destruct (is_active links e) eqn:Ha; [|contradiction]. destruct (active_lit e He Ha) as (k & l & Hl & -> & _). exists k, l. split; [auto|]. destruct Hin as [<-|[<-|[]]]; auto.
  - intros (k & l & Hl & Hor). exists (l_tx l, l_rx l). split; [eapply link_in; [exact D|exact (proj1 Hl)]|]. rewrite (lit_active _ _ Hl). cbn. destruct Hor; auto.
Qed.
Lemma set_all_get (off : list string) loc : forall (d : dict edge Z) p, dget (fold_left (fun d a => dset d (loc, a) 0%Z) off d) p =
  if beq (fst p) loc && mem (snd p) off then Some 0%Z else dget d p.
Proof.
  induction off as [|a off IH]; intros d p; cbn [fold_left mem]; [now rewrite andb_false_r|]. rewrite IH, dget_set. destruct p as [p1 p2]. cbn [fst snd].
  destruct (beq_spec p1 loc) as [->|Hl]; cbn [andb].
  - destruct (mem p2 off) eqn:M; [now rewrite orb_true_r|]. rewrite orb_false_r. destruct (beq_spec p2 a) as [->|Ha]; [now rewrite beq_refl|]. assert (Hp : beq (loc, p2) (loc, a) = false) by (apply beq_neq; congruence). now rewrite Hp.
  - assert (Hp : beq (p1, p2) (loc, a) = false) by (apply beq_neq; congruence). now rewrite Hp.
Qed.
Section Settle.
Variables (sites : list string) (on : list edge).
Definition settled (locs : list string) (s0 : choice) (d0 : dict edge Z) (fin : choice * dict edge Z) : Prop :=
  good (fst fin) /\
  (forall i, site_stored t i -> dget (c_site (fst fin)) i = if mem i locs && negb (mem i sites) then Some 0%Z else dget (c_site s0) i) /\
  (forall k x, sector_stored t k x -> dget (snd fin) (x_site x, k) = if mem (x_site x) locs && negb (mem (x_site x, k) on) then Some 0%Z else dget d0 (x_site x, k)).
Lemma settle_step s0 d0 loc : good s0 -> In loc (i_locations I) -> exists fin, settle I sites on (s0, d0) loc = Ok fin /\ settled [loc] s0 d0 fin.
Proof.
  intros G0 Hloc. unfold settle. assert (Hty := Hloc). apply (D_locs _ _ _ _ _ D) in Hty.
  assert (Im : forall ty, dget (i_type I) loc = Some ty -> imaginary ty = true -> ~ site_stored t loc ->
     exists fin, (do ty <- get (i_type I) loc ; if imaginary ty then Ok (s0, d0) else do here <- get (i_secs I) loc ;
       do off <- concatM (fun a => do st <- get (i_sectype I) a ; Ok (if imaginary_sec st then [] else if mem (loc, a) on then [] else [a])) here ;
       Ok (if mem loc sites then fst (s0, d0) else drop polar (fst (s0, d0)) loc, fold_left (fun d a => dset d (loc, a) 0%Z) off (snd (s0, d0)))) = Ok fin /\ settled [loc] s0 d0 fin).
  { intros ty Ety Hi Hno. unfold get at 1. rewrite Ety. cbn [rbind]. rewrite Hi. eexists. split; [reflexivity|]. split; [auto|]. split.
    - intros i Hs. cbn [mem]. destruct (beq_spec i loc) as [->|_]; [contradiction|]. reflexivity.
    - intros k x Hx. cbn [mem]. destruct (beq_spec (x_site x) loc) as [E|_]; [|reflexivity]. exfalso. apply Hno. rewrite <- E. eapply sector_site_stored; eauto. }
  destruct Hty as [->|[(s & Es)|Hc]].
  - apply (Im Supersource); [apply (D_super _ _ _ _ _ D)|reflexivity|]. intros Hs. exact (proj1 Hn Hs).
  - clear Im. unfold get at 1. rewrite (D_site _ _ _ _ _ D _ _ Es). cbn [rbind imaginary]. destruct (D_secs_tot _ _ _ _ _ D loc Hloc) as (secs & Esecs).
    unfold get at 1. rewrite Esecs. cbn [rbind].
    set (f := fun a => do st <- get (i_sectype I) a ; Ok (if imaginary_sec st then [] else if mem (loc, a) on then [] else [a])).
    assert (F : forall a, In a secs -> exists r, f a = Ok r /\ forall b, In b r <-> b = a /\ mem (loc, a) on = false /\ exists y, sector_stored t a y).
    { intros a Ha. unfold f. destruct (D_sectype_tot _ _ _ _ _ D loc secs a Esecs Ha) as (ty & Ety). unfold get. rewrite Ety. cbn [rbind]. eexists. split; [reflexivity|]. intros b.
      destruct (imaginary_sec ty) eqn:Ei.
      - split; [contradiction|]. intros (_ & _ & y & Hy). rewrite (D_sectype _ _ _ _ _ D _ _ Hy) in Ety. injection Ety as <-. destruct (k_cn (x_key y)); discriminate.
      - destruct (D_sec_inv _ _ _ _ _ D loc secs a ty Esecs Ha Ety Ei) as (y & Hy & _). destruct (mem (loc, a) on); split; try contradiction; try (intros (_ & ? & _); discriminate).
        + intros [<-|[]]. eauto.
        + intros (-> & _). now left. }
    destruct (concatM_total f secs) as (off & Eoff). { intros a Ha. destruct (F a Ha) as (r & Er & _). eauto. }
    rewrite Eoff. cbn [rbind fst snd]. eexists. split; [reflexivity|]. split; [|split].
    + cbn [fst]. destruct (mem loc sites); [auto|now apply drop_good].
    + intros i Hs. cbn [fst mem]. rewrite orb_false_r. destruct (mem loc sites) eqn:M; [|rewrite drop_site]; destruct (beq_spec i loc) as [->|_]; rewrite ?M; reflexivity.
    + intros k x Hx. cbn [snd mem]. rewrite orb_false_r, set_all_get. cbn [fst snd]. destruct (beq_spec (x_site x) loc) as [E|_]; cbn [andb]; [|reflexivity]. rewrite E.
      assert (B : mem k off = negb (mem (loc, k) on)); [|now rewrite B].
      destruct (D_secs _ _ _ _ _ D _ _ Hx) as (secs' & Es' & Hk). rewrite E, Esecs in Es'. injection Es' as <-.
      destruct (mem k off) eqn:M.
      * apply mem_In in M. destruct (concatM_inv _ _ _ _ Eoff M) as (a & r & Ha & Er & Hin). destruct (F a Ha) as (r' & Er' & H). rewrite Er in Er'. injection Er' as <-. apply H in Hin.
        destruct Hin as (-> & M' & _). now rewrite M'.
      * apply mem_not_In in M. destruct (mem (loc, k) on) eqn:M'; [reflexivity|]. exfalso. apply M. destruct (concatM_In _ _ _ _ Eoff Hk) as (r & Er & Hr). apply Hr.
        destruct (F k Hk) as (r' & Er' & H). rewrite Er in Er'. injection Er' as <-. apply H. eauto.
  - apply (Im Demand); [now apply (D_cons _ _ _ _ _ D)|reflexivity|]. assert (N := Hn). destruct N as (_ & _ & N3 & _). now apply N3.
Qed.
Lemma settle_all locs : forall s0 d0, good s0 -> (forall i, In i locs -> In i (i_locations I)) ->
  exists fin, foldM (settle I sites on) locs (s0, d0) = Ok fin /\ settled locs s0 d0 fin.
Proof.
  induction locs as [|loc locs IH]; intros s0 d0 G0 Hin; cbn [foldM].
  - eexists. split; [reflexivity|]. split; [auto|]. split; reflexivity.
  - destruct (settle_step s0 d0 loc G0 (Hin _ (or_introl eq_refl))) as ((s1 & d1) & E1 & (G1 & A1 & B1)). rewrite E1. cbn [rbind]. cbn [fst snd] in *.
    destruct (IH s1 d1 G1 (fun i Hi => Hin i (or_intror Hi))) as (fin & Efin & (G2 & A2 & B2)). exists fin. split; [exact Efin|]. split; [auto|]. split.
    + intros i Hs. rewrite A2, A1 by auto. cbn [mem]. rewrite orb_false_r. destruct (beq i loc), (mem i locs), (mem i sites); reflexivity.
    + intros k x Hx. rewrite (B2 _ _ Hx), (B1 _ _ Hx). cbn [mem]. rewrite orb_false_r. destruct (beq (x_site x) loc), (mem (x_site x) locs), (mem (x_site x, k) on); reflexivity.
Qed.
End Settle.
Lemma tdm_ok : exists tdm, tdm_decisions V v = Ok tdm.
Proof.
  unfold tdm_decisions. destruct (mapM_total (fun p => if Nat.eqb (snd (fst p)) 0 then Ok (fst (fst p), snd p) else Err OptExn) (values v (v_tdm V))) as (l & El); [|rewrite El; cbn; eauto].
  intros p Hp. unfold values in Hp. apply in_map_iff in Hp. destruct Hp as ((key & x) & <- & Hin). cbn [fst snd].
  assert (Hk : In key (dkeys (v_tdm V))) by (apply in_map_iff; exists (key, x); auto). rewrite VT in Hk. apply (proj1 (dict_of_keys _ _)) in Hk. unfold fresh in Hk. rewrite map_map in Hk. cbn in Hk. rewrite map_id in Hk.
  assert (Ht := Etk). unfold tdm_keys in Ht. destruct (concatM_inv _ _ _ _ Ht Hk) as (e & r & _ & Er & Hr). inv_do. subst r. destruct (_ && negb (mem e _)) in Hr; [|contradiction].
  destruct Hr as [<-|[]]. cbn. eauto.
Qed.

(** ** the price of a choice *)
Definition ex_ (i : string) : bool := mem i (i_existing_sites I).
Definition price (ty : site_type) : Q := p_capex (i_params I) ty.
Definition q_ (p : edge) : Q := val (i_seccost I) p.
Lemma seccost_get k x : sector_stored t k x -> dget (i_seccost I) (x_site x, k) = Some (q_ (x_site x, k)).
Proof.
  intros Hx. unfold q_, val. assert (S := setup_fields ps at_ t I0 (proj1 (network_setup ps at_ t I0 HI))).
  destruct S as (thr & _ & _ & _ & _ & _ & _ & _ & _ & _ & _ & _ & _ & _ & _ & _ & _ & _ & _ & _ & _ & _ & _ & _ & Fcost & _).
  change (i_seccost I) with (i_seccost I0). rewrite Fcost.
  destruct (dget (dict_of (sector_costs at_ [] (t_sectors t))) (x_site x, k)) eqn:F; [reflexivity|exfalso].
  assert (Hk : In (x_site x, k) (dkeys (dict_of (sector_costs at_ [] (t_sectors t))))).
  { apply dict_of_keys. rewrite costs_keys. apply in_map_iff. exists (k, x). split; [reflexivity|now apply dget_In]. }
  apply In_dkeys in Hk. destruct Hk as (q & Eq). congruence.
Qed.
Definition bill (zs : string -> Q) (zx : string -> Q) : Q :=
  total (fun p => if ex_ (fst p) then 0 else price (s_type (snd p)) * zs (fst p)) (t_sites t) +
  total (fun p => if ex_ (x_site (snd p)) then 0 else q_ (x_site (snd p), fst p) * zx (fst p)) (t_sectors t).
Definition real_sec (a : string) : bool := match dget (i_sectype I) a with Some ty => negb (imaginary_sec ty) | None => false end.
Lemma imag_secs : (forall a, real_sec (super_sec a) = false) /\ (forall a, real_sec (demand_sec a) = false).
Proof.
  assert (S := setup_fields ps at_ t I0 (proj1 (network_setup ps at_ t I0 HI))).
  destruct S as (thr & _ & _ & _ & _ & _ & _ & _ & _ & _ & Fst & _). unfold real_sec. change (i_sectype I) with (i_sectype I0). rewrite Fst. unfold setup_sectype.
  assert (R : forall a ty, (forall k, a <> key_id k) -> dget (dict_of (map (fun i => (super_sec i, SecSuper)) (sites_of_type t POP) ++
   map (fun p => (fst p, if k_cn (x_key (snd p)) then SecCN else SecDN)) (t_sectors t) ++
   map (fun p => (demand_sec (snd p), SecDemand)) (demand_edges at_ t))%list) a = Some ty -> imaginary_sec ty = true).
  { intros a ty Ha E. apply dict_of_In in E. rewrite !in_app_iff in E. destruct E as [H|[H|H]]; apply in_map_iff in H; destruct H as (p & Ep & Hp); injection Ep as E1 E2; subst ty; try reflexivity.
    exfalso. destruct p as [k x]. assert (Hx : sector_stored t k x) by (apply In_dget; [apply Hw|auto]). assert (W_ := Hw). destruct W_ as (_ & _ & _ & _ & _ & T). destruct (proj2 (proj2 T) _ _ Hx) as (Ek & _).
    cbn in E1. subst a. apply (Ha (x_key x)). exact Ek. }
  split; intros a; destruct (dget _ _) as [ty|] eqn:E; auto; apply R in E; try (now rewrite E); intros k; [apply super_not_key|apply demand_not_key].
Qed.
Lemma total_pick_or {A} (w : string -> Q) (k : string) (l : list (string * A)) : NoDup (map fst l) -> In k (map fst l) -> total (fun p => if beq k (fst p) then w (fst p) else 0) l == w k.
Proof.
  intros Hnd Hin. assert (E : total (fun p => if beq k (fst p) then w (fst p) else 0) l == total (fun x => if beq k x then w k else 0) (map fst l)).
  { rewrite total_map. apply total_ext. intros p _. destruct (beq_spec k (fst p)) as [->|_]; reflexivity. }
  rewrite E. now apply total_pick.
Qed.
(** summing over the locations and their sectors gives the bill *)
Lemma bill_by_location (h : string -> Q) (zs zx : string -> Q) :
  (forall i, In i (i_locations I) -> ~ site_stored t i -> h i == 0) ->
  (forall i s l, dget (t_sites t) i = Some s -> dget (i_secs I) i = Some l ->
     h i == if ex_ i then 0 else price (s_type s) * zs i + total (fun a => if real_sec a then q_ (i, a) * zx a else 0) l) ->
  total h (i_locations I) == bill zs zx.
Proof.
  intros H0 H1. assert (Wd : dwf (t_sites t)) by apply Hw. assert (Wx : dwf (t_sectors t)) by apply Hw.
  assert (A : total h (i_locations I) == total h (dkeys (t_sites t))).
  { transitivity (total h (filter (fun i => dmem (t_sites t) i) (i_locations I))).
    - rewrite total_filter. apply total_ext. intros i Hi. destruct (dmem (t_sites t) i) eqn:M; [reflexivity|]. apply H0; auto. intros Hs. apply stored_dmem in Hs. congruence.
    - apply (lists_total h _ _ (site_stored t)).
      + split; [apply NoDup_filter', (D_locs_nd _ _ _ _ _ D)|]. intros i. rewrite filter_In, stored_dmem. split; [tauto|]. intros Hs. split; [|auto]. apply (site_location ps at_ t I0 Hw Hn HI). now apply stored_dmem.
      + split; [exact Wd|]. intros i. rewrite In_dkeys. reflexivity. }
  rewrite A. unfold dkeys. rewrite total_map.
  rewrite (total_ext _ (fun p => (if ex_ (fst p) then 0 else price (s_type (snd p)) * zs (fst p)) +
     total (fun y => if beq (x_site (snd y)) (fst p) then (if ex_ (fst p) then 0 else if real_sec (fst y) then q_ (fst p, fst y) * zx (fst y) else 0) else 0) (t_sectors t))).
  2:{ intros [i s] Hin. cbn [fst snd]. assert (Es : dget (t_sites t) i = Some s) by now apply In_dget.
      destruct (D_secs_tot _ _ _ _ _ D i) as (l & El). { apply (site_location ps at_ t I0 Hw Hn HI). now exists s. }
      rewrite (H1 i s l Es El). destruct (ex_ i).
      - rewrite (total_ext _ (fun _ => 0)); [rewrite total_const0; lra|]. intros y _. now destruct (beq _ _).
      - assert (Sp := secs_real ps at_ t I0 (proj1 (network_setup ps at_ t I0 HI)) i l (fun a => if real_sec a then q_ (i, a) * zx a else 0) El).
        rewrite Sp; [reflexivity| |]; intros a; [rewrite (proj1 imag_secs a)|rewrite (proj2 imag_secs a)]; reflexivity. }
  rewrite total_add. unfold bill. apply Qplus_comp; [reflexivity|]. rewrite total_exchange. apply total_ext. intros [k x] Hin. cbn [fst snd].
  assert (Hx : sector_stored t k x) by now apply In_dget. assert (Hs := sector_site_stored _ _ _ Hw Hx).
  assert (Rk : real_sec k = true) by (unfold real_sec; rewrite (D_sectype _ _ _ _ _ D _ _ Hx); now destruct (k_cn (x_key x))). rewrite Rk.
  rewrite (total_pick_or (fun i => if ex_ i then 0 else q_ (i, k) * zx k) (x_site x)); [reflexivity|exact Wd|]. apply In_dkeys. exact Hs.
Qed.
Lemma cost_ok (site' : dict string Z) (sec' : dict edge Z) (zs zx : string -> Q) :
  (forall i, site_stored t i -> exists z, dget site' i = Some z /\ zs i = inject_Z z) ->
  (forall k x, sector_stored t k x -> exists z, dget sec' (x_site x, k) = Some z /\ zx k = inject_Z z) ->
  exists c, solution_cost I site' sec' = Ok c /\ c == bill zs zx.
Proof.
  intros Hs Hx. unfold solution_cost.
  set (f := fun loc => do ty <- get (i_type I) loc ; match ty with Real k => if mem loc (i_existing_sites I) then Ok 0 else do s <- get site' loc ; do secs <- get (i_secs I) loc ;
     do qs <- mapM (fun a => do st <- get (i_sectype I) a ; if imaginary_sec st then Ok 0 else do q <- get (i_seccost I) (loc, a) ; do z <- get sec' (loc, a) ; Ok (q * inject_Z z)) secs ;
     Ok (fold_left Qplus qs (p_capex (i_params I) k * inject_Z s)) | _ => Ok 0 end).
  assert (F : forall i, In i (i_locations I) -> exists c, f i = Ok c /\ (~ site_stored t i -> c == 0) /\
     (forall s l, dget (t_sites t) i = Some s -> dget (i_secs I) i = Some l -> c == if ex_ i then 0 else price (s_type s) * zs i + total (fun a => if real_sec a then q_ (i, a) * zx a else 0) l)).
  { intros i Hi. unfold f. assert (Hty := Hi). apply (D_locs _ _ _ _ _ D) in Hty. destruct Hty as [->|[(s & Es)|Hc]].
    - unfold get at 1. rewrite (D_super _ _ _ _ _ D). cbn. exists 0. split; [auto|]. split; [reflexivity|]. intros s l Es. exfalso. apply (proj1 Hn). exists s; assumption.
    - unfold get at 1. rewrite (D_site _ _ _ _ _ D _ _ Es). cbn [rbind]. unfold ex_. destruct (mem i (i_existing_sites I)) eqn:M.
      + exists 0. split; [auto|]. split; reflexivity.
      + destruct (Hs i) as (z & Ez & Zz); [now exists s|]. unfold get at 1. rewrite Ez. cbn [rbind]. destruct (D_secs_tot _ _ _ _ _ D i Hi) as (secs & Esecs). unfold get at 1. rewrite Esecs. cbn [rbind].
        rewrite (mapM_pure _ (fun a => if real_sec a then q_ (i, a) * zx a else 0)).
        2:{ intros a Ha. destruct (D_sectype_tot _ _ _ _ _ D i secs a Esecs Ha) as (ty & Ety). unfold get at 1. unfold real_sec. rewrite Ety. cbn [rbind]. destruct (imaginary_sec ty) eqn:Ei; [reflexivity|]. cbn [negb].
            destruct (D_sec_inv _ _ _ _ _ D i secs a ty Esecs Ha Ety Ei) as (y & Hy & Hys). assert (C := seccost_get _ _ Hy). destruct (Hx _ _ Hy) as (zy & Ezy & Zzy). rewrite Hys in *.
            unfold get. rewrite C, Ezy. cbn. now rewrite Zzy. }
        cbn [rbind]. eexists. split; [reflexivity|]. split; [intros Hno; exfalso; apply Hno; now exists s|]. intros s' l Es' El. rewrite Es in Es'. injection Es' as <-. injection El as <-.
        rewrite fold_plus, total_map. unfold price. rewrite Zz. reflexivity.
    - unfold get at 1. rewrite (D_cons _ _ _ _ _ D _ Hc). cbn. exists 0. split; [auto|]. split; [reflexivity|]. intros s l Es. exfalso. assert (N := Hn). destruct N as (_ & _ & N3 & _). apply (N3 _ Hc). now exists s. }
  set (h := fun i => match f i with Ok c => c | Err _ => 0 end). rewrite (mapM_pure _ h). 2:{ intros i Hi. destruct (F i Hi) as (c & Ec & _). unfold h. fold (f i). now rewrite Ec. }
  cbn [rbind]. eexists. split; [reflexivity|]. rewrite fold_plus, total_map. change (fun x => h x) with h. rewrite (bill_by_location h zs zx); [lra| |].
  - intros i Hi Hno. destruct (F i Hi) as (c & Ec & C1 & _). unfold h. rewrite Ec. auto.
  - intros i s l Es El. destruct (F i) as (c & Ec & _ & C2); [apply (site_location ps at_ t I0 Hw Hn HI); now exists s|]. unfold h. rewrite Ec. auto.
Qed.
End Final.
End Run.

(** ** everything about the plan *)
Definition one (o : solution) (k : string) (l : link) : Prop := link_stored t k l /\ link_on o l.
Record planning (o : solution) (st : choice) : Prop := mkPlanning {
  PL_wf : dwf (o_flow o);
  PL_keys : forall e, In e (dkeys (o_flow o)) <-> In e (i_links I);
  PL_flow : forall e, In e (i_links I) -> exists y, dget (o_flow o) e = Some y /\ 0 <= y <= flow v e;
  PL_net : exists d, dwf d /\ (forall e, In e (dkeys d) <-> In e (i_links I)) /\ (forall e, In e (i_links I) -> dget d e = Some (flow v e)) /\ forall n, net (o_flow o) n == net d n;
  PL_acyclic : acyclic_above (o_flow o) epsilon;
  PL_kept : kept (o_flow o) st;
  PL_good : good (mkChoice (o_site o) (o_odd o) (o_even o));
  PL_link : forall k l, link_stored t k l -> exists z, dget (o_link o) (l_tx l, l_rx l) = Some z /\ (z = 0%Z \/ z = 1%Z) /\ (z = 1%Z <-> wanted st l);
  PL_site : forall k l i, one o k l -> l_tx l = i \/ l_rx l = i -> site_on o i;
  PL_used : forall i, site_stored t i -> site_on o i -> (exists k l, one o k l /\ (l_tx l = i \/ l_rx l = i)) \/ serves t i;
  PL_sector : forall k x, sector_stored t k x ->
    (sector_on o x /\ exists k' l, one o k' l /\ uses_node t l (node_of x)) \/ (sector_off o x /\ ~ exists k' l, one o k' l /\ uses_node t l (node_of x));
  PL_short : forall n, consumer at_ t n -> dget (o_short o) n = Some (v (VShort n));
  PL_cost : forall zs zx, (forall i, site_stored t i -> exists z, dget (o_site o) i = Some z /\ zs i = inject_Z z) ->
    (forall k x, sector_stored t k x -> exists z, dget (o_sector o) (x_site x, k) = Some z /\ zx k = inject_Z z) -> o_cost o == bill zs zx }.
Lemma extract_ok common : sectors_present t -> exists zero o st, planning o st /\
  extract common I0 v = if zero : bool then (do _ <- guard (match common with None => true | Some q => Qeq_bool q 0 end) OptExn ; Ok None) else Ok (Some o).
Proof.
  intros SP. destruct tables_ok as (V & sk & ok & tk & EV & Esk & Eok & Etk & VS & VO & VF & VT). unfold extract. fold I. rewrite EV. cbn [rbind]. unfold extract_solution. fold polar.
  destruct (split_ok V sk ok Esk Eok VS VO) as (st0 & E0 & G0 & C0). rewrite E0. cbn [rbind].
  destruct (pruned V VF) as (fl & Efl & Wfl & Kfl & Bfl & Nfl & Afl). rewrite Efl. cbn [rbind].
  exists (near_zero (fold_left Qplus (dvals fl) 0)).
  assert (K0 : kept fl st0). { split; [exact G0|]. intros i Hi _. rewrite C0. now apply (site0_stored V sk Esk VS). }
  destruct (deselect_ok fl Kfl Bfl st0 K0) as (st & Est & K). assert (G := proj1 K).
  destruct (sectors_ok st G) as (sec & Esec & Sec1 & Sec2).
  destruct (links_ok st sec G Sec1 Sec2) as (links & Elinks & L1 & L2).
  destruct (on_ok st links SP L1 L2) as (on & Eon & Hon).
  destruct (serving_ok st G) as (sv & Esv & Hsv).
  destruct (settle_all (sites_with_active_links I links ++ sv) on (i_locations I) st sec G (fun i Hi => Hi)) as ((st1 & sec1) & Efin & (G1 & A1 & B1)). cbn [fst snd] in *.
  destruct (tdm_ok V tk Etk VT) as (tdm & Etdm).
  assert (Sz : forall i, site_stored t i -> exists z, dget (c_site st1) i = Some z /\ (z = 0%Z \/ z = 1%Z)).
  { intros i Hi. destruct (proj1 G1 i Hi) as (z & Ez & [H|(H & _)]); eauto. }
  assert (Mloc : forall i, site_stored t i -> mem i (i_locations I) = true) by (intros i Hi; apply mem_In, (site_location ps at_ t I0 Hw Hn HI); auto).
  assert (Site1 : forall k l i, lit links k l -> l_tx l = i \/ l_rx l = i -> dget (c_site st1) i = Some 1%Z).
  { intros k l i Hl Hor. assert (W := lit_wanted st links L1 k l Hl). destruct (link_sites t Hw _ _ (proj1 Hl)) as (T1 & T2).
    assert (Hi : site_stored t i) by (destruct Hor; subst; auto). rewrite A1, (Mloc _ Hi) by auto.
    assert (Hin : mem i (sites_with_active_links I links ++ sv) = true). { apply mem_In, in_app_iff. left. apply (with_links_iff st links L1 L2). eauto. }
    rewrite Hin. cbn [andb negb]. destruct W as (_ & _ & W1 & W2 & _). destruct Hor; subst; auto. }
  assert (SecV : forall k x, sector_stored t k x -> (dget sec1 (x_site x, k) = Some 1%Z /\ exists k' l, lit links k' l /\ uses_node t l (node_of x)) \/
                                             (dget sec1 (x_site x, k) = Some 0%Z /\ ~ exists k' l, lit links k' l /\ uses_node t l (node_of x))).
  { intros k x Hx. rewrite (B1 k x Hx), (Mloc _ (sector_site_stored _ _ _ Hw Hx)). cbn [andb]. destruct (mem (x_site x, k) on) eqn:M; cbn [negb].
    - left. apply mem_In, Hon in M. destruct M as (x' & k' & l & Hx' & _ & Hl & Hu). cbn in Hx'. unfold sector_stored in *. rewrite Hx in Hx'. injection Hx' as <-.
      split; [|eauto]. rewrite (Sec1 k x Hx). assert (W := lit_wanted st links L1 k' l Hl). destruct W as (_ & _ & W1 & W2 & _).
      destruct Hu as (a & b & w & _ & En & [(_ & Ew)|(_ & Ew)]); unfold node_of in En; injection En as En _; congruence.
    - right. split; [auto|]. intros (k' & l & Hl & Hu). apply mem_not_In in M. apply M, Hon. exists x, k', l. auto. }
  destruct (cost_ok (c_site st1) sec1
     (fun i => match dget (c_site st1) i with Some z => inject_Z z | None => 0 end)
     (fun k => match dget (t_sectors t) k with Some x => match dget sec1 (x_site x, k) with Some z => inject_Z z | None => 0 end | None => 0 end)) as (cost & Ecost & Hcost).
  { intros i Hi. destruct (Sz i Hi) as (z & Ez & _). exists z. rewrite Ez. auto. }
  { intros k x Hx. destruct (SecV k x Hx) as [(E & _)|(E & _)]; eexists; (split; [exact E|]); unfold sector_stored in Hx; rewrite Hx, E; reflexivity. }
  eexists. exists st. split.
  2:{ rewrite Est. cbn [rbind]. rewrite Esec. cbn [rbind]. rewrite Elinks. cbn [rbind]. rewrite Eon. cbn [rbind]. rewrite Esv. cbn [rbind]. rewrite Efin. cbn [rbind fst snd]. rewrite Etdm. cbn [rbind].
      rewrite Ecost. cbn [rbind]. reflexivity. }
  assert (One : forall k l, link_stored t k l /\ dget links (l_tx l, l_rx l) = Some 1%Z <-> lit links k l) by (intros; reflexivity).
  assert (Xid : forall k x, sector_stored t k x -> x_id x = k). { intros k x Hx. assert (W_ := Hw). destruct W_ as (_ & _ & _ & _ & _ & T). now destruct (proj2 (proj2 T) _ _ Hx). }
  constructor; cbn [o_flow o_site o_odd o_even o_link o_sector o_short o_cost]; auto.
  - exists (values v (v_flow V)). destruct (graph V VF) as (W1 & _).
    assert (K1 : dkeys (values v (v_flow V)) = dkeys (v_flow V)) by (unfold values, dkeys; rewrite map_map; reflexivity).
    split; [auto|]. split; [|split; [intros e He; now apply (flow_value V VF)|auto]]. intros e. rewrite K1, VF, dict_of_keys. unfold fresh. rewrite map_map. cbn. rewrite map_id. reflexivity.
  - intros i Hi Hon1. unfold site_on in Hon1. cbn in Hon1. rewrite A1, (Mloc _ Hi) in Hon1 by auto. destruct (mem i (sites_with_active_links I links ++ sv)) eqn:M; cbn in Hon1; [|discriminate].
    apply mem_In, in_app_iff in M. destruct M as [M|M]; [left; now apply (with_links_iff st links L1 L2) in M|right; now apply Hsv].
  - intros k x Hx. unfold sector_on, sector_off. cbn [o_sector]. rewrite (Xid _ _ Hx). apply SecV. exact Hx.
  - intros n Hc. assert (H := EV). unfold site_tables in H. inv_do. rewrite <- H. cbn [v_short]. rewrite values_get, fresh_get.
    assert (M : mem n (shortage_keys I) = true) by (apply mem_In; apply (shortage_keys_lists ps at_ t I0 Hw Hn HI); exact Hc). rewrite M. reflexivity.
  - intros zs zx Hzs Hzx. rewrite Hcost. unfold bill. apply Qplus_comp; apply total_ext.
    + intros [i s] Hin. cbn [fst snd]. destruct (ex_ i); [reflexivity|]. destruct (Hzs i) as (z & Ez & ->); [exists s; apply In_dget; [apply Hw|auto]|]. rewrite Ez. reflexivity.
    + intros [k x] Hin. cbn [fst snd]. destruct (ex_ (x_site x)); [reflexivity|]. assert (Hx : sector_stored t k x) by (apply In_dget; [apply Hw|auto]).
      destruct (Hzx k x Hx) as (z & Ez & ->). unfold sector_stored in Hx. rewrite Hx, Ez. reflexivity.
Qed.
Lemma extract_planning common o : sectors_present t -> extract common I0 v = Ok (Some o) -> exists st, planning o st.
Proof.
  intros SP E. destruct (extract_ok common SP) as (zero & o' & st & Hp & E'). rewrite E in E'. destruct zero.
  - destruct (guard _ _); discriminate.
  - injection E' as ->. eauto.
Qed.
Lemma extract_total : sectors_present t -> exists o, extract None I0 v = Ok o.
Proof. intros SP. destruct (extract_ok None SP) as (zero & o' & st & Hp & ->). destruct zero; cbn; eauto. Qed.

(** ** the flow uses only sites that are on *)
Lemma flow_end e i : In e (i_links I) -> fst e = i \/ snd e = i -> site_stored t i -> 0 < flow v e -> v (VSite i) == 1.
Proof.
  intros He Hend Hi Hpos. destruct (decls_all ps at_ t I0 g adv P v Hw Hn HI HP Hv) as (B & Bf & _). destruct (B i Hi) as [H0|H1]; [exfalso|exact H1].
  destruct (pieces I0 g adv P v HP Hv) as (V & ds & sk & tk & ok & c1 & c2 & c3 & c4 & c5 & c6 & c7 & c8 & c9 & c10 & c11 & cx &
  Esk & Etk & Eok & VS & VF & VT & VO & VSh & (sec & Esec & VSec) & Eds & Hds & E1 & S1 & E2 & S2 & E3 & S3 & E4 & S4 & E5 & S5 & E6 & S6 & _).
  assert (Hl := site_location ps at_ t I0 Hw Hn HI i Hi). destruct Hi as (s & Es).
  destruct (concatM_In _ _ _ _ E6 Hl) as (r & Er & Hr). fold I in Er. inv_do. rewrite (D_site _ _ _ _ _ D _ _ Es) in E7. injection E7 as <-. cbn [imaginary] in E8. inv_do.
  assert (x2 = Var (VSite i)) by (eapply (site_get I0); [exact Esk|exact VS|exact E8]). subst x2. cbv zeta in Er. injection Er as Er. subst r.
  assert (Nn : forall es, (forall e, In e es -> In e (i_links I)) -> In e es -> total (flow v) es <= 0 -> False).
  { intros es Hes Hin Hle. assert (M := total_member (flow v) es e (fun y Hy => Bf y (proj1 (D_links _ _ _ _ _ D y) (Hes y Hy))) Hin). lra. }
  destruct Hend as [Hf|Hs].
  - destruct (lists_out _ _ _ _ _ D i Hl) as (eo & Eo & Lo). destruct (outgoing_flow_val _ _ _ _ _ D V VF v i x0 eo E0 Lo) as (Ev & Ne).
    assert (Hin : In e eo) by (apply Lo; split; [now apply (D_links _ _ _ _ _ D)|auto]).
    destruct x0 as [y|]; [|now rewrite Ne in Hin]. assert (C : sat v (Le y (Scale (i_max_throughput I) (Var (VSite i))))) by (apply S6, Hr, in_or_app; right; left; reflexivity). cbn [sat eval or_zero] in C, Ev. rewrite Ev, H0 in C.
    apply (Nn eo); [intros y' Hy'; apply (D_links _ _ _ _ _ D); now apply Lo|auto|lra].
  - destruct (lists_in _ _ _ _ _ D i Hl) as (ei & Ei & Li). destruct (incoming_flow_val _ _ _ _ _ D V VF v i x ei E Li) as (Ev & Ne).
    assert (Hin : In e ei) by (apply Li; split; [now apply (D_links _ _ _ _ _ D)|auto]).
    destruct x as [y|]; [|now rewrite Ne in Hin]. assert (C : sat v (Le y (Scale (i_max_throughput I) (Var (VSite i))))) by (apply S6, Hr, in_or_app; left; left; reflexivity). cbn [sat eval or_zero] in C, Ev. rewrite Ev, H0 in C.
    apply (Nn ei); [intros y' Hy'; apply (D_links _ _ _ _ _ D); now apply Li|auto|lra].
Qed.
Lemma wired_flow k l : link_stored t k l -> l_wireless l = false -> flow v (l_tx l, l_rx l) <= a_cap at_ (l_tx l, l_rx l).
Proof.
  intros El W. destruct (pieces I0 g adv P v HP Hv) as (V & ds & sk & tk & ok & c1 & c2 & c3 & c4 & c5 & c6 & c7 & c8 & c9 & c10 & c11 & cx &
  Esk & Etk & Eok & VS & VF & VT & VO & VSh & (sec & Esec & VSec) & Eds & Hds & E1 & S1 & E2 & S2 & _).
  destruct (concatM_In _ _ _ _ E2 (link_in _ _ _ _ _ D _ _ El)) as (r & Er & Hr). fold I in Er. inv_do. rewrite (D_cap _ _ _ _ _ D _ _ El) in E. injection E as <-.
  apply (flow_get_inv _ V VF) in E0. subst x0.
  destruct (dmem (v_tdm V) (l_tx l, l_rx l, 0%nat)) eqn:M.
  { exfalso. apply dmem_Some in M. destruct M as (x & Ex). destruct (tdm_get_inv _ _ _ _ _ D Hn V (ex_intro _ tk (conj Etk VT)) _ _ _ Ex) as (_ & (k' & l' & El' & E' & W') & _).
    assert (l = l') by (eapply link_fun; eauto). congruence. }
  injection Er as <-. assert (C : flow v (l_tx l, l_rx l) <= qmin2 (a_cap at_ (l_tx l, l_rx l)) (i_max_throughput I)) by exact (S2 _ (Hr _ (or_introl eq_refl))). unfold qmin2 in C.
  destruct (Qle_bool (a_cap at_ (l_tx l, l_rx l)) (i_max_throughput I)) eqn:Q; [exact C|]. apply qle_false in Q. lra.
Qed.
Lemma inactive_flow e : In e (i_links I) -> In e (i_inactive_links I) -> flow v e == 0.
Proof.
  intros He Hin. destruct (pieces I0 g adv P v HP Hv) as (V & ds & sk & tk & ok & c1 & c2 & c3 & c4 & c5 & c6 & c7 & c8 & c9 & c10 & c11 & cx &
  Esk & Etk & Eok & VS & VF & VT & VO & VSh & (sec & Esec & VSec) & Eds & Hds & _ & _ & _ & _ & _ & _ & _ & _ & _ & _ & _ & _ & _ & _ & _ & _ & _ & _ & _ & _ & E11 & S11 & _).
  unfold create_inactive_link_flow_constraints, no_flow_on in E11. destruct (concatM_In _ _ _ _ E11 He) as (r & Er & Hr). fold I in Er. apply mem_In in Hin. rewrite Hin in Er. inv_do. subst r.
  apply (flow_get_inv _ V VF) in E. subst x. assert (C := S11 _ (Hr _ (or_introl eq_refl))). exact C.
Qed.

Section Theorems.
Variables (o : solution) (st : choice).
Hypothesis SP : sectors_present t.
Hypothesis Hp : planning o st.
Let Gd := PL_good _ _ Hp.
Let Kp := PL_kept _ _ Hp.

Lemma plan_binary i : site_stored t i -> site_off o i \/ (site_on o i /\ selected v i).
Proof. intros Hi. destruct (proj1 Gd i Hi) as (z & Ez & [->|(-> & Hs)]); [left; exact Ez|right; split; [exact Ez|exact Hs]]. Qed.
Lemma plan_polarity i : p_ignore_polarities ps = false -> backhaul_site t i ->
  (site_on o i -> (is_odd o i /\ v (VOdd i) == 1) \/ (is_even o i /\ v (VOdd i) == 0)) /\ (site_off o i -> no_polarity o i).
Proof.
  intros Hi Hb. assert (Pl : polar = true) by (rewrite polar_ps, Hi; reflexivity). split.
  - intros Hon. destruct (proj2 Gd Pl i _ Hb Hon) as (O & E). cbn in O, E. destruct (bit_odd i Pl Hb) as [(B & Hv1)|(B & Hv1)]; rewrite B in O, E; [left|right]; (split; [split|]); assumption.
  - intros Hoff. destruct (proj2 Gd Pl i _ Hb Hoff) as (O & E). cbn in O, E. split; assumption.
Qed.
Lemma one_wanted k l : one o k l -> wanted st l.
Proof. intros (El & E). destruct (PL_link _ _ Hp k l El) as (z & Ez & _ & Hz). apply Hz. unfold link_on in E. congruence. Qed.
Lemma plan_opposite k l : p_ignore_polarities ps = false -> link_stored t k l -> link_on o l -> l_wireless l = true -> backhaul_site t (l_tx l) -> backhaul_site t (l_rx l) ->
  (is_odd o (l_tx l) /\ is_even o (l_rx l)) \/ (is_even o (l_tx l) /\ is_odd o (l_rx l)).
Proof.
  intros Hi El E W Bt Br. assert (Ho : one o k l) by (split; auto). assert (Pl : polar = true) by (rewrite polar_ps, Hi; reflexivity).
  assert (Wt := one_wanted k l Ho). destruct Wt as (_ & _ & W1 & W2 & W3 & _). specialize (W3 Pl).
  assert (On1 := PL_site _ _ Hp k l _ Ho (or_introl eq_refl)). assert (On2 := PL_site _ _ Hp k l _ Ho (or_intror eq_refl)).
  destruct (plan_polarity _ Hi Bt) as (P1 & _). destruct (plan_polarity _ Hi Br) as (P2 & _). specialize (P1 On1). specialize (P2 On2).
  assert (Op : opposite v (l_tx l) (l_rx l)).
  { unfold compatible_polarity in W3. destruct (mem (l_tx l, l_rx l) (i_existing_links I ++ i_proposed_links I)) eqn:M.
    - eapply (opposite_polarity ps at_ t I0 g adv P v); eauto. right; right. apply mem_In in M.
      assert (M' : In (l_tx l, l_rx l) (i_proposed_links I ++ i_existing_links I)) by (rewrite in_app_iff in *; tauto). apply (D_alinks _ _ _ _ _ D) in M'. destruct M' as (k' & l' & El' & E' & Hst).
      assert (l = l') by (eapply link_fun; eauto). now subst.
    - rewrite (D_wired _ _ _ _ _ D _ _ El), W in W3. cbn [negb orb] in W3. assert (Bt' := Bt); destruct Bt' as (s1 & S1 & T1). assert (Br' := Br); destruct Br' as (s2 & S2 & T2). unfold get in W3. cbn [fst snd] in W3.
      rewrite (D_site _ _ _ _ _ D _ _ S1), (D_site _ _ _ _ _ D _ _ S2) in W3. cbn [rbind] in W3.
      assert (Dd : dist (Real (s_type s1)) && dist (Real (s_type s2)) = true) by (destruct T1 as [T1|T1], T2 as [T2|T2]; rewrite T1, T2; reflexivity). rewrite Dd in W3.
      destruct (proj2 (proj1 Kp) Pl _ _ Bt W1) as (O1 & _). destruct (proj2 (proj1 Kp) Pl _ _ Br W2) as (O2 & _). rewrite O1, O2 in W3. cbn in W3.
      unfold opposite. destruct (bit_odd _ Pl Bt) as [(X1 & Y1)|(X1 & Y1)], (bit_odd _ Pl Br) as [(X2 & Y2)|(X2 & Y2)]; rewrite X1, X2 in W3; try discriminate; auto. }
  destruct Op as [(A & B)|(A & B)]; destruct P1 as [(P1 & Q1)|(P1 & Q1)], P2 as [(P2 & Q2)|(P2 & Q2)]; auto; exfalso; lra.
Qed.
Lemma plan_link k l : link_stored t k l -> link_on o l \/ link_off o l.
Proof. intros El. destruct (PL_link _ _ Hp k l El) as (z & Ez & [->| ->] & _); [right|left]; exact Ez. Qed.
Lemma plan_link_on k l : link_stored t k l -> link_on o l ->
  site_on o (l_tx l) /\ site_on o (l_rx l) /\ 0 < a_cap at_ (l_tx l, l_rx l) /\ l_status l <> UNAVAILABLE /\ l_status l <> UNREACHABLE /\
  (l_wireless l = true -> exists a b x y, l_sectors l = Some (a, b) /\ sector_stored t (key_id a) x /\ x_site x = l_tx l /\ sector_on o x /\
     sector_stored t (key_id b) y /\ x_site y = l_rx l /\ sector_on o y).
Proof.
  intros El E. assert (Ho : one o k l) by (split; auto). assert (Wt := one_wanted k l Ho). destruct Wt as (Wi & Wc & _ & _ & _ & Ws).
  split; [exact (PL_site _ _ Hp k l _ Ho (or_introl eq_refl))|]. split; [exact (PL_site _ _ Hp k l _ Ho (or_intror eq_refl))|]. split; [exact Wc|].
  split; [intros F; apply Wi, (D_il _ _ _ _ _ D k l El); auto|]. split; [intros F; apply Wi, (D_il _ _ _ _ _ D k l El); auto|].
  intros W. destruct (Ws W) as (a & b & x & y & Es & Hx & Hxs & Hy & Hys). exists a, b, x, y.
  assert (Ux : uses_node t l (node_of x)) by (exists a, b, x; auto). assert (Uy : uses_node t l (node_of y)) by (exists a, b, y; auto).
  destruct (PL_sector _ _ Hp _ _ Hx) as [(X & _)|(_ & X)]; [|exfalso; apply X; exists k, l; auto]. destruct (PL_sector _ _ Hp _ _ Hy) as [(Y & _)|(_ & Y)]; [|exfalso; apply Y; exists k, l; auto].
  auto 10.
Qed.
Lemma planned_flow e : In e (i_links I) -> 0 <= planned o e <= flow v e.
Proof. intros He. destruct (PL_flow _ _ Hp e He) as (y & Ey & H). unfold planned. now rewrite Ey. Qed.
Lemma plan_carries k l : link_stored t k l -> epsilon < planned o (l_tx l, l_rx l) -> link_on o l.
Proof.
  intros El Hbig. assert (He := link_in _ _ _ _ _ D _ _ El). assert (Hf := planned_flow _ He). assert (E0 := eps_pos). assert (Hpos : 0 < flow v (l_tx l, l_rx l)) by lra.
  destruct (link_sites t Hw _ _ El) as (T1 & T2).
  assert (V1 := flow_end _ (l_tx l) He (or_introl eq_refl) T1 Hpos). assert (V2 := flow_end _ (l_rx l) He (or_intror eq_refl) T2 Hpos).
  assert (Bz : forall i, i = l_tx l \/ i = l_rx l -> busy (o_flow o) i). { intros i Hi. exists (l_tx l, l_rx l). split; [auto|]. split; [destruct Hi as [-> | ->]; auto|]. exact Hbig. }
  assert (C1 : dget (c_site st) (l_tx l) = Some 1%Z). { rewrite (proj2 Kp _ T1) by (left; apply Bz; auto). f_equal. now apply binary_one. }
  assert (C2 : dget (c_site st) (l_rx l) = Some 1%Z). { rewrite (proj2 Kp _ T2) by (left; apply Bz; auto). f_equal. now apply binary_one. }
  assert (Ni : ~ In (l_tx l, l_rx l) (i_inactive_links I)) by (intros Hin; assert (Z := inactive_flow _ He Hin); lra).
  destruct (PL_link _ _ Hp k l El) as (z & Ez & _ & Hz). unfold link_on. rewrite Ez. f_equal. apply Hz. unfold wanted. split; [exact Ni|]. split.
  { destruct (l_wireless l) eqn:W; [|assert (F := wired_flow k l El W); lra].
    destruct (link_flow ps at_ t I0 g adv P v Hw Hn HI HP Hv k l El W) as (_ & F). destruct (decls_all ps at_ t I0 g adv P v Hw Hn HI HP Hv) as (_ & _ & Bs & _). specialize (Bs k l El W).
    destruct (Qlt_le_dec 0 (a_cap at_ (l_tx l, l_rx l))) as [?|Hle]; [auto|]. exfalso. assert (a_cap at_ (l_tx l, l_rx l) * share v 0 (l_tx l, l_rx l) <= 0) by nra. lra. }
  split; [exact C1|]. split; [exact C2|]. split.
  - intros Pl. unfold compatible_polarity. destruct (mem _ (i_existing_links I ++ _) || mem _ (i_wired I)) eqn:M; [reflexivity|]. apply orb_false_iff in M. destruct M as (_ & M).
    rewrite (D_wired _ _ _ _ _ D _ _ El) in M. apply negb_false_iff in M. destruct T1 as (s1 & S1). destruct T2 as (s2 & S2). unfold get. cbn [fst snd]. rewrite (D_site _ _ _ _ _ D _ _ S1), (D_site _ _ _ _ _ D _ _ S2). cbn [rbind].
    destruct (dist (Real (s_type s1)) && dist (Real (s_type s2))) eqn:Dd; [|reflexivity]. apply andb_true_iff in Dd. destruct Dd as (D1 & D2).
    assert (Bt : backhaul_site t (l_tx l)) by (exists s1; split; [auto|]; destruct (s_type s1); try discriminate; auto).
    assert (Br : backhaul_site t (l_rx l)) by (exists s2; split; [auto|]; destruct (s_type s2); try discriminate; auto).
    assert (Ig : p_ignore_polarities ps = false) by (rewrite polar_ps in Pl; now apply negb_true_iff in Pl).
    assert (Op : opposite v (l_tx l) (l_rx l)) by (eapply (opposite_polarity ps at_ t I0 g adv P v); eauto).
    destruct (odd_compat st k l (proj1 Kp) Pl El M Bt Br C1 C2 Op) as (z1 & z2 & -> & -> & Hne). f_equal. apply negb_true_iff. now apply Z.eqb_neq.
  - intros W. destruct (l_sectors l) as [[a b]|] eqn:Es; [|exfalso; apply Ni, (D_il _ _ _ _ _ D k l El); auto]. destruct (SP k l a b El Es) as ((x & Hx & Hxs) & (y & Hy & Hys)). exists a, b, x, y. auto.
Qed.
(** ** conservation *)
Lemma through_into d n ei : dwf d -> (forall e, In e (dkeys d) <-> In e (i_links I)) -> into at_ t n ei -> inflow d n == total (val d) ei.
Proof.
  intros Wd Kd Hi. unfold inflow. rewrite (flows_val d Wd (fun e => String.eqb (snd e) n)), <- total_filter. apply (lists_total (val d) _ _ (fun e => flow_edge at_ t e /\ snd e = n)); [|exact Hi].
  split; [apply NoDup_filter'; exact Wd|]. intros e. rewrite filter_In, Kd, (D_links _ _ _ _ _ D), String.eqb_eq. reflexivity.
Qed.
Lemma through_out d n eo : dwf d -> (forall e, In e (dkeys d) <-> In e (i_links I)) -> out_of at_ t n eo -> outflow d n == total (val d) eo.
Proof.
  intros Wd Kd Hi. unfold outflow. rewrite (flows_val d Wd (fun e => String.eqb (fst e) n)), <- total_filter. apply (lists_total (val d) _ _ (fun e => flow_edge at_ t e /\ fst e = n)); [|exact Hi].
  split; [apply NoDup_filter'; exact Wd|]. intros e. rewrite filter_In, Kd, (D_links _ _ _ _ _ D), String.eqb_eq. reflexivity.
Qed.
Lemma plan_net n ei eo : into at_ t n ei -> out_of at_ t n eo -> total (planned o) eo - total (planned o) ei == total (flow v) eo - total (flow v) ei.
Proof.
  intros Hi Ho. destruct (PL_net _ _ Hp) as (d & Wd & Kd & Vd & Hnet). specialize (Hnet n). unfold net in Hnet.
  rewrite (through_into d n ei Wd Kd Hi), (through_out d n eo Wd Kd Ho) in Hnet.
  rewrite (through_into _ n ei (PL_wf _ _ Hp) (PL_keys _ _ Hp) Hi), (through_out _ n eo (PL_wf _ _ Hp) (PL_keys _ _ Hp) Ho) in Hnet.
  assert (Ev : forall es, (forall e, In e es -> In e (i_links I)) -> total (val d) es == total (flow v) es).
  { intros es Hes. apply total_ext. intros e He. unfold val. rewrite (Vd e (Hes e He)). reflexivity. }
  rewrite (Ev ei), (Ev eo) in Hnet; [exact Hnet| |]; intros e He; apply (D_links _ _ _ _ _ D); [now apply Ho|now apply Hi].
Qed.
Lemma plan_conserves i ei eo : site_stored t i -> into at_ t i ei -> out_of at_ t i eo -> total (planned o) ei == total (planned o) eo.
Proof.
  intros Hs Hi Ho. assert (N := plan_net i ei eo Hi Ho). assert (C := site_conserves ps at_ t I0 g adv P v Hw Hn HI HP Hv i ei eo Hs Hi Ho). lra.
Qed.
Lemma plan_receives n ei dem : (forall n, consumer at_ t n -> wants ps at_ t n (dem n)) -> consumer at_ t n -> into at_ t n ei ->
  total (planned o) ei == dem n - missing o n /\ 0 <= missing o n <= dem n.
Proof.
  intros Hd Hc Hi. unfold missing. rewrite (PL_short _ _ Hp n Hc).
  assert (Hl : In n (i_locations I)) by (apply (D_locs _ _ _ _ _ D); auto). destruct (lists_out _ _ _ _ _ D n Hl) as (eo & _ & Ho).
  assert (N := plan_net n ei eo Hi Ho). assert (R := consumer_receives ps at_ t I0 g adv P v Hw Hn HI HP Hv n ei dem Hd Hc Hi). rewrite (out_consumer at_ t Hw Hn n eo Hc Ho) in N. cbn [total] in N.
  destruct (decls_all ps at_ t I0 g adv P v Hw Hn HI HP Hv) as (_ & _ & _ & _ & Bs). specialize (Bs n (dem n) Hc (Hd n Hc)). split; lra.
Qed.
(** ** coverage *)
Lemma plan_coverage cs dem : g = CostUnderCoverage -> lists cs (consumer at_ t) -> (forall n, consumer at_ t n -> wants ps at_ t n (dem n)) ->
  total (missing o) cs <= (1 - p_coverage ps) * total dem cs.
Proof.
  intros Eg Hcs Hd.
  assert (Em : total (missing o) cs == total (fun n => v (VShort n)) cs). { apply total_ext. intros n Hin. apply Hcs in Hin. unfold missing. now rewrite (PL_short _ _ Hp n Hin). }
  rewrite Em. destruct (pieces I0 g adv P v HP Hv) as (V & ds & sk & tk & ok & c1 & c2 & c3 & c4 & c5 & c6 & c7 & c8 & c9 & c10 & c11 & cx &
  Esk & Etk & Eok & VS & VF & VT & VO & VSh & (sec & Esec & VSec) & Eds & Hds & _ & _ & _ & _ & _ & _ & _ & _ & _ & _ & _ & _ & _ & _ & _ & _ & _ & _ & _ & _ & _ & _ & Ex & Sx).
  rewrite Eg in Ex. unfold goal_constraint in Ex. fold I in Ex. unfold create_coverage_constraint in Ex. assert (Dset := D_dset _ _ _ _ _ D). destruct (i_set I Demand) as [|n0 ns] eqn:Es.
  { destruct cs as [|c cs]; [cbn; lra|]. exfalso. apply (Dset c). apply Hcs. now left. }
  rewrite <- Es in *. clear Es n0 ns. destruct (max_val ps at_ t I0 HI) as (thr & Ethr & Emax). fold I in Ethr, Emax. rewrite Ethr in Ex. cbn [rbind] in Ex. inv_do. subst cx.
  assert (C : eval v (xsum x) <= (1 - p_coverage (i_params I)) * fold_left Qplus thr 0) by exact (Sx _ (or_introl eq_refl)). rewrite eval_xsum in C.
  rewrite (mapM_eq _ (fun n => Var (VShort n)) _ _ E) in C. 2:{ intros n y _ Ey. apply get_ok in Ey. now apply (short_get I0 n y V VSh) in Ey. }
  rewrite total_map in C. cbn [eval] in C. rewrite <- Emax in C.
  assert (TD := total_demand ps at_ t I0 Hw Hn HI dem Hd). fold I in TD. rewrite TD in C.
  assert (Hk := shortage_keys_lists ps at_ t I0 Hw Hn HI). fold I in Hk.
  rewrite (lists_total _ _ _ _ Hk Hcs) in C. rewrite (lists_total dem _ _ _ Hk Hcs) in C.
  destruct (params_val ps at_ t I0 HI) as (_ & _ & _ & _ & Q & _). fold I in Q. rewrite Q in C. exact C.
Qed.
Lemma plan_delivers cs dem feed : g = CostUnderCoverage -> lists cs (consumer at_ t) -> (forall n, consumer at_ t n -> wants ps at_ t n (dem n)) ->
  (forall n, In n cs -> into at_ t n (feed n)) -> p_coverage ps * total dem cs <= total (fun n => total (planned o) (feed n)) cs.
Proof.
  intros Eg Hcs Hd Hf. assert (C := plan_coverage cs dem Eg Hcs Hd).
  assert (E : total (fun n => total (planned o) (feed n)) cs == total (fun n => dem n - missing o n) cs).
  { apply total_ext. intros n Hin. apply (plan_receives n (feed n) dem Hd); [now apply Hcs|auto]. }
  rewrite total_sub in E. change (fun x => dem x) with dem in E. change (fun x => missing o x) with (missing o) in E. rewrite E. lra.
Qed.
(** ** cost *)
Lemma ex_iff i s : dget (t_sites t) i = Some s -> (ex_ i = true <-> s_status s = EXISTING).
Proof.
  intros Es. unfold ex_. rewrite mem_In, (D_es _ _ _ _ _ D). split; [intros (s' & E & H); congruence|eauto].
Qed.
Definition onb (d : option Z) : bool := match d with Some z => Z.eqb z 1 | None => false end.
Lemma plan_cost is_ ns : lists is_ (pays_site t o) -> lists ns (pays_node t o) ->
  o_cost o == total (site_price ps t) is_ + total (fun n => a_node_capex at_ (fst n)) ns.
Proof.
  intros His Hns.
  set (zs := fun i => match dget (o_site o) i with Some z => inject_Z z | None => 0 end).
  set (zx := fun k => match dget (t_sectors t) k with Some x => match dget (o_sector o) (x_site x, k) with Some z => inject_Z z | None => 0 end | None => 0 end).
  assert (Wd : dwf (t_sites t)) by apply Hw. assert (Wx : dwf (t_sectors t)) by apply Hw.
  assert (Xid : forall k x, sector_stored t k x -> x_id x = k). { intros k x Hx. assert (W_ := Hw). destruct W_ as (_ & _ & _ & _ & _ & T). now destruct (proj2 (proj2 T) _ _ Hx). }
  rewrite (PL_cost _ _ Hp zs zx).
  2:{ intros i Hi. unfold zs. destruct (plan_binary i Hi) as [H|(H & _)]; unfold site_off, site_on in H; rewrite H; eauto. }
  2:{ intros k x Hx. unfold zx. assert (Hx' := Hx). unfold sector_stored in Hx'. rewrite Hx'. destruct (PL_sector _ _ Hp k x Hx) as [(H & _)|(H & _)]; unfold sector_on, sector_off in H; rewrite (Xid _ _ Hx) in H; rewrite H; eauto. }
  unfold bill. apply Qplus_comp.
  - set (F := fun i => if ex_ i then 0 else site_price ps t i * zs i).
    transitivity (total F (dkeys (t_sites t))).
    { unfold dkeys. rewrite total_map. apply total_ext. intros [i s] Hin. cbn [fst snd]. unfold F, site_price. rewrite (In_dget _ _ _ Wd Hin). unfold price.
      destruct (params_val ps at_ t I0 HI) as (_ & _ & _ & _ & _ & Q). fold I in Q. now rewrite Q. }
    transitivity (total (site_price ps t) (filter (fun i => negb (ex_ i) && onb (dget (o_site o) i)) (dkeys (t_sites t)))).
    { rewrite total_filter. apply total_ext. intros i Hi. unfold F, zs, onb. assert (Hs : site_stored t i) by now apply In_dkeys. destruct (ex_ i); cbn [negb andb]; [reflexivity|].
      destruct (plan_binary i Hs) as [H|(H & _)]; unfold site_off, site_on in H; rewrite H; [change (inject_Z 0) with 0|change (inject_Z 1) with 1]; cbn [Z.eqb Pos.eqb]; lra. }
    apply (lists_total _ _ _ (pays_site t o)); [|exact His]. split; [apply NoDup_filter'; exact Wd|]. intros i. rewrite filter_In, In_dkeys, andb_true_iff, negb_true_iff. unfold pays_site, site_on, onb. split.
    + intros ((s & Es) & Hex & Hon). exists s. split; [auto|]. split; [intros E; apply (ex_iff i s Es) in E; congruence|]. destruct (dget (o_site o) i); [|discriminate]. apply Z.eqb_eq in Hon. now subst.
    + intros (s & Es & Hex & Hon). split; [eauto|]. split; [destruct (ex_ i) eqn:E; [|auto]; apply (ex_iff i s Es) in E; contradiction|]. rewrite Hon. reflexivity.
  - set (zz := fun e : edge => if ex_ (fst e) then 0 else zx (snd e)).
    assert (Fc : i_seccost I = dict_of (sector_costs at_ [] (t_sectors t))).
    { assert (S := setup_fields ps at_ t I0 (proj1 (network_setup ps at_ t I0 HI))). destruct S as (thr & _ & _ & _ & _ & _ & _ & _ & _ & _ & _ & _ & _ & _ & _ & _ & _ & _ & _ & _ & _ & _ & _ & _ & Fcost & _). exact Fcost. }
    transitivity (total (fun p => val (dict_of (sector_costs at_ [] (t_sectors t))) (x_site (snd p), fst p) * zz (x_site (snd p), fst p)) (t_sectors t)).
    { apply total_ext. intros [k x] Hin. cbn [fst snd]. unfold q_, zz. rewrite Fc. cbn [fst snd]. destruct (ex_ (x_site x)); lra. }
    rewrite costs_lookup by exact Wx.
    set (W := fun n : string * nat => negb (ex_ (fst n)) && existsb (fun p => beq (node_of (snd p)) n && onb (dget (o_sector o) (x_site (snd p), fst p))) (t_sectors t)).
    rewrite (costs_by_node at_ zz (fun n => if W n then 1 else 0)).
    + transitivity (total (fun n => a_node_capex at_ (fst n)) (filter W (new_nodes [] (t_sectors t)))).
      { rewrite total_filter. apply total_ext. intros n _. destruct (W n); lra. }
      apply (lists_total _ _ _ (pays_node t o)); [|exact Hns]. split; [apply NoDup_filter', new_nodes_NoDup|]. intros n. rewrite filter_In, new_nodes_In. unfold W. rewrite andb_true_iff, negb_true_iff, existsb_exists. unfold pays_node. split.
      * intros (_ & Hex & (k & x) & Hin & Hb). cbn [fst snd] in Hb. apply andb_true_iff in Hb. destruct Hb as (Hb & Ho). apply beq_true in Hb. assert (Hx : sector_stored t k x) by now apply In_dget.
        destruct (sector_site_stored _ _ _ Hw Hx) as (s & Es). exists k, x, s. split; [auto|]. split; [auto|]. split; [unfold sector_on; rewrite (Xid _ _ Hx); unfold onb in Ho; destruct (dget _ _); [|discriminate]; apply Z.eqb_eq in Ho; now subst|].
        split; [auto|]. intros E. apply (ex_iff _ _ Es) in E. rewrite <- Hb in Hex. change (ex_ (x_site x) = false) in Hex. congruence.
      * intros (k & x & s & Hx & Hnx & Hon & Es & Hex). assert (Hin : In (k, x) (t_sectors t)) by (now apply dget_In). split; [split; [exists (k, x); auto|auto]|]. split.
        -- rewrite <- Hnx. change (fst (node_of x)) with (x_site x). destruct (ex_ (x_site x)) eqn:E; [|auto]. apply (ex_iff _ _ Es) in E. contradiction.
        -- exists (k, x). split; [auto|]. cbn [fst snd]. rewrite Hnx, beq_refl. unfold sector_on in Hon. rewrite (Xid _ _ Hx) in Hon. rewrite Hon. reflexivity.
    + intros [k x] Hin. cbn [fst snd]. assert (Hx : sector_stored t k x) by now apply In_dget. unfold zz, W. cbn [fst snd]. change (fst (node_of x)) with (x_site x). destruct (ex_ (x_site x)); cbn [negb andb]; [reflexivity|].
      unfold zx. assert (Hx' := Hx). unfold sector_stored in Hx'. rewrite Hx'. destruct (PL_sector _ _ Hp k x Hx) as [(H & Hu)|(H & Hu)]; unfold sector_on, sector_off in H; rewrite (Xid _ _ Hx) in H; rewrite H.
      * replace (existsb _ _) with true; [reflexivity|]. symmetry. apply existsb_exists. exists (k, x). split; [auto|]. cbn [fst snd]. rewrite beq_refl, H. reflexivity.
      * replace (existsb _ _) with false; [reflexivity|]. symmetry. destruct (existsb _ _) eqn:Ee; [|reflexivity]. exfalso. apply existsb_exists in Ee. destruct Ee as ((k' & x') & Hin' & Hb). cbn [fst snd] in Hb.
        apply andb_true_iff in Hb. destruct Hb as (Hb & Ho). apply beq_true in Hb. assert (Hx2 : sector_stored t k' x') by now apply In_dget.
        destruct (PL_sector _ _ Hp k' x' Hx2) as [(_ & Hu')|(Hoff & _)]; [rewrite Hb in Hu'; contradiction|]. unfold sector_off in Hoff. rewrite (Xid _ _ Hx2) in Hoff. rewrite Hoff in Ho. discriminate.
Qed.
Lemma q_nonneg k x : (forall i, 0 <= a_node_capex at_ i) -> sector_stored t k x -> 0 <= q_ (x_site x, k).
Proof.
  intros Hc Hx. assert (E := seccost_get k x Hx).
  assert (S := setup_fields ps at_ t I0 (proj1 (network_setup ps at_ t I0 HI))). destruct S as (thr & _ & _ & _ & _ & _ & _ & _ & _ & _ & _ & _ & _ & _ & _ & _ & _ & _ & _ & _ & _ & _ & _ & _ & Fcost & _).
  change (i_seccost I) with (i_seccost I0) in E. rewrite Fcost in E. apply dict_of_In in E. apply costs_cases in E. destruct E as [-> | ->]; [lra|apply Hc].
Qed.
Lemma plan_within_budget : g = CoverageUnderCost -> (forall ty, 0 <= p_capex ps ty) -> (forall i, 0 <= a_node_capex at_ i) -> o_cost o <= p_budget ps.
Proof.
  intros Eg Hc Hnc.
  set (zs := fun i => match dget (o_site o) i with Some z => inject_Z z | None => 0 end).
  set (zx := fun k => match dget (t_sectors t) k with Some x => match dget (o_sector o) (x_site x, k) with Some z => inject_Z z | None => 0 end | None => 0 end).
  assert (Wd : dwf (t_sites t)) by apply Hw. assert (Wx : dwf (t_sectors t)) by apply Hw.
  assert (Xid : forall k x, sector_stored t k x -> x_id x = k). { intros k x Hx. assert (W_ := Hw). destruct W_ as (_ & _ & _ & _ & _ & T). now destruct (proj2 (proj2 T) _ _ Hx). }
  assert (Cost : o_cost o == bill zs zx).
  { apply (PL_cost _ _ Hp zs zx).
    - intros i Hi. unfold zs. destruct (plan_binary i Hi) as [H|(H & _)]; unfold site_off, site_on in H; rewrite H; eauto.
    - intros k x Hx. unfold zx. assert (Hx' := Hx). unfold sector_stored in Hx'. rewrite Hx'. destruct (PL_sector _ _ Hp k x Hx) as [(H & _)|(H & _)]; unfold sector_on, sector_off in H; rewrite (Xid _ _ Hx) in H; rewrite H; eauto. }
  rewrite Cost. set (vs := fun i => v (VSite i)). set (vx := fun k => match dget (t_sectors t) k with Some x => v (VSite (x_site x)) | None => 0 end).
  apply Qle_trans with (bill vs vx).
  - unfold bill. destruct (decls_all ps at_ t I0 g adv P v Hw Hn HI HP Hv) as (B & _). apply Qplus_le_compat; apply total_le.
    + intros [i s] Hin. cbn [fst snd]. destruct (ex_ i); [lra|]. assert (Hs : site_stored t i) by (exists s; now apply In_dget).
      assert (Pr : 0 <= price (s_type s)). { unfold price. destruct (params_val ps at_ t I0 HI) as (_ & _ & _ & _ & _ & Q). fold I in Q. rewrite Q. apply Hc. }
      assert (L : zs i <= vs i). { unfold zs, vs. destruct (plan_binary i Hs) as [H|(H & Hsel)]; unfold site_off, site_on in H; rewrite H; [change (inject_Z 0) with 0; destruct (B i Hs) as [H1|H1]; rewrite H1; lra|change (inject_Z 1) with 1; unfold selected in Hsel; rewrite Hsel; lra]. }
      nra.
    + intros [k x] Hin. cbn [fst snd]. destruct (ex_ (x_site x)); [lra|]. assert (Hx : sector_stored t k x) by now apply In_dget. assert (Q0 := q_nonneg k x Hnc Hx).
      assert (Hs := sector_site_stored _ _ _ Hw Hx).
      assert (L : zx k <= vx k).
      { unfold zx, vx. assert (Hx' := Hx). unfold sector_stored in Hx'. rewrite Hx'. destruct (PL_sector _ _ Hp k x Hx) as [(H & (k' & l & Ho & Hu))|(H & _)]; unfold sector_on, sector_off in H; rewrite (Xid _ _ Hx) in H; rewrite H.
        - assert (Hon : site_on o (x_site x)). { destruct Hu as (a & b & w & _ & En & Hor). unfold node_of in En. injection En as En _. rewrite <- En. destruct Hor as [(_ & ->)|(_ & ->)]; eapply (PL_site _ _ Hp); eauto. }
          destruct (plan_binary _ Hs) as [H1|(_ & Hsel)]; [unfold site_off, site_on in *; congruence|]. unfold selected in Hsel. rewrite Hsel. change (inject_Z 1) with 1. lra.
        - change (inject_Z 0) with 0. destruct (B _ Hs) as [H1|H1]; rewrite H1; lra. }
      nra.
  - destruct (pieces I0 g adv P v HP Hv) as (V & ds & sk & tk & ok & c1 & c2 & c3 & c4 & c5 & c6 & c7 & c8 & c9 & c10 & c11 & cx &
    Esk & Etk & Eok & VS & VF & VT & VO & VSh & (sec & Esec & VSec) & Eds & Hds & _ & _ & _ & _ & _ & _ & _ & _ & _ & _ & _ & _ & _ & _ & _ & _ & _ & _ & _ & _ & _ & _ & Ex & Sx).
    rewrite Eg in Ex. unfold goal_constraint in Ex. fold I in Ex. unfold create_cost_constraint in Ex. inv_do. subst cx. assert (C : eval v x <= p_budget (i_params I)) by exact (Sx _ (or_introl eq_refl)).
    destruct (params_val ps at_ t I0 HI) as (_ & _ & _ & Q & _). fold I in Q. rewrite Q in C. refine (Qle_trans _ _ _ _ C). apply Qle_lteq. right. clear C Sx.
    unfold extract_cost in E. inv_do. subst x. rewrite eval_xsum.
    set (h := fun i => match site_cost I V i with Ok x => eval v x | Err _ => 0 end).
    assert (Eh : total (eval v) x0 == total h (i_locations I)).
    { rewrite (mapM_eq _ (fun i => match site_cost I V i with Ok x => x | Err _ => Cst 0 end) _ _ E0).
      - rewrite total_map. apply total_ext. intros i _. unfold h. destruct (site_cost I V i); reflexivity.
      - intros i y _ Ey. now rewrite Ey. }
    rewrite Eh. symmetry. apply bill_by_location.
    + intros i Hi Hno. destruct (mapM_In _ _ _ _ E0 Hi) as (y & Ey & _). unfold h. rewrite Ey. unfold site_cost in Ey. inv_do. apply (D_type _ _ _ _ _ D) in E. destruct E as [(_ & ->)|[(s & Es & _)|(_ & ->)]].
      * injection Ey as <-. reflexivity.
      * exfalso. apply Hno. exists s; assumption.
      * injection Ey as <-. reflexivity.
    + intros i s l Es El. assert (Hi : In i (i_locations I)) by (apply (site_location ps at_ t I0 Hw Hn HI); now exists s). destruct (mapM_In _ _ _ _ E0 Hi) as (y & Ey & _). unfold h. rewrite Ey. unfold site_cost in Ey.
      unfold get at 1 in Ey. rewrite (D_site _ _ _ _ _ D _ _ Es) in Ey. cbn [rbind] in Ey. unfold ex_. destruct (mem i (i_existing_sites I)); [injection Ey as <-; reflexivity|]. inv_do. subst y.
      cbn [eval]. assert (x = Var (VSite i)) by exact (site_get I0 i x V sk Esk VS E). subst x. cbn [eval]. apply Qplus_comp; [reflexivity|]. rewrite eval_xsum. assert (x1 = l) by congruence. subst x1.
      assert (T : forall a, In a l -> exists r, (do st <- get (i_sectype I) a ; if imaginary_sec st then Ok [] else do q <- get (i_seccost I) (i, a) ; Ok [Scale q (sector_sum I V i a)]) = Ok r /\ total (eval v) r == if real_sec a then q_ (i, a) * vx a else 0).
      { intros a Ha. destruct (D_sectype_tot _ _ _ _ _ D i l a El Ha) as (ty & Ety). unfold real_sec. unfold get at 1. rewrite Ety. cbn [rbind]. destruct (imaginary_sec ty) eqn:Im; [exists []; split; reflexivity|].
        destruct (D_sec_inv _ _ _ _ _ D i l a ty El Ha Ety Im) as (w & Hx & Hxs). assert (Sc := seccost_get _ _ Hx). rewrite Hxs in Sc. unfold get. rewrite Sc. cbn [rbind negb]. eexists. split; [reflexivity|].
        cbn [total eval]. unfold sector_sum. change (channels I) with [0%nat]. cbn [flat_map]. assert (Sg := sector_get ps at_ t I0 Hw Hn HI a w Hx V sec). rewrite Esk in Sg. specialize (Sg VS Esec). rewrite Hxs in Sg.
        rewrite VSec, Sg. cbn [app]. rewrite eval_xsum. cbn [total eval]. unfold vx. unfold sector_stored in Hx. rewrite Hx, Hxs. ring. }
      unfold concatM in E2. apply rbind_ok in E2. destruct E2 as (xs & Exs & E2). injection E2 as <-. clear - Exs T. revert xs Exs. induction l as [|a l IH]; intros r Er; cbn [mapM] in Er.
      * injection Er as <-. reflexivity.
      * destruct (T a (or_introl eq_refl)) as (ra & Era & Ta). rewrite Era in Er. cbn [rbind] in Er. apply rbind_ok in Er. destruct Er as (rs & Ers & Er). injection Er as <-.
        cbn [List.concat total]. rewrite total_app, Ta, (IH (fun b Hb => T b (or_intror Hb)) _ Ers). reflexivity.
Qed.
End Theorems.
End Extract.
