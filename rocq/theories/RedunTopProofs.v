(** Closing lemmas for C75. *)
From Coq Require Import QArith Lqa Lia Permutation.
From Verif Require Import Base Dict TopologyModel TopologySpec TopologyLemmas TopologyQueryProofs GraphSpec GraphProofs RfModel SetupModel PruneModel
  IlpModel IlpSpec QLib MonadLib SetupProofs IlpLemmas IlpProofs ExtractModel ExtractSpec ExtractProofs RedunModel RedunSpec FlowCut RedunProofs RedunReadProofs RedunMainProofs RedunKeepProofs RedunSolveProofs.
Local Open Scope Q_scope.

Theorem levels_hold ps at_ t cs only R lvl sh P v o gone down d : well_formed t -> names_ok at_ t -> sectors_present t ->
  level_caps lvl (active_pops t) = Some cs -> redundant_network ps at_ t cs only = Ok R ->
  skeleton R (Some sh) = Ok P -> rfeasible P v -> extract_redundancy R sh v = Ok o ->
  protected t d -> dget sh d = Some 0 -> promised lvl t gone down -> ~ In d gone -> served t o gone down d.
Proof.
  intros Hw Hn SP HL HR HP Hv Ho Hd Hs Hp Hg. destruct (level_weight lvl t cs gone down Hw HL Hp) as (P1 & P2 & P3).
  apply (withstands ps at_ t cs only R Hw Hn SP HR sh P v o HP Hv Ho gone down d 0); auto. lra.
Qed.

Theorem readable ps at_ t cs only R sh v : well_formed t -> names_ok at_ t -> redundant_network ps at_ t cs only = Ok R ->
  exists o, extract_redundancy R sh v = Ok o /\ n_short o = sh /\
    (forall i, site_stored t i -> r_on o i \/ r_off o i) /\
    (forall k x, sector_stored t k x -> dget (n_sector o) (x_site x, k) = dget (n_site o) (x_site x)).
Proof.
  intros Hw Hn HR. destruct (reading_ok ps at_ t cs only R Hw Hn HR sh v) as (o & Eo & Ro). exists o. split; [exact Eo|].
  split; [exact (RD_short _ _ _ _ _ _ _ Ro)|]. split; [exact (RD_bin _ _ _ _ _ _ _ Ro)|exact (RD_sector _ _ _ _ _ _ _ Ro)].
Qed.

Theorem link_needs ps at_ t cs only R sh v o k l : well_formed t -> names_ok at_ t -> redundant_network ps at_ t cs only = Ok R ->
  extract_redundancy R sh v = Ok o -> link_stored t k l ->
  dget (n_link o) (l_tx l, l_rx l) = Some 0%Z \/
  (r_link_on o l /\ r_on o (l_tx l) /\ r_on o (l_rx l) /\ 0 < a_cap at_ (l_tx l, l_rx l) /\ l_status l <> UNAVAILABLE /\ l_status l <> UNREACHABLE /\
   (l_wireless l = true -> exists a b x y, l_sectors l = Some (a, b) /\ sector_stored t (key_id a) x /\ x_site x = l_tx l /\ sector_stored t (key_id b) y /\ x_site y = l_rx l)).
Proof.
  intros Hw Hn HR Ho El. assert (Ro := reading_of ps at_ t cs only R Hw Hn HR sh v o Ho). assert (D := desc_R ps at_ t cs only R Hw Hn HR).
  destruct (RD_link _ _ _ _ _ _ _ Ro k l El) as (z & Ez & [-> | ->] & Hz); [left; exact Ez|right]. destruct (proj1 Hz eq_refl) as (A & B & C & E & _ & G).
  split; [exact Ez|]. split; [exact C|]. split; [exact E|]. split; [exact B|].
  split; [|split; [|exact G]]; intros St; apply A; apply (D_il _ _ _ _ _ D k l El); auto.
Qed.

Theorem construction ps at_ t cs only I : well_formed t -> names_ok at_ t -> network ps at_ t = Ok I ->
  ((forall d, protected t d -> usable_end at_ t only d) /\ (exists R, redundant_network ps at_ t cs only = Ok R)) \/
  ((exists d, protected t d /\ ~ usable_end at_ t only d) /\ redundant_network ps at_ t cs only = Err OptExn).
Proof.
  intros Hw Hn HI. assert (Hs := network_setup _ _ _ _ HI). assert (D : describes ps at_ t (a_cap at_) I) by (eapply setup_describes; eauto).
  unfold redundant_network. rewrite HI. cbn [rbind].
  assert (Ty : forall loc, In loc (i_locations I) -> exists ty, dget (i_type I) loc = Some ty).
  { intros loc H. apply (D_locs _ _ _ _ _ D) in H. destruct H as [->|[(s & Es)|Hc]]; [rewrite (D_super _ _ _ _ _ D)|rewrite (D_site _ _ _ _ _ D _ _ Es)|rewrite (D_cons _ _ _ _ _ D _ Hc)]; eauto. }
  destruct (filterM_total' (fun loc => do ty <- get (i_type I) loc ; Ok (active_site I loc && beq ty (Real DN))) (i_locations I)) as (dns & Edns).
  { intros loc H. destruct (Ty loc H) as (ty & Et). unfold get. rewrite Et. cbn. eauto. }
  rewrite Edns. cbn [rbind].
  assert (Ends : forall e, In e (i_links I) -> In (fst e) (i_locations I) /\ In (snd e) (i_locations I)).
  { intros e He. apply (D_links _ _ _ _ _ D) in He. rewrite !(D_locs _ _ _ _ _ D). destruct He as [(Es & Hp)|[(i & d & Ed & Hi & Hc)|(k & l & El & ->)]].
    - split; [auto|]. right. left. destruct Hp as (s & Es' & _). now exists s.
    - split; [right; left|right; right; exists i, d; auto]. assert (N := Hn). destruct N as (_ & _ & _ & _ & N5). eapply N5; eauto.
    - cbn. destruct (link_sites t Hw _ _ El). auto. }
  assert (Cap : forall e, In e (i_links I) -> exists c, dget (i_cap I) e = Some c) by (intros e He; apply In_dkeys; exact He).
  destruct (filterM_total' (restricted I only) (i_links I)) as (ls & Els).
  { intros e He. unfold restricted. destruct (Cap e He) as (c & Ec). unfold get at 1. rewrite Ec. cbn [rbind]. destruct (Qle_bool c 0); [eauto|]. destruct (Ends e He) as (L1 & L2). destruct (Ty _ L1) as (t1 & T1). destruct (Ty _ L2) as (t2 & T2).
    unfold get. rewrite T1, T2. cbn. eauto. }
  rewrite Els. cbn [rbind]. destruct (filterM_ok _ _ _ Edns) as (_ & Fd & _). destruct (filterM_ok _ _ _ Els) as (_ & Fl & _).
  assert (Hd : forall d, In d dns <-> protected t d).
  { intros d. rewrite Fd. unfold protected, is_dn, active_now, in_service. split.
    - intros (_ & H). inv_do. apply andb_true_iff in H. destruct H as (Ha & Hb). apply beq_true in Hb. subst.
      destruct (D_type _ _ _ _ _ D _ _ E) as [(_ & ?)|[(s & Es & ET)|(_ & ?)]]; try discriminate. injection ET as ET. split; [exists s; auto|].
      unfold active_site in Ha. rewrite orb_true_iff, !mem_In, (D_ps _ _ _ _ _ D), (D_es _ _ _ _ _ D) in Ha. destruct Ha as [(s' & Es' & St)|(s' & Es' & St)]; exists s'; auto.
    - intros ((s & Es & ET) & (s' & Es' & St)). split; [apply (D_locs _ _ _ _ _ D); right; left; now exists s|]. unfold get. rewrite (D_site _ _ _ _ _ D _ _ Es), ET. cbn [rbind].
      assert (Ha : active_site I d = true) by (unfold active_site; rewrite orb_true_iff, !mem_In, (D_ps _ _ _ _ _ D), (D_es _ _ _ _ _ D); destruct St; [left|right]; exists s'; auto). rewrite Ha. reflexivity. }
  assert (Hu : forall d, protected t d -> (In d (flat_map (fun e => [fst e; snd e]) ls) <-> usable_end at_ t only d)).
  { intros d Hp. rewrite in_flat_map. split.
    - intros (e & He & Hi). apply Fl in He. destruct He as (He & Hr). unfold restricted in Hr. inv_do. destruct (Qle_bool x 0) eqn:Ec; [discriminate|]. inv_do.
      apply andb_true_iff in Hr. destruct Hr as (Hr & Ho). apply andb_true_iff in Hr. destruct Hr as (T1 & T2). assert (He' := He).
      apply (D_links _ _ _ _ _ D) in He'. destruct He' as [(Esup & Hpop)|[(i & dm & Ed & Hi' & Hc)|(k & l & El & ->)]].
      + exfalso. destruct Hp as ((s & Es & Td) & _). cbn in Hi. destruct Hi as [<-|[<-|[]]]; [apply (proj1 Hn); rewrite <- Esup; now exists s|]. destruct Hpop as (s' & Es' & Tp). congruence.
      + rewrite (D_cons _ _ _ _ _ D (snd e)) in E1 by (exists i, dm; auto). injection E1 as <-. discriminate.
      + exists k, l. cbn [fst snd] in *. rewrite (D_cap _ _ _ _ _ D _ _ El) in E. injection E as <-. apply qle_false in Ec. destruct (link_sites t Hw _ _ El) as (S1 & S2).
        assert (B : forall i ty, site_stored t i -> dget (i_type I) i = Some ty -> super_dist ty = true -> backhaul_site t i).
        { intros i ty (s & Es) Ht Hsd. rewrite (D_site _ _ _ _ _ D _ _ Es) in Ht. injection Ht as <-. exists s. split; [auto|]. cbn in Hsd. destruct (s_type s); [discriminate| |]; auto. }
        split; [auto|]. split; [destruct Hi as [H|[H|[]]]; auto|]. split; [eapply B; eauto|]. split; [eapply B; eauto|]. split; [exact Ec|]. unfold allowed_link. destruct only as [es|]; [|auto].
        assert (N1 : beq (l_tx l) SUPERSOURCE = false) by (apply beq_neq; intros E'; apply (proj1 Hn); now rewrite <- E'). assert (N2 : beq (l_rx l) SUPERSOURCE = false) by (apply beq_neq; intros E'; apply (proj1 Hn); now rewrite <- E').
        rewrite N1, N2 in Ho. cbn in Ho. now apply mem_In.
    - intros (k & l & El & Hi & B1 & B2 & Hc & Ha). exists (l_tx l, l_rx l). split; [|cbn; tauto]. apply Fl. split; [apply (D_links _ _ _ _ _ D); right; right; exists k, l; auto|].
      unfold restricted, get. rewrite (D_cap _ _ _ _ _ D _ _ El). cbn [rbind]. apply qle_false in Hc. rewrite Hc. cbn [fst snd]. destruct B1 as (s1 & Es1 & Ty1). destruct B2 as (s2 & Es2 & Ty2).
      rewrite (D_site _ _ _ _ _ D _ _ Es1), (D_site _ _ _ _ _ D _ _ Es2). cbn [rbind super_dist].
      assert (Db : dist (Real (s_type s1)) && dist (Real (s_type s2)) = true) by (destruct Ty1 as [-> | ->], Ty2 as [-> | ->]; reflexivity). rewrite Db. cbn [andb].
      unfold allowed_link in Ha. destruct only as [es|]; [|reflexivity]. apply mem_In in Ha. rewrite Ha. now rewrite !orb_true_r. }
  destruct (forallb (fun d => mem d (flat_map (fun e => [fst e; snd e]) ls)) dns) eqn:Eg.
  - left. rewrite forallb_forall in Eg. split; [|cbn; eauto]. intros d Hp. apply Hu; [exact Hp|]. apply mem_In, Eg, Hd, Hp.
  - right. split; [|reflexivity]. assert (exists d, In d dns /\ mem d (flat_map (fun e => [fst e; snd e]) ls) = false) as (d & H1 & H2).
    { clear - Eg. induction dns as [|x l IH]; [discriminate|]. cbn [forallb] in Eg. apply andb_false_iff in Eg. destruct Eg as [E|E]; [exists x; split; [now left|auto]|]. destruct (IH E) as (d & ? & ?). exists d. split; [now right|auto]. }
    exists d. apply Hd in H1. split; [exact H1|]. apply mem_not_In in H2. rewrite <- Hu by exact H1. exact H2.
Qed.
