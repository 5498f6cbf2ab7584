(** The topology with the new POPs, and when the call returns. *)
From Coq Require Import ZArith QArith.
From Verif Require Import Base Dict TopologyModel TopologySpec StatusModel SetupModel ExtractModel ExtractProofs MonadLib GraphSpec PopModel DupModel DupSpec DupProofs DupLinkProofs.
From Verif Require TopologyProofs TopologyLemmas GraphProofs DemandModel DemandSpec DemandFinalProofs.
Local Open Scope list_scope.

Lemma dget_map_kv {V W} (f : string * V -> W) (d : dict string V) k : dget (map (fun p => (fst p, f p)) d) k = option_map (fun v => f (k, v)) (dget d k).
Proof. induction d as [|(k1 & v1) d IH]; cbn; [reflexivity|]. destruct (beq k k1) eqn:E; [|exact IH]. apply beq_true in E. now subst. Qed.
Lemma dkeys_map_kv {V W} (f : string * V -> W) (d : dict string V) : dkeys (map (fun p => (fst p, f p)) d) = dkeys d.
Proof. unfold dkeys. rewrite map_map. reflexivity. Qed.
Lemma foldM_prefix_total {A S} (f : S -> A -> result S) (P : list A -> S -> Prop) l : forall pre s,
  (forall done x rest s, pre ++ l = done ++ x :: rest -> P done s -> exists s', f s x = Ok s' /\ P (done ++ [x]) s') -> P pre s -> exists s', foldM f l s = Ok s'.
Proof.
  induction l as [|x l IH]; intros pre s H0 HP; cbn [foldM]; [eauto|].
  destruct (H0 pre x l s eq_refl HP) as (s1 & E1 & P1). rewrite E1. cbn [rbind]. apply (IH (pre ++ [x]) s1); [|exact P1]. rewrite <- app_assoc. exact H0.
Qed.

Section Main.
Variable pop_id : string -> string.
Hypothesis dashless : forall i, no_dash (pop_id i).
Variable t0 : topo.
Hypothesis Hr : reachable t0.
Variable dec : dict string Z.
Let chosen := chosen t0 dec.

Section Links.
Variable t1 : topo.
Variable new : dict string site.
Variable X : dict string seckey.
Hypothesis Hs : site_inv pop_id t0 dec (dkeys (t_sites t0)) (t1, new, X).

Definition copies (w : string -> bool) (ds : list string) (l : link) : Prop :=
  exists d sd, In d ds /\ chosen d sd /\ ((exists l0, out_link t0 d l0 /\ copy_of_out pop_id t0 d l0 l) \/ exists l0, in_link t0 d l0 /\ copy_of_in pop_id d (w d) l0 l).
Definition all_state (done : list (string * site)) (st : topo * option link) : Prop := exists w,
  holds t0 t1 (copies w (map fst done)) (fst st) /\ (forall l1, snd st = Some l1 -> exists e se, chosen e se /\ out_link t0 e l1) /\
  (forall d sd l0, In d (map fst done) -> chosen d sd -> in_link t0 d l0 -> l_sectors l0 <> None -> exists e se l1, chosen e se /\ out_link t0 e l1 /\ w d = l_wireless l1).
Lemma copies_elsewhere w ds d sd l : chosen d sd -> ~ In d ds -> copies w ds l -> l_tx l <> pop_id d /\ l_rx l <> pop_id d.
Proof using Hs.
  intros C Nd (e & se & He & Ce & H). assert (Ne : pop_id e <> pop_id d) by (intros Eq; apply (s_apart _ _ _ _ _ _ Hs _ _ _ _ Ce C) in Eq; congruence).
  pose proof (s_fresh _ _ _ _ _ _ Hs _ _ C) as Fr.
  destruct H as [(l0 & (_ & _ & n & En & _) & a & b & n' & _ & _ & ->)|(l0 & (_ & _ & n & En & _) & a & b & _ & ->)]; cbn; (split; [|]); try exact Ne; intros Eq; rewrite Eq in En; congruence.
Qed.
Lemma all_step done x rest st st' : new = done ++ x :: rest -> all_state done st -> copy_links X st x = Ok st' -> all_state (done ++ [x]) st'.
Proof using Hr Hs.
  destruct x as (d, s), st as (t, tx). intros En (w & Hh & Ht & Hw) E.
  assert (Wn : dwf new) by apply Hs. assert (Ed : dget new d = Some s) by (apply (In_dget _ _ _ Wn); rewrite En; apply in_or_app; right; now left).
  apply (s_new _ _ _ _ _ _ Hs) in Ed. destruct Ed as (sd & C & ->).
  assert (Nd : ~ In d (map fst done)). { intros H. unfold dwf, dkeys in Wn. rewrite En, map_app in Wn. cbn in Wn. apply NoDup_remove_2 in Wn. apply Wn, in_or_app. now left. }
  destruct (copy_links_one _ _ Hr _ _ _ _ Hs _ _ C _ _ _ _ (fun l => copies_elsewhere w _ d sd l C Nd) Hh E) as (w1 & Hh' & T' & W' & B').
  exists (fun x => if beq x d then w1 else w x). rewrite map_app. cbn [map fst snd] in *. split; [|split].
  - apply (holds_ext _ _ _ _ _) with (2 := Hh'). intros l. split.
    + intros [(e & se & He & Ce & H)|H].
      * exists e, se. split; [apply in_or_app; now left|]. split; [exact Ce|]. destruct (beq e d) eqn:Ee; [apply beq_true in Ee; congruence|exact H].
      * exists d, sd. split; [apply in_or_app; right; now left|]. split; [exact C|]. now rewrite beq_refl.
    + intros (e & se & He & Ce & H). apply in_app_or in He. destruct He as [He|[<-|[]]].
      * left. exists e, se. split; [exact He|]. split; [exact Ce|]. destruct (beq e d) eqn:Ee; [apply beq_true in Ee; congruence|exact H].
      * right. now rewrite beq_refl in H.
  - intros l1 E1. destruct T' as [T'|(l0 & T' & Ol)]; [apply Ht; congruence|]. rewrite T' in E1. injection E1 as <-. eauto.
  - intros e se l0 He Ce Hi Ns. apply in_app_or in He. destruct He as [He|[<-|[]]].
    + destruct (beq e d) eqn:Ee; [apply beq_true in Ee; congruence|]. now apply (Hw e se l0).
    + rewrite beq_refl. destruct (snd st') as [l1|] eqn:E1; [|exfalso; apply B'; eauto]. rewrite (W' l1 eq_refl).
      destruct T' as [T'|(l2 & T' & Ol)]; [symmetry in T'; destruct (Ht _ T') as (f & sf & Cf & Of); eauto 6|]. injection T' as ->. eauto 6.
Qed.
Lemma all_start : all_state [] (t1, None).
Proof using Hs.
  exists (fun _ => true). split; [|split; [discriminate|intros d sd l0 []]]. cbn. split; [apply Hs|]. split; [reflexivity|]. split; [reflexivity|]. destruct (s_links0 _ _ _ _ _ _ Hs) as (L & D). split; [exact D|].
  split; [|intros l (d & sd & [] & _)]. intros k l. rewrite L. split; [auto|]. intros [H|(_ & d & sd & [] & _)]. exact H.
Qed.
Lemma all_ok st : foldM (copy_links X) new (t1, None) = Ok st -> all_state new st.
Proof using Hr Hs.
  intros E. apply (foldM_prefix _ all_state new [] _ _) with (3 := E); [|exact all_start]. intros done x rest s s' En. cbn [app] in En. now apply (all_step done x rest).
Qed.
Lemma new_all d sd : chosen d sd -> In d (map fst new).
Proof using Hs. intros C. apply (In_dkeys new). exists (pop_for pop_id sd). apply (s_new _ _ _ _ _ _ Hs). eauto. Qed.
Definition pairs : dict string (list string) := map (fun p => (fst p, [s_id (snd p)])) new.
Lemma pairs_get d l : dget pairs d = Some l <-> exists sd, chosen d sd /\ l = [pop_id d].
Proof using Hs Hr.
  unfold pairs. rewrite (dget_map_kv (fun p => [s_id (snd p)])). destruct (dget new d) as [s|] eqn:E; cbn.
  - apply (s_new _ _ _ _ _ _ Hs) in E. destruct E as (sd & C & ->). cbn. rewrite (chosen_id _ Hr _ _ _ C). split; [intros H; injection H as <-; eauto|]. intros (sd' & _ & ->). reflexivity.
  - split; [discriminate|]. intros (sd & C & _). assert (Y : dget new d = Some (pop_for pop_id sd)) by (apply (s_new _ _ _ _ _ _ Hs); eauto). congruence.
Qed.
End Links.

Lemma dup_exact t' : add_duplicate_pops pop_id t0 dec = Ok t' -> well_formed t' /\ exists w, duplicated pop_id t0 dec w t' /\ kind_taken t0 dec w.
Proof using Hr dashless.
  intros E. unfold add_duplicate_pops in E. apply rbind_ok in E. destruct E as (((t1 & new) & X) & E1 & E). apply rbind_ok in E. destruct E as (st & E2 & E3).
  pose proof (copy_sites_ok _ dashless _ Hr _ _ E1) as Hs. destruct (all_ok _ _ _ Hs _ E2) as (w & (R & A1 & A2 & A3 & A4 & A5) & _ & Hw).
  unfold connect_demands in E3. apply rbind_ok in E3. destruct E3 as (D & ED & E3). fold (pairs new) in ED. injection E3 as <-. rewrite A3 in *.
  pose proof (TopologyProofs.inv_reachable _ Hr) as HI. pose proof (GraphProofs.wf_reachable _ R) as (W1 & W2 & W3 & W4 & W5 & W6).
  assert (WD : dwf (map (fun p : string * demand => (fst p, as_dsite (snd p))) (t_demands t0))) by (unfold dwf; rewrite (dkeys_map_kv (fun p => as_dsite (snd p))); apply HI).
  pose proof (DemandFinalProofs.colocated_main _ _ _ _ WD ED) as (KD & HD). split.
  { split; [exact W1|]. split; [exact W2|]. split; [exact W3|]. split; [|split; [exact W5|exact W6]]. cbn. unfold dwf. rewrite (dkeys_map_kv (fun p => mkDemand _ _)). apply HI. }
  exists w. split.
  - constructor; cbn [set_demands t_sites t_demands].
    + intros d s C. exact (s_fresh _ _ _ _ _ _ Hs _ _ C).
    + intros d e sd se C1 C2. exact (s_apart _ _ _ _ _ _ Hs _ _ _ _ C1 C2).
    + intros i s. rewrite A1. apply (s_sites _ _ _ _ _ _ Hs).
    + intros k x. unfold sector_stored at 1. cbn. rewrite A2. apply (s_sectors _ _ Hr _ _ _ _ Hs).
    + intros k l. unfold link_stored at 1. cbn. rewrite A4. split; (intros [H|(Ei & d & sd & H)]; [auto|right; split; [exact Ei|]; exists d, sd]); [tauto|]. destruct H as (C & H). split; [now apply (new_all _ _ _ Hs d sd)|auto].
    + apply (dkeys_map_kv (fun p => mkDemand _ _)).
    + intros k d d' Ed Ed'. rewrite (dget_map_kv (fun p => mkDemand (d_id (snd p)) _)) in Ed'. rewrite Ed in Ed'. cbn in Ed'. injection Ed' as <-. cbn [d_id d_sites]. split; [reflexivity|].
      assert (Eq : dget (map (fun p : string * demand => (fst p, as_dsite (snd p))) (t_demands t0)) k = Some (as_dsite d)) by (rewrite (dget_map_kv (fun p => as_dsite (snd p))), Ed; reflexivity).
      destruct (dget D k) as [q|] eqn:EDk.
      2:{ exfalso. assert (Y : In k (dkeys D)) by (rewrite KD; apply In_dkeys; eauto). apply In_dkeys in Y. destruct Y as (q & Y). congruence. }
      destruct (HD _ _ _ Eq EDk) as (_ & _ & _ & _ & HE & HN & HC). cbn [as_dsite DemandModel.q_sites] in *. split; [exact HE|]. split; [exact HN|].
      intros i. rewrite HC. split.
      * intros Cl. induction Cl as [i Hi|i j Cl IH (l & El & Hj)]; [auto|]. apply (pairs_get _ _ _ Hs) in El. destruct El as (sj & C & ->). destruct Hj as [<-|[]].
        destruct IH as [IH|(e & se & Ce & _ & ->)]; [right; exists i, sj; auto|]. exfalso. pose proof (s_fresh _ _ _ _ _ _ Hs _ _ Ce) as Fr. destruct C as (Ei & _). congruence.
      * intros [H|(j & sj & C & Hj & ->)]; [now constructor|]. apply DemandSpec.closure_step with j; [now constructor|]. exists [pop_id j]. split; [apply (pairs_get _ _ _ Hs); eauto|now left].
  - intros d sd l0 C Hi Ns. apply (Hw d sd l0); auto. now apply (new_all _ _ _ Hs d sd).
Qed.

(** with nothing but wireless links, the copies are faithful *)
Lemma dup_wireless t' : add_duplicate_pops pop_id t0 dec = Ok t' -> (forall k l, link_stored t0 k l -> l_wireless l = true) -> duplicated pop_id t0 dec (fun _ => true) t'.
Proof using Hr dashless.
  intros E Hw. destruct (dup_exact _ E) as (_ & w & [D1 D2 D3 D4 D5 D6 D7] & K). constructor; try assumption. intros k l. rewrite D5. split; (intros [H|(Ei & d & sd & C & [H|(l0 & Hi & a & b & Es & El)])]; [auto|right; split; [exact Ei|]; exists d, sd; auto|]);
    right; (split; [exact Ei|]); exists d, sd; (split; [exact C|]); right; exists l0; (split; [exact Hi|]); exists a, b; (split; [exact Es|]);
    destruct (K d sd l0 C Hi ltac:(congruence)) as (e & se & l1 & _ & ((k1 & E1) & _) & Ew); rewrite (Hw _ _ E1) in Ew; congruence.
Qed.
End Main.
