(** Instances for C74. *)
From Coq Require Import QArith Qabs Permutation Lqa.
From Verif Require Import Base QLib TopologyModel SecLinkSpec SecPlaceModel SecPlaceSpec SiteSecModel SiteSecSpec SiteSecProofs SiteSecGeoProofs SiteSecFanProofs SiteSecMainProofs.
Local Open Scope Q_scope.
Local Open Scope string_scope.
Local Open Scope list_scope.

(** a node of four sectors with north between the first two of them *)
Definition north_nbs : list neighbor := [mkNb 2 1 true].
Definition north_node : list Q := [1368 # 4; 8 # 4; 88 # 4; 168 # 4].
Lemma north_wf : wf_site north_nbs 1 4 20 None.
Proof. constructor; try (intros x [<-|[]]; cbn; unfold direction; lra); try discriminate; try lia; try reflexivity; try exact Logic.I. Qed.
Lemma north_placed : find_best_sectors north_nbs 1 4 20 None None None (fun _ _ => false) None = Ok [north_node].
Proof. vm_compute. reflexivity. Qed.
Lemma north_fan : fan 12 20 4 north_node.
Proof.
  split; [reflexivity|]. intros [|[|[|[|i]]]] s H; cbn in H; try (destruct i; discriminate); injection H as <-; (split; [unfold direction; split; [discriminate|reflexivity]|]).
  - exists 1%Z. reflexivity.
  - exists 0%Z. reflexivity.
  - exists 0%Z. reflexivity.
  - exists 0%Z. reflexivity.
Qed.
Lemma fan_centre c c' h n f : fan c h n f -> fan c' h n f -> f <> [] -> exists z, c' == c + 360 * inject_Z z.
Proof.
  intros [_ F] [_ G] N. destruct f as [|a t]; [congruence|]. destruct (F 0%nat a eq_refl) as [_ [z E]], (G 0%nat a eq_refl) as [_ [z' E']].
  exists (z - z')%Z. unfold Zminus. rewrite inject_Z_plus, inject_Z_opp. rewrite E in E'. lra.
Qed.
Lemma near_of mean h n f c : fan c h n f -> f <> [] -> 0 < h -> (forall l, Permutation l f -> direction (mean l) /\ mean l == c) -> mean_near mean h n f.
Proof.
  intros F N Hh H l P. destruct (H l P) as [D E]. split; [exact D|]. intros c' F'. destruct (fan_centre c c' h n f F F' N) as [z Ez]. exists (- z)%Z. rewrite E, Ez, inject_Z_opp.
  setoid_replace (c - (c + 360 * inject_Z z) - 360 * - inject_Z z) with 0 by ring. cbn. assert (h / 2 * 2 == h) by field. lra.
Qed.
Lemma north_refused mean site : mean_near mean 20 4 north_node -> validate_site_sectors 1 4 20 mean (make_sectors site [north_node]) = Err OptExn.
Proof.
  intros M. destruct (validate_or 1 4 20 mean (make_sectors site [north_node])) as [E|E]; [|exact E]. exfalso. apply validate_iff in E as [E|E]; [discriminate|].
  destruct E as (_ & _ & _ & E). specialize (E _ (or_introl eq_refl)). destruct E as (_ & E & _). specialize (E ltac:(lia)).
  change (azimuths (make_sectors site [north_node]) _) with north_node in E.
  destruct (M north_node (Permutation_refl _)) as [[M1 M2] K]. destruct (K 12 north_fan) as [z Ez]. change (20 / 2) with (20 # 2) in Ez. apply Qabs_Qlt_condition in Ez as [Z1 Z2].
  unfold arrange in E. cbv zeta in E. remember (mean north_node) as m eqn:Em. clear Em K M.
  assert (Zm : 2 < m /\ m < 22) by (destruct (zcases z) as [Hz|[Hz|Hz]]; lra). clear Z1 Z2 z M1 M2. destruct Zm as [Z1 Z2].
  assert (B0 : before m (1368 # 4) = true) by (unfold before; apply orb_true_iff; right; apply qless_true; lra).
  assert (B1 : before m (8 # 4) = true) by (unfold before; apply orb_true_iff; left; apply andb_true_iff; rewrite qle_true, qless_true; lra).
  assert (B2 : after m (88 # 4) = true) by (unfold after; apply orb_true_iff; left; apply andb_true_iff; rewrite qle_true, qless_true; lra).
  assert (B3 : after m (168 # 4) = true) by (unfold after; apply orb_true_iff; left; apply andb_true_iff; rewrite qle_true, qless_true; lra).
  assert (A0 : after m (1368 # 4) = false) by now rewrite after_not_before, B0.
  assert (A1 : after m (8 # 4) = false) by now rewrite after_not_before, B1.
  assert (A2 : before m (88 # 4) = false) by (rewrite after_not_before in B2; now apply negb_true_iff in B2).
  assert (A3 : before m (168 # 4) = false) by (rewrite after_not_before in B3; now apply negb_true_iff in B3).
  unfold north_node in E. cbn [filter] in E. rewrite B0, B1, B2, B3, A0, A1, A2, A3 in E. vm_compute in E. discriminate.
Qed.
Lemma saved_plan_refused : exists nbs k nspn hsr sectors, wf_site nbs k nspn hsr None /\ hsr * qnat nspn <= 359 /\
  find_best_sectors nbs k nspn hsr None None None (fun _ _ => false) None = Ok sectors /\
  (exists mean, forall f, In f sectors -> mean_near mean hsr nspn f) /\
  forall mean site, (forall f, In f sectors -> mean_near mean hsr nspn f) -> validate_site_sectors k nspn hsr mean (make_sectors site sectors) = Err OptExn.
Proof.
  exists north_nbs, 1%nat, 4%nat, 20, [north_node]. split; [exact north_wf|]. split; [discriminate|]. split; [exact north_placed|]. split.
  - exists (fun _ => 12). intros f [<-|[]]. apply (near_of _ _ _ _ 12 north_fan); [discriminate|reflexivity|]. intros l _. split; [unfold direction; lra|reflexivity].
  - intros mean site H. apply north_refused. apply H. now left.
Qed.

(** two nodes of two sectors, one around north *)
Definition good_nbs : list neighbor := [mkNb 351 1 true; mkNb 51 1 true; mkNb 201 1 false].
Definition good_nodes : list (list Q) := [[1404 # 4; 204 # 4]; [564 # 4; 804 # 4]].
Definition good_mean (l : list Q) : Q := if existsb (Qeq_bool 51) l then 21 else 171.
Lemma existsb_perm {A} (g : A -> bool) l l' : Permutation l l' -> existsb g l = existsb g l'.
Proof. induction 1 as [|x l l' P IH|x y l|l1 l2 l3 P1 IH1 P2 IH2]; cbn; [reflexivity|now rewrite IH| |congruence]. destruct (g x), (g y); reflexivity. Qed.
Example C74_instance : wf_site good_nbs 2 2 60 None /\ 60 * qnat 2 <= 359 /\
  find_best_sectors good_nbs 2 2 60 None None None (fun _ _ => false) None = Ok good_nodes /\ forall f, In f good_nodes -> mean_near good_mean 60 2 f.
Proof.
  split; [constructor; try (intros x [<-|[<-|[<-|[]]]]; cbn; unfold direction; lra); try discriminate; try lia; try reflexivity; try exact Logic.I|]. split; [discriminate|]. split; [vm_compute; reflexivity|].
  intros f [<-|[<-|[]]].
  - apply (near_of _ _ _ _ 21).
    + split; [reflexivity|]. intros [|[|i]] s H; cbn in H; try (destruct i; discriminate); injection H as <-; (split; [unfold direction; split; [discriminate|reflexivity]|]); [exists 1%Z|exists 0%Z]; reflexivity.
    + discriminate.
    + reflexivity.
    + intros l P. unfold good_mean. rewrite (existsb_perm _ _ _ P). cbn. unfold direction. lra.
  - apply (near_of _ _ _ _ 171).
    + split; [reflexivity|]. intros [|[|i]] s H; cbn in H; try (destruct i; discriminate); injection H as <-; (split; [unfold direction; split; [discriminate|reflexivity]|]); exists 0%Z; reflexivity.
    + discriminate.
    + reflexivity.
    + intros l P. unfold good_mean. rewrite (existsb_perm _ _ _ P). cbn. unfold direction. lra.
Qed.
Example C74_accepted_instance : validate_site_sectors 2 2 60 good_mean (make_sectors "S" good_nodes) = Ok tt /\
  validate_site_sectors 1 2 60 good_mean (make_sectors "S" good_nodes) = Err OptExn.
Proof. vm_compute. split; reflexivity. Qed.
Example C74_single_instance : validate_site_sectors 2 1 70 good_mean [mkVs "S" 0 0 10; mkVs "S" 1 0 300] = Ok tt /\
  validate_site_sectors 2 1 70 good_mean [mkVs "S" 0 0 10; mkVs "S" 1 0 301] = Err OptExn.
Proof. vm_compute. split; reflexivity. Qed.
