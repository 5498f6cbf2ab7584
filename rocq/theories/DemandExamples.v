(** Concrete cases meeting the hypotheses of the demand theorems, and the witnesses of the refutations. *)
From Coq Require Import QArith ZArith Lia.
From Verif Require Import Base Dict QLib TopologyModel SetupModel DemandModel DemandSpec DemandMainProofs DemandFinalProofs.
Local Open Scope string_scope. Local Open Scope list_scope.

(** an injective id *)
Fixpoint enc (p : positive) : string := match p with xH => "E" | xO p => String "0" (enc p) | xI p => String "1" (enc p) end.
Definition zid (z : Z) : string := match z with Z0 => "Z" | Zpos p => String "P" (enc p) | Zneg p => String "N" (enc p) end.
Definition pid (a b : Z) : string := (zid a ++ zid b)%string.
Lemma enc_app p : forall q s s', (enc p ++ s)%string = (enc q ++ s')%string -> p = q /\ s = s'.
Proof.
  induction p as [p IH|p IH|]; intros [q|q|] s s' E; cbn in E; try discriminate; injection E as E; try (destruct (IH _ _ _ E); subst; auto). auto.
Qed.
Lemma zid_app a b s s' : (zid a ++ s)%string = (zid b ++ s')%string -> a = b /\ s = s'.
Proof. destruct a, b; cbn; intros E; try discriminate; injection E as E; try (apply enc_app in E; destruct E; subst); auto. Qed.
Lemma str_nil s : (s ++ "")%string = s.
Proof. induction s as [|c s IH]; [reflexivity|]. cbn. now rewrite IH. Qed.
Lemma pid_inj a b a' b' : pid a b = pid a' b' -> a = a' /\ b = b'.
Proof. unfold pid. intros E. apply zid_app in E. destruct E as [-> E]. rewrite <- (str_nil (zid b)), <- (str_nil (zid b')) in E. apply zid_app in E. tauto. Qed.

(** units of a tenth of a degree; distance: the larger coordinate difference *)
Definition box (slon slat lon lat : Z) : Q := inject_Z (Z.max (Z.abs (slon - lon)) (Z.abs (slat - lat))).
Definition step (_ _ : Z) (q : Q) : Z * Z := (Qnum q, Qnum q).
Definition subs (i : string) : nat := if beq i "c2" then 3 else 1.
Definition roof (i : string) : bool := beq i "c1" || beq i "d1".
Definition bldg (i : string) : option Z := if beq i "c1" || beq i "d1" then Some 7%Z else None.
Definition st (i : string) (ty : site_type) (lat lon : Z) : string * site := (i, mkSite i ty CANDIDATE (lat, lon, 0%Z) UNASSIGNED false).
(** a CN and a DN on one building, two CNs and a POP at one place, and a DN elsewhere *)
Definition town : dict string site := [st "c1" CN 100 100; st "d1" DN 101 100; st "c2" CN 110 110; st "c3" CN 110 110; st "p" POP 110 110; st "d2" DN 120 110].
Definition hand : dict string dsite := [(pid 110 100, mkD 110 100 2 (1#1) ["zz"]); ("manual", mkD 300 300 1 (1#1) [])].
Definition all_kinds : dparams := mkDP true true true (8#1) (25#10) (9#1).
Lemma town_wf : dwf town.
Proof. repeat constructor; cbn; intuition discriminate. Qed.
Lemma hand_ids : ids_ok pid hand.
Proof.
  split; [repeat constructor; cbn; intuition discriminate|]. split; [exact pid_inj|]. intros k d a b [E|[E|[]]] Ek; injection E as <- <-.
  - apply pid_inj in Ek. cbn. tauto.
  - exfalso. unfold pid in Ek. destruct a; discriminate.
Qed.
Lemma town_lon x : some_lon town x -> (x = 100 \/ x = 110)%Z.
Proof. intros H. apply some_lon_iff in H. destruct H as (s & H & <-). cbn in H. repeat (destruct H as [<-|H]; [cbn; tauto|]). destruct H. Qed.
Lemma town_lat x : some_lat town x -> In x [100; 101; 110; 120]%Z.
Proof. intros H. apply some_lat_iff in H. cbn in H. cbn. tauto. Qed.
Lemma town_area am left right bottom top : area 10 town am left right bottom top -> (left = 100 /\ right = 110 /\ bottom = 100 /\ top = 120)%Z /\ am = false.
Proof.
  intros (A & [[L1 _] L2] & [[R1 _] R2] & [B1 B2] & [T1 T2]).
  assert (Ea : am = false). { destruct am; [|reflexivity]. destruct (proj1 A eq_refl) as [(x & Hx & H) _]. apply town_lon in Hx. lia. } subst am.
  assert (X : some_lon town 100) by (apply some_lon_iff; eexists; split; [now left|reflexivity]).
  assert (Y : some_lon town 110) by (apply some_lon_iff; eexists; split; [right; right; now left|reflexivity]).
  assert (U : some_lat town 100) by (apply some_lat_iff; now left).
  assert (V : some_lat town 120) by (apply some_lat_iff; cbn; tauto).
  assert (F : forall P : Prop, false = true -> P) by (intros P H; discriminate). specialize (L2 _ (conj X (F _))). specialize (R2 _ (conj Y (F _))). specialize (B2 _ U). specialize (T2 _ V).
  apply town_lon in L1. apply town_lon in R1. apply town_lat in B1. apply town_lat in T1. cbn in B1, T1. split; [lia|reflexivity].
Qed.
Lemma town_roomy : roomy 10 town step (8#1).
Proof.
  split; [lia|]. split; [intros x H; apply town_lon in H; lia|]. intros am left right bottom top dx dy Ha Hd. apply town_area in Ha. destruct Ha as [(-> & -> & -> & ->) ->]. injection Hd as <- <-. cbn. lia.
Qed.
Lemma town_globe : on_globe 10 town step (8#1).
Proof.
  split; [discriminate|]. intros am left right bottom top dx dy Ha Hd. apply town_area in Ha. destruct Ha as [(-> & -> & -> & ->) ->]. injection Hd as <- <-. lia.
Qed.
Definition run_town := add_demand_to_topology pid box step roof bldg subs 10 town 100 all_kinds hand.
(** demand sites with the sites they are connected to: the grid point 100, 100 has been replaced by CN demand, the
    demand at the second CN takes the number of subscribers of the first CN there; DN "d1" shares a building with "c1" *)
Example C36_case : exists R, run_town = Ok R /\ List.length R = 17%nat
  /\ dget R (pid 100 100) = Some (mkD 100 100 1 (25#10) ["c1"; "d1"])
  /\ dget R (pid 110 110) = Some (mkD 110 110 3 (25#10) ["c2"; "c3"; "p"])
  /\ dget R (pid 116 116) = Some (mkD 116 116 1 (25#10) ["c2"; "c3"; "p"; "d2"])
  /\ dget R (pid 110 100) = Some (mkD 110 100 2 (25#10) ["d1"])
  /\ dget R "manual" = Some (mkD 300 300 1 (25#10) []).
Proof. eexists. split; [vm_compute; reflexivity|]. vm_compute. repeat split. Qed.

(** a demand site placed by hand where a CN stands loses the DN within reach when CN demand is enabled *)
Definition no_grid : dparams := mkDP true false true (8#1) (25#10) (10#1).
Definition by_hand : dict string dsite := [(pid 110 110, mkD 110 110 5 (1#1) [])].
Lemma by_hand_ids : ids_ok pid by_hand.
Proof.
  split; [repeat constructor; cbn; intuition discriminate|]. split; [exact pid_inj|]. intros k d a b [E|[]] Ek; injection E as <- <-.
  apply pid_inj in Ek. cbn. tauto.
Qed.
Lemma by_hand_lost : exists R d, add_demand_to_topology pid box step roof bldg subs 10 town 100 no_grid by_hand = Ok R
  /\ dget R (pid 110 110) = Some d /\ within box town (p_radius no_grid) 110 110 "d2" /\ ~ In "d2" (q_sites d) /\ q_num d = 3%nat.
Proof.
  eexists. eexists. split; [vm_compute; reflexivity|]. split; [vm_compute; reflexivity|]. split.
  - exists (snd (st "d2" DN 120 110)), 120%Z, 110%Z. split; [cbn; tauto|]. split; [now exists 0%Z|]. vm_compute. discriminate.
  - split; [|reflexivity]. cbn. intuition discriminate.
Qed.
(** sites half a degree west of the antimeridian *)
Definition coast : dict string site := [st "a" DN 100 1790; st "b" CN 100 1795].
Definition only_grid : dparams := mkDP false true false (8#1) (25#10) (9#1).
Lemma coast_area : area 10 coast false 1790 1795 100 100.
Proof.
  assert (L : forall x, some_lon coast x -> (x = 1790 \/ x = 1795)%Z) by (intros x H; apply some_lon_iff in H; destruct H as (s & [<-|[<-|[]]] & <-); cbn; tauto).
  assert (B : forall x, some_lat coast x -> x = 100%Z) by (intros x H; apply some_lat_iff in H; cbn in H; intuition congruence).
  split; [split; [discriminate|]|].
  - intros [_ (x & Hx & H)]. apply L in Hx. lia.
  - split; [|split; [|split]]; (split; [|]).
    + split; [apply some_lon_iff; eexists; split; [now left|reflexivity]|discriminate].
    + intros y [Hy _]. apply L in Hy. lia.
    + split; [apply some_lon_iff; eexists; split; [right; now left|reflexivity]|discriminate].
    + intros y [Hy _]. apply L in Hy. lia.
    + apply some_lat_iff. now left.
    + intros y Hy. apply B in Hy. lia.
    + apply some_lat_iff. now left.
    + intros y Hy. apply B in Hy. lia.
Qed.
Lemma coast_never fuel D0 R : add_demand_to_topology pid box step roof bldg subs 10 coast fuel only_grid D0 <> Ok R.
Proof. eapply demand_never; [reflexivity|lia|exact coast_area|reflexivity|cbn; lia|lia|cbn; lia]. Qed.
(** the map is followed from appended sites as well *)
Example C36_colocated_case : exists R, connect_demand_to_colocated_sites town [("c1", ["d1"]); ("d1", ["p"]); ("p", ["c1"])] [("k", mkD 0 0 1 (1#1) ["c1"; "d2"])] = Ok R
  /\ map (fun q => q_sites (snd q)) R = [["c1"; "d2"; "d1"; "p"]].
Proof. eexists. split; vm_compute; reflexivity. Qed.
Lemma manual_refuted : exists did dist deltas rooftop building subscribers deg sites fuel p D0 R k d0 d i,
  dwf sites /\ ids_ok did D0 /\ p_manual p = true /\ In (k, d0) D0
  /\ add_demand_to_topology did dist deltas rooftop building subscribers deg sites fuel p D0 = Ok R /\ dget R k = Some d
  /\ within dist sites (p_radius p) (q_lat d0) (q_lon d0) i /\ ~ In i (q_sites d) /\ q_num d <> q_num d0.
Proof.
  destruct by_hand_lost as (R & d & H1 & H2 & H3 & H4 & H5).
  exists pid, box, step, roof, bldg, subs, 10%Z, town, 100%nat, no_grid, by_hand, R, (pid 110 110), (mkD 110 110 5 (1#1) []), d, "d2".
  split; [exact town_wf|]. split; [exact by_hand_ids|]. split; [reflexivity|]. split; [now left|]. split; [exact H1|]. split; [exact H2|]. split; [exact H3|]. split; [exact H4|].
  rewrite H5. discriminate.
Qed.
