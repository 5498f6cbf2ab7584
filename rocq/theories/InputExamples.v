(** Concrete inputs for C30 and C60. *)
From Verif Require Import Base Dict TopologyModel InputModel InputSpec.
Local Open Scope string_scope.
Local Open Scope list_scope.

Definition xs (p : Z) (n sku i : string) : isite Z := mkISite p DN STREET_LEVEL n sku i.
(** three devices at A, a copy of the first, and B *)
Definition xl : list (isite Z) := [xs 1 "A" "x" "1x"; xs 2 "B" "x" "2x"; xs 1 "A" "y" "1y"; xs 1 "A" "x" "1x"; xs 3 "A" "z" "3z"].
Definition xk : list (isite Z) := [xs 1 "A" "x" "1x"; xs 2 "B" "x" "2x"; xs 1 "A" "y" "1y"; xs 3 "A" "z" "3z"].
Definition xout : inputs Z := match add_sites empty_inputs xl with Ok st => st | Err _ => empty_inputs end.
Example loads : add_sites empty_inputs xl = Ok xout. Proof. vm_compute. reflexivity. Qed.
Example loads_names : map name (in_sites xout) = ["A_x"; "B"; "A_y"; "A_z"]. Proof. vm_compute. reflexivity. Qed.
Example loads_copies : first_copies xl xk.
Proof.
  change xl with ((((([] ++ [xs 1 "A" "x" "1x"]) ++ [xs 2 "B" "x" "2x"]) ++ [xs 1 "A" "y" "1y"]) ++ [xs 1 "A" "x" "1x"]) ++ [xs 3 "A" "z" "3z"]).
  change xk with (((([] ++ [xs 1 "A" "x" "1x"]) ++ [xs 2 "B" "x" "2x"]) ++ [xs 1 "A" "y" "1y"]) ++ [xs 3 "A" "z" "3z"]).
  apply fc_new.
  - apply fc_old with (xs 1 "A" "x" "1x").
    + apply fc_new; [apply fc_new; [apply fc_new; [constructor|]|]|]; cbn; intros t Ht (E1 & E2 & E3 & E4 & E5); repeat (destruct Ht as [<-|Ht]; [vm_compute in E4, E5; discriminate|]); destruct Ht.
    + cbn. auto.
    + repeat split.
  - cbn. intros t Ht (E1 & E2 & E3 & E4 & E5). repeat (destruct Ht as [<-|Ht]; [vm_compute in E1, E4, E5; discriminate|]). destruct Ht.
Qed.
Example loads_clear : clear_names xk.
Proof. intros s t Hs Ht. cbn in Hs, Ht. repeat destruct Hs as [<-|Hs]; try contradiction; repeat destruct Ht as [<-|Ht]; try contradiction; (split; [vm_compute; discriminate|intros E; vm_compute in E; try discriminate; split; reflexivity]). Qed.
Example rejects : add_sites empty_inputs [xs 1 "A" "x" "1x"; xs 2 "A" "x" "2x"] = Err DataExn. Proof. vm_compute. reflexivity. Qed.

(** a name that is already another site's with the device appended *)
Definition xc : list (isite Z) := [xs 1 "A_x" "y" "1y"; xs 2 "A" "x" "2x"; xs 3 "A" "y" "3y"].
(** the same position, type and device under two names *)
Definition xi : list (isite Z) := [xs 1 "A" "x" "1x"; xs 1 "B" "x" "1x"].

(** entries *)
Definition xhash (t : site_type) (p : Z) (sku : string) : string := "h".
Definition xdev : list idevice := [mkIDev "x" false; mkIDev "y" false; mkIDev "c" true].
Example entry_all : construct_sites xdev None xhash (mkRaw 7%Z POP STREET_LEVEL None (Some "P") None) = Ok [mkISite 7%Z POP STREET_LEVEL "P" "x" "h"; mkISite 7%Z POP STREET_LEVEL "P" "y" "h"].
Proof. vm_compute. reflexivity. Qed.
Example entry_one : construct_sites xdev None xhash (mkRaw 7%Z CN ROOFTOP (Some 3%Z) None (Some "c")) = Ok [mkISite 7%Z CN ROOFTOP "" "c" "h"].
Proof. vm_compute. reflexivity. Qed.
Example entry_bad : construct_sites xdev None xhash (mkRaw 7%Z CN ROOFTOP (Some 3%Z) None (Some "x")) = Err TopologyExn /\ construct_sites xdev None xhash (mkRaw 7%Z CN ROOFTOP (Some 3%Z) None (Some "q")) = Err DataExn /\
  construct_sites xdev None xhash (mkRaw 7%Z CN ROOFTOP None None (Some "c")) = Err TopologyExn.
Proof. vm_compute. auto. Qed.
Example entries_all : exists st, get_input_sites xdev (fun r => Z.ltb (r_pos r) 9) None (fun _ p k => if Z.eqb p 7 then k else "other") empty_inputs [mkRaw 7%Z POP STREET_LEVEL None (Some "P") None; mkRaw 9%Z DN STREET_LEVEL None (Some "Q") None; mkRaw 8%Z CN STREET_LEVEL None None (Some "c")] = Ok st /\
  map name (in_sites st) = ["P_x"; "P_y"; "other"].
Proof. eexists. split; [vm_compute; reflexivity|]. reflexivity. Qed.

Lemma names_collide : exists (l : list (isite Z)) st s,
  add_sites empty_inputs l = Ok st /\ ~ NoDup (map name (in_sites st)) /\ In s (in_sites st) /\ get_site_by_name st (name s) <> Some s.
Proof.
  exists xc. eexists. exists (xs 1 "A_x" "y" "1y"). split; [vm_compute; reflexivity|]. split.
  - intros N. cbn in N. inversion N as [|? ? Hn _]. apply Hn. now left.
  - split; [now left|vm_compute; discriminate].
Qed.
Lemma ids_collide : exists (l : list (isite Z)) st s,
  add_sites empty_inputs l = Ok st /\ NoDup (map name (in_sites st)) /\ In s (in_sites st) /\ get_site_by_id st (i_id s) <> Some s.
Proof.
  exists xi. eexists. exists (xs 1 "A" "x" "1x"). split; [vm_compute; reflexivity|]. split.
  - cbn. constructor; [intros [E|[]]; discriminate|]. constructor; [intros []|constructor].
  - split; [now left|vm_compute; discriminate].
Qed.
Lemma entry_dropped : exists devices hash_id (r : raw_site Z) st,
  devices <> [] /\ get_input_sites devices (fun _ => true) None hash_id empty_inputs [r] = Ok st /\ in_sites st = [].
Proof. exists [mkIDev "x" false], xhash, (mkRaw 7%Z CN STREET_LEVEL None (Some "house") None). eexists. split; [discriminate|]. split; [vm_compute; reflexivity|reflexivity]. Qed.
