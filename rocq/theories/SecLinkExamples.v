(** Examples for C29 and C57. *)
From Coq Require Import QArith Qabs Qminmax Lqa.
From Verif Require Import Base Dict QLib SecLinkModel SecLinkSpec SecLinkProofs.
Local Open Scope Q_scope.
Local Open Scope string_scope.
Local Open Scope list_scope.

Definition ex_type (s : string) : site_type := if beq s "C" then CN else if beq s "P" then POP else DN.
Definition ex_site_status (s : string) : status := CANDIDATE.
Definition ex_scan (s : string) : Q := 70.
Definition ex_secs : dict string ssec :=
  [("A-0", mkSSec "A" 0 CANDIDATE 0); ("A-1", mkSSec "A" 70 CANDIDATE 0); ("B-0", mkSSec "B" 251 CANDIDATE 0);
   ("C-0", mkSSec "C" 10 CANDIDATE 0)].
Definition fresh_link : slink := mkSLink true CANDIDATE None None.
(** B lies to the north east of A; the bearings of the two ends differ from 180 degrees by the [err] that
    the curvature of the earth causes *)
Definition ex_bearing (ab err : Q) (a b : string) : Q :=
  if beq (a, b) ("A", "B") then ab else if beq (a, b) ("B", "A") then ab + 180 + err else 90.
Definition ex_world (links : list (string * string)) : sworld := mkSWorld ex_secs (map (fun e => (e, fresh_link)) links).

Lemma ex_wf ab err links : NoDup links -> (forall a b, In (a, b) links -> a <> "C") -> 0 <= ab -> ab < 180 -> -(1) <= err -> ab + err < 180 ->
  wf_world ex_type (ex_bearing ab err) (ex_world links).
Proof.
  intros ND NC H1 H1' H2 H3.
  assert (K : forall a b l, dget (w_links (ex_world links)) (a, b) = Some l -> In (a, b) links /\ l = fresh_link).
  { intros a b l H. apply dget_In in H. cbn [w_links ex_world] in H. apply in_map_iff in H. destruct H as (e & E & He). injection E as -> <-. auto. }
  constructor.
  - unfold dwf. cbn. repeat (constructor; [cbn; intuition discriminate|]). constructor.
  - unfold dwf, dkeys. cbn [w_links ex_world]. rewrite map_map. cbn. now rewrite map_id.
  - intros a b l H. destruct (K _ _ _ H) as [_ ->]. left. split; reflexivity.
  - intros a b l H E. destruct (K _ _ _ H) as [Hin _]. apply (NC _ _ Hin). unfold ex_type in E. destruct (beq_spec a "C"); [assumption|]. destruct (beq a "P"); discriminate.
  - intros i x H. apply dget_In in H. cbn in H. repeat (destruct H as [H|H]; [injection H as <- <-; split; cbn; lra|]). destruct H.
  - intros a b. unfold ex_bearing, direction. destruct (beq (a, b) ("A", "B")); [split; lra|]. destruct (beq (a, b) ("B", "A")); split; lra.
Qed.
Definition ab_links : list (string * string) := [("A", "B"); ("B", "A"); ("A", "C")].
Lemma ab_nodup : NoDup ab_links.
Proof. repeat (constructor; [cbn; intuition congruence|]). constructor. Qed.
Lemma ab_no_cn a b : In (a, b) ab_links -> a <> "C".
Proof. cbn. intuition congruence. Qed.
