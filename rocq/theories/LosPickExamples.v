(** Examples for C23 to C25. *)
From Coq Require Import QArith.
From Verif Require Import Base Dict LosBatchModel LosPickModel LosPickSpec LosPickProofs.

Definition both_ways (l : list (nat * nat)) : list valid := flat_map (fun p => [mkValid (fst p) (snd p) 1; mkValid (snd p) (fst p) 1]) l.
Lemma both_ways_ok sites l : distinct_links (both_ways l) -> (forall p, In p l -> (fst p < List.length sites)%nat /\ (snd p < List.length sites)%nat) ->
  exists g, los_graph sites (both_ways l) = Ok g /\ wf_graph g /\ two_way g /\ g_sites g = sites.
Proof.
  intros D R. destruct (los_graph_ok sites (both_ways l) D) as (g & E & S & W & I & _).
  - intros v Hv. apply in_flat_map in Hv. destruct Hv as (p & Hp & [<-|[<-|[]]]); cbn; specialize (R p Hp); tauto.
  - exists g. split; [exact E|]. split; [exact W|]. split; [|exact S]. intros i s t _ _ Ht. apply (wf_inverse g W), I in Ht. apply I. destruct Ht as (v & Hv & <- & <-).
    apply in_flat_map in Hv. destruct Hv as (p & Hp & H). exists (mkValid (v_rx v) (v_tx v) 1). split; [|auto]. apply in_flat_map. exists p. split; [exact Hp|]. destruct H as [<-|[<-|[]]]; cbn; auto.
Qed.
(** three buildings, the last with two sites; three sites of the user *)
Definition ex_dn (b : Z) (x : Q) : psite := mkPSite DN (Some b) (x, 0, 0)%Q.
Definition ex_user (t : site_type) (x : Q) : psite := mkPSite t None (x, 0, 0)%Q.
Definition ex_sites : list psite := [ex_dn 1 0; ex_dn 2 1; ex_dn 3 2; ex_dn 3 3; ex_user POP 4; ex_user DN 5; ex_user DN 6].
Definition ex_pairs : list (nat * nat) := [(2, 4); (2, 5); (2, 6); (0, 3); (1, 3)]%nat.
Definition ex_graph : losgraph := Eval vm_compute in match los_graph ex_sites (both_ways ex_pairs) with Ok g => g | Err _ => mkGraph [] [] [] [] end.
Lemma ex_graph_ok : wf_graph ex_graph /\ two_way ex_graph /\ los_graph ex_sites (both_ways ex_pairs) = Ok ex_graph.
Proof.
  destruct (both_ways_ok ex_sites ex_pairs) as (g & E & W & T & _).
  - unfold distinct_links. cbn. repeat (constructor; [cbn; intuition congruence|]). constructor.
  - intros p Hp. cbn in Hp. repeat (destruct Hp as [<-|Hp]; [cbn; lia|]). destruct Hp.
  - assert (X : g = ex_graph) by (vm_compute in E; inversion E; reflexivity). subst g. auto.
Qed.
