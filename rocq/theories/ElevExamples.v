(** Examples for C37, C54 and C55. *)
From Coq Require Import Reals Lra Lia.
From Verif Require Import Base ElevModel ElevSpec ElevProofs.
Local Open Scope R_scope.

(** a raster of five by five cells of one metre *)
Definition e5 : elev := mkElev (fun y x => IZR (10 * y + x)) 5 5 0 (-4) 4 0 1 1 0 0.
Lemma e5_raster : raster e5.
Proof. unfold raster, e5. cbn. split; [lia|]. split; [lia|]. lra. Qed.
Lemma e5_no_gaps : no_gaps e5.
Proof. intros ix iy [Hx Hy]. cbn in Hx, Hy. unfold e5, NO_DATA_VALUE. cbn [e_data]. intros E. apply eq_IZR in E. lia. Qed.
Lemma rfloor_int n : rfloor (IZR n) = n.
Proof. apply Z.le_antisymm; [apply int_gap; destruct (rfloor_bounds (IZR n)); lra|apply le_rfloor; lra]. Qed.
Lemma rceil_int n : rceil (IZR n) = n.
Proof. unfold rceil. rewrite <- opp_IZR. change (Int_part (IZR (- n))) with (rfloor (IZR (- n))). rewrite rfloor_int. lia. Qed.
