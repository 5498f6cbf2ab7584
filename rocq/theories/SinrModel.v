(** Capacity under interference in the deployment step
    (optimization/ilp_models/interference_optimization.py 673-1062). *)
From Coq Require Import QArith.
From Verif Require Import Base Dict TopologyModel RfModel SetupModel IlpModel ChanModel.
Local Open Scope Q_scope.

(** 74-115: signal strength of a link, and the interference that reaches its receiver when its
    transmitter serves other links, as linear values; rows (SNR, Gbps) and noise of the device of a site
    (sku_location followed by the dictionaries by sku).  For a client, whether the path from another
    site is within the beam that points along a link (698-714). *)
Record radio := mkRadio {
  r_rsl : edge -> Q; r_irsl : edge -> Q; r_mcs : string -> list (Q * Q); r_noise : string -> Q; r_beam : edge -> string -> bool }.

(** variables added here, beside those of the network: tdm_compatible_polarity and link_capacity_vars *)
Inductive dexpr :=
| DCst (q : Q) | DNet (x : expr) | DPol (tx : string) (e : edge) (c : nat) | DClass (e : edge) (c n : nat)
| DScale (q : Q) (x : dexpr) | DAdd (x y : dexpr) | DSub (x y : dexpr).
Inductive dconstr := DLe (x y : dexpr).
Definition dsum (l : list dexpr) : dexpr := fold_right DAdd (DCst 0) l.
Record answer := mkAnswer { w_net : var -> Q; w_pol : string -> edge -> nat -> Q; w_class : edge -> nat -> nat -> Q }.
Fixpoint deval (w : answer) (x : dexpr) : Q :=
  match x with
  | DCst q => q
  | DNet y => eval (w_net w) y
  | DPol tx e c => w_pol w tx e c
  | DClass e c n => w_class w e c n
  | DScale q y => q * deval w y
  | DAdd y z => deval w y + deval w z
  | DSub y z => deval w y - deval w z
  end.
Definition dsat (w : answer) (c : dconstr) : Prop := match c with DLe x y => deval w x <= deval w y end.
Record dproblem := mkDproblem { d_pols : list (string * edge * nat); d_classes : list (edge * nat * nat); d_constraints : list dconstr }.
Definition dfeasible (C : dproblem) (w : answer) : Prop :=
  (forall tx e c, In (tx, e, c) (d_pols C) -> 0 <= w_pol w tx e c <= 1) /\
  (forall e c n, In (e, c, n) (d_classes C) -> w_class w e c n == 0 \/ w_class w e c n == 1) /\
  (forall c, In c (d_constraints C) -> dsat w c).

Section Sinr.
Variables (R : radio) (I : inst) (V : tables).
Let ps := i_params I.
Let one_channel : bool := Nat.eqb (p_channels ps) 1.

(** 673-735 *)
Definition interfering_links (tx rx rx_sector : string) : result (list edge) :=
  do ty <- get (i_type I) rx ;
  let is_cn := beq ty (Real CN) in
  do ins <- incoming I rx ;
  concatM (fun e =>
    let los := fst e in
    if negb (dmem (v_active V) (los, rx)) then Ok []
    else
      do s <- get (i_l2s I) e ;
      if negb is_cn && negb (beq (Some rx_sector) (snd s)) then Ok []
      else
        do off <- site_off V los ;
        if off || beq los tx then Ok []
        else if is_cn && negb (r_beam R (tx, rx) los) then Ok []
        else
          do outs <- outgoing I los ;
          concatM (fun o =>
            if negb (dmem (v_active V) (los, snd o)) then Ok []
            else
              do s' <- get (i_l2s I) o ;
              if negb (beq (fst s') (fst s)) then Ok []
              else
                do off' <- site_off V (snd o) ;
                Ok (if off' || beq (snd o) rx then [] else [o])) outs) ins.

(** 763-766, 905-906, 938-939 *)
Definition link_off (e : edge) : result bool :=
  do a <- site_off V (fst e) ; if a then Ok true else site_off V (snd e).
(** [none_throws(rx_sector)] *)
Definition rx_sector_of (e : edge) : result string :=
  do s <- get (i_l2s I) e ; match snd s with Some x => Ok x | None => Err PyAssertion end.

(** 770-787.  The check whether the decision exists already is left out: a decision met twice is listed
    twice, with the same constraints. *)
Definition pol_keys : result (list (string * edge * nat)) :=
  if p_ignore_polarities ps then Ok []
  else concatM (fun e =>
    do off <- link_off e ;
    if off then Ok []
    else
      do sec <- rx_sector_of e ;
      do ls <- interfering_links (fst e) (snd e) sec ;
      Ok (flat_map (fun x => map (fun c => (fst e, x, c)) (channels I)) ls)) (dkeys (v_active V)).
(** 789-826 *)
Definition pol_constraints (k : string * edge * nat) : result (list dconstr) :=
  let '(tx, e, c) := k in
  let x := DPol tx e c in
  do tdm <- get (v_tdm V) (e, c) ;
  do ok <- get (v_odd V) (fst e) ;
  do oi <- get (v_odd V) tx ;
  Ok [DLe x (DNet (Sub (Add (Cst 1) ok) oi));
      DLe x (DNet (Add (Sub (Cst 1) ok) oi));
      DLe x (DNet tdm);
      DLe (DNet (Sub (Add (Add tdm ok) oi) (Cst 2))) x;
      DLe (DNet (Sub (Sub tdm oi) ok)) x].
Definition create_tdm_compatible_polarity_decisions : result (list dconstr) :=
  do ks <- pol_keys ; concatM pol_constraints ks.

(** 828-878 *)
Definition interfering_rsl_expr (tx rx rx_sector : string) (c : nat) : result (dexpr * Q) :=
  do ls <- interfering_links tx rx rx_sector ;
  do terms <- mapM (fun e =>
      do x <- (if p_ignore_polarities ps then do y <- get (v_tdm V) (e, c) ; Ok (DNet y) else Ok (DPol tx e c)) ;
      Ok (DScale (r_irsl R (fst e, rx)) x)) ls ;
  Ok (dsum terms, fold_right (fun e q => r_irsl R (fst e, rx) + q) 0 ls).

(** 889-897: (inverse SNR, Gbps), with a row for 0 Gbps, and the place of that row *)
Definition rows (rx : string) : list (Q * Q) :=
  let l := map (fun r => (/ fst r, snd r)) (r_mcs R rx) in
  if existsb (fun r => Qeq_bool (snd r) 0) l then l else l ++ [(0, 0)].
Fixpoint index_zero (l : list (Q * Q)) : nat :=
  match l with [] => 0%nat | r :: l' => if Qeq_bool (snd r) 0 then 0%nat else S (index_zero l') end.
Definition zero_row (rx : string) : nat := index_zero (rows rx).
(** 900-923 *)
Definition class_keys : result (list (edge * nat * nat)) :=
  concatM (fun e =>
    do off <- link_off e ;
    Ok (if off then []
        else flat_map (fun c => map (fun n => (e, c, n)) (seq 0 (List.length (rows (snd e))))) (channels I))) (dkeys (v_active V)).
Definition over (e : edge) (q : dexpr) : dexpr :=
  if Qeq_bool (r_rsl R e) 0 then DCst 0 else DScale (/ r_rsl R e) q.
(** 984-989: the row for 0 Gbps gets the largest inverse SINR of the link *)
Definition inverse (rx : string) (worst : Q) (n : nat) : Q :=
  if Nat.eqb n (zero_row rx) then worst else fst (nth n (rows rx) (0, 0)).
(** 945-1031 *)
Definition channel_capacity (e : edge) (sec : string) (c : nat) : result (list dconstr) :=
  let rx := snd e in
  let ns := seq 0 (List.length (rows rx)) in
  do p <- interfering_rsl_expr (fst e) rx sec c ;
  let worst := if Qeq_bool (r_rsl R e) 0 then 0 else (snd p + r_noise R rx) / r_rsl R e in
  do t <- (if one_channel then Ok []
           else do x <- get (v_tdm V) (e, c) ; Ok [DLe (DNet x) (DSub (DCst 1) (DClass e c (zero_row rx)))]) ;
  Ok ([DLe (over e (DAdd (fst p) (DCst (r_noise R rx)))) (dsum (map (fun n => DScale (inverse rx worst n) (DClass e c n)) ns));
       DLe (dsum (map (DClass e c) ns)) (DCst 1)] ++ t).
(** 932-1062 *)
Definition link_capacity (e : edge) : result (list dconstr) :=
  do off <- link_off e ;
  if off then Ok []
  else
    let rx := snd e in
    do sec <- rx_sector_of e ;
    do l <- concatM (channel_capacity e sec) (channels I) ;
    do f <- get (v_flow V) e ;
    Ok (l ++ (if one_channel then []
              else [DLe (DCst (inject_Z (Z.of_nat (p_channels ps)) - 1)) (dsum (map (fun c => DClass e c (zero_row rx)) (channels I)))])
          ++ [DLe (DNet f) (dsum (flat_map (fun n => map (fun c => DScale (snd (nth n (rows rx) (0, 0))) (DClass e c n)) (channels I))
                                           (seq 0 (List.length (rows rx)))))]).
(** 880-1062 *)
Definition create_exact_capacity_constraints : result dproblem :=
  do pk <- pol_keys ;
  do ck <- class_keys ;
  do c1 <- create_tdm_compatible_polarity_decisions ;
  do c2 <- concatM link_capacity (dkeys (v_active V)) ;
  Ok (mkDproblem pk ck (c1 ++ c2)).
End Sinr.

(** 164-192: the whole problem of the deployment step *)
Definition full_problem (R : radio) (dn_limit total_limit : nat) (violating : list (string * string * string)) (I0 : inst) : result (problem * dproblem) :=
  do P <- deploy_problem dn_limit total_limit violating I0 ;
  do VD <- deploy_tables (deploy_inst I0) violating ;
  do C <- create_exact_capacity_constraints R (deploy_inst I0) (fst VD) ;
  Ok (P, C).
Definition answers (PC : problem * dproblem) (w : answer) : Prop := feasible (fst PC) (w_net w) /\ dfeasible (snd PC) w.
