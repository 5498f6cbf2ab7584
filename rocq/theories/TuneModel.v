(** Reading the answer of the deployment step
    (optimization/ilp_models/interference_optimization.py 1084-1309). *)
From Coq Require Import QArith.
From Verif Require Import Base Dict TopologyModel RfModel SetupModel PruneModel IlpModel ExtractModel ChanModel.
Local Open Scope Q_scope.

Definition zsum (l : list Z) : Z := fold_right Z.add 0%Z l.
(** [l.index(1)] *)
Fixpoint index_one (l : list Z) : Z :=
  match l with [] => 0%Z | z :: r => if Z.eqb z 1 then 0%Z else (1 + index_one r)%Z end.
(** optimization/constants.py 13 *)
Definition no_channel : Z := (-1)%Z.

Record plan := mkPlan {
  pl_link : dict edge Z; pl_site : dict string Z; pl_sector : dict edge Z; pl_channel : dict edge Z;
  pl_odd : dict string Z; pl_even : dict string Z; pl_flow : dict edge Q; pl_tdm : dict edge Q }.

Section Tune.
Variables (I : inst) (V : tables) (v : var -> Q).
(** the value of the common bandwidth variable, if the model has one *)
Variable common : option Q.
Let ps := i_params I.

(** 1084-1111; [site_vars] are constants *)
Definition flow_decision (fl : dict edge Q) (e : edge) : result (list (edge * Z)) :=
  if dmem (v_active V) e then Ok []
  else
    do ti <- get (i_type I) (fst e) ;
    do tj <- get (i_type I) (snd e) ;
    if imaginary ti || imaginary tj then Ok []
    else do q <- get fl e ; Ok [(e, if near_zero q then 0%Z else 1%Z)].
Definition site_on (loc : string) : result bool :=
  do x <- get (v_site V) loc ; Ok (match x with Cst q => Qeq_bool q 1 | _ => false end).
Definition cable_on (e : edge) : result (list edge) :=
  do ti <- get (i_type I) (fst e) ;
  do tj <- get (i_type I) (snd e) ;
  if imaginary ti || imaginary tj then Ok []
  else do a <- site_on (fst e) ; do b <- site_on (snd e) ; Ok (if a && b then [e] else []).
Definition get_link_decisions (fl : dict edge Q) : result (dict edge Z) :=
  do l <- concatM (flow_decision fl) (dkeys (v_flow V)) ;
  do w <- concatM cable_on (i_wired I) ;
  Ok (fold_left (fun d e => dset d e 1%Z) w (dict_of (binary_values v (v_active V) ++ l))).

Definition is_client (st : sec_type) : bool := match st with SecCN => true | _ => false end.
(** 1125-1146: decision and channel of a sector *)
Definition channel_values (i a : string) : list Z :=
  flat_map (fun c => match dget (v_sector V) (i, a, c) with Some x => [get_binary_value (eval v x)] | None => [] end) (channels I).
Definition sector_choice (i a : string) : result (Z * Z) :=
  let ds := channel_values i a in
  do _ <- guard (match ds with [] => false | _ => true end) OptExn ;
  do _ <- guard (Z.leb (zsum ds) 1) OptExn ;
  Ok (zsum ds, if Z.eqb (zsum ds) 1 then index_one ds else no_channel).
(** 1157-1172: the channels of the sectors that serve a client sector *)
Definition serving_channels (links channel : dict edge Z) (i a : string) : result (list Z) :=
  do es <- incoming I i ;
  concatM (fun e =>
    if negb (dmem (v_active V) e) then Ok []
    else
      do z <- get links e ;
      if Z.eqb z 0 then Ok []
      else
        do s <- get (i_l2s I) e ;
        if beq (snd s) (Some a)
        then match fst s with Some sa => do c <- get channel (fst e, sa) ; Ok [c] | None => Err PyKeyError end
        else Ok []) es.
(** 1149-1181: a client sector takes the channel of the sector that serves it *)
Definition client_step (links : dict edge Z) (st : dict edge Z * dict edge Z) (p : edge * sec_type) : result (dict edge Z * dict edge Z) :=
  if negb (is_client (snd p)) then Ok st
  else
    do d <- get (fst st) (fst p) ;
    if Z.eqb d 0 then Ok (fst st, dset (snd st) (fst p) no_channel)
    else
      do cs <- serving_channels links (snd st) (fst (fst p)) (snd (fst p)) ;
      match cs with
      | [] => Ok (dset (fst st) (fst p) 0%Z, dset (snd st) (fst p) no_channel)
      | [c] => Ok (fst st, dset (snd st) (fst p) c)
      | _ => Err OptExn
      end.
(** 1121-1124 *)
Definition real_sectors : result (list (edge * sec_type)) :=
  concatM (fun p => concatM (fun a => do st <- get (i_sectype I) a ; Ok (if imaginary_sec st then [] else [((fst p, a), st)])) (snd p)) (i_secs I).
(** 1113-1182: the sectors and the channels *)
Definition get_sector_and_channel_decisions (links : dict edge Z) : result (dict edge Z * dict edge Z) :=
  do rs <- real_sectors ;
  do first <- mapM (fun p => do x <- sector_choice (fst (fst p)) (snd (fst p)) ; Ok (p, x)) rs ;
  foldM (client_step links) rs
    (dict_of (map (fun q => (fst (fst q), fst (snd q))) first),
     dict_of (flat_map (fun q => if is_client (snd (fst q)) then [] else [(fst (fst q), snd (snd q))]) first)).
(** 1196-1213 *)
Definition tdm_choice (e : edge) : result (list (edge * Q)) :=
  if negb (dmem (v_tdm V) (e, 0%nat)) then Ok []
  else
    do xs <- mapM (fun c => get (v_tdm V) (e, c)) (channels I) ;
    let ds := map (eval v) xs in
    do _ <- guard (Nat.leb (List.length (filter (fun d => negb (near_zero d)) ds)) 1) OptExn ;
    Ok [(e, fold_left Qplus ds 0)].
(** 1188 and 1215-1226 *)
Definition site_values : result (dict string Z) :=
  mapM (fun p => do b <- site_on (fst p) ; Ok (fst p, if b then 1%Z else 0%Z)) (v_site V).
Definition odd_choices (site : dict string Z) : result (list (string * (Z * Z))) :=
  if p_ignore_polarities ps then Ok []
  else mapM (fun p => do s <- get site (fst p) ;
                      Ok (fst p, if Z.eqb s 0 then (0%Z, 0%Z) else (snd p, (1 - snd p)%Z))) (binary_values v (v_odd V)).
(** 1184-1302.  [None] is the degenerate answer.  The zero entries the loop at 1263-1280 adds for the
    polarity of clients and for the imaginary sectors of unused sites are left out, as are the shortage,
    the objective and the cost. *)
Definition extract_deployment : result (option plan) :=
  do site <- site_values ;
  do tdm <- concatM tdm_choice (i_links I) ;
  do odd <- odd_choices site ;
  do fl <- prune_loops (i_links I) (i_locations I) (values v (v_flow V)) ;
  if near_zero (fold_left Qplus (dvals fl) 0) then
    do _ <- guard (match common with None => true | Some q => Qeq_bool q 0 end) OptExn ;
    Ok None
  else
    do links <- get_link_decisions fl ;
    do secs <- get_sector_and_channel_decisions links ;
    do on <- sectors_with_active_links I links ;
    do serving <- serving_sites I site ;
    let sites := sites_with_active_links I links ++ serving in
    let kept (k : edge) := mem (fst k) sites && mem k on in
    Ok (Some (mkPlan links
                (map (fun p => (fst p, if mem (fst p) sites then snd p else 0%Z)) site)
                (map (fun p => (fst p, if kept (fst p) then snd p else 0%Z)) (fst secs))
                (map (fun p => (fst p, if kept (fst p) then snd p else no_channel)) (snd secs))
                (map (fun p => (fst p, if mem (fst p) sites then fst (snd p) else 0%Z)) odd)
                (map (fun p => (fst p, if mem (fst p) sites then snd (snd p) else 0%Z)) odd)
                fl (dict_of tdm))).
End Tune.

Definition deployment (common : option Q) (violating : list (string * string * string)) (I0 : inst) (v : var -> Q) : result (option plan) :=
  let I := deploy_inst I0 in
  do VD <- deploy_tables I violating ; extract_deployment I (fst VD) v common.
