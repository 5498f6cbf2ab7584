(** What C29 and C57 mean. *)
From Coq Require Import QArith Qabs Qminmax.
From Verif Require Import Base Dict SecLinkModel.
Local Open Scope Q_scope.

(** the angle between two directions given in degrees from 0 to 360 *)
Definition between (a b : Q) : Q := Qmin (Qabs (a - b)) (360 - Qabs (a - b)).
Definition direction (a : Q) : Prop := 0 <= a /\ a < 360.
(** [b] is the direction opposite to [a] *)
Definition opposite (a b : Q) : Prop := direction b /\ (b == a + 180 \/ b == a - 180).

Section Spec.
Variables (stype : string -> site_type) (scan : string -> Q) (bearing : string -> string -> Q) (full_cn : bool).

(** half the scan range of a site plus a tolerance of a hundredth of a degree; any direction will do at a
    client node when [full_cn] *)
Definition reach (site : string) (receiving : bool) (x : Q) : Prop :=
  if receiving && full_cn && beq (stype site) CN then x < 180 + (1 # 100) else x < scan site / 2 + (1 # 100).

(** sector [i] of site [s] covers direction [dir] *)
Definition covers (secs : dict string ssec) (s : string) (receiving : bool) (dir : Q) (i : string) : Prop :=
  exists x, dget secs i = Some x /\ ss_site x = s /\ reach s receiving (between (ss_az x) dir).
(** and no sector of the site is closer to it *)
Definition closest (secs : dict string ssec) (s : string) (dir : Q) (i : string) : Prop :=
  forall x j y, dget secs i = Some x -> dget secs j = Some y -> ss_site y = s -> between (ss_az x) dir <= between (ss_az y) dir.

(** The link from [a] to [b], seen from its own azimuths: it leaves [a] at the bearing of [b] and arrives
    from the opposite direction.  [tx] and [rx] cover these directions. *)
Definition in_range (secs : dict string ssec) (a b tx rx : string) : Prop :=
  covers secs a false (bearing a b) tx /\ exists dir, opposite (bearing a b) dir /\ covers secs b true dir rx.
Definition best_pair (secs : dict string ssec) (a b tx rx : string) : Prop :=
  covers secs a false (bearing a b) tx /\ closest secs a (bearing a b) tx /\
  exists dir, opposite (bearing a b) dir /\ covers secs b true dir rx /\ closest secs b dir rx.
Definition no_pair (secs : dict string ssec) (a b : string) : Prop := forall tx rx, ~ in_range secs a b tx rx.
End Spec.

(** a link has both sectors, or none *)
Definition sectors_are (l : slink) (p : option (string * string)) : Prop :=
  sl_tx l = option_map fst p /\ sl_rx l = option_map snd p.

(** the topologies considered: dictionaries, sectors of links lie on the end sites and come in pairs, a CN
    does not transmit (Link.__init__), all angles lie in [0, 360) *)
Record wf_world (stype : string -> site_type) (bearing : string -> string -> Q) (w : sworld) : Prop := mkWf {
  wf_secs : dwf (w_secs w);
  wf_links : dwf (w_links w);
  wf_pairs : forall a b l, dget (w_links w) (a, b) = Some l ->
    sectors_are l None \/ exists tx rx x y, sectors_are l (Some (tx, rx)) /\
      dget (w_secs w) tx = Some x /\ ss_site x = a /\ dget (w_secs w) rx = Some y /\ ss_site y = b;
  wf_cn : forall a b l, dget (w_links w) (a, b) = Some l -> stype a <> CN;
  wf_az : forall i x, dget (w_secs w) i = Some x -> direction (ss_az x);
  wf_bearing : forall a b, direction (bearing a b)
}.

(** how the sectors [p] of the link from [a] to [b] in the result come about *)
Definition outcome_ok stype scan bearing full_cn (w : sworld) (a b : string) (l : slink) (p : option (string * string)) : Prop :=
  (* chosen for the link back, which had none *)
  (exists tx rx r, p = Some (tx, rx) /\ dget (w_links w) (b, a) = Some r /\ sl_wireless r = true /\ sectors_are r None /\
     best_pair stype scan bearing full_cn (w_secs w) b a rx tx) \/
  if sl_wireless l
  then match p with
       | Some (tx, rx) => (sectors_are l p /\ in_range stype scan bearing full_cn (w_secs w) a b tx rx) \/
                          (sectors_are l None /\ best_pair stype scan bearing full_cn (w_secs w) a b tx rx)
       | None => sectors_are l None /\ active (sl_status l) = false /\ no_pair stype scan bearing full_cn (w_secs w) a b
       end
  else sectors_are l p.
