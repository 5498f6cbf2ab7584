(** Statements used by ConfProps.v. *)
From Coq Require Import ZArith QArith Reals Qreals Lra.
From Verif Require Import Base Dict ConfModel ConfSpec ConfProofs ConfTripProofs ConfTypoProofs ConfExamples RfLossModel RfRainProofs.
Local Open Scope string_scope.
Local Open Scope list_scope.

Lemma sector_of_value kw k : sector_of kw k = value_of (setting device_defaults kw "sector_params") k.
Proof. unfold sector_of, value_of, attr. destruct (setting device_defaults kw "sector_params") as [| | | | | | |c a|]; try reflexivity. destruct (dget a k); reflexivity. Qed.
Lemma device_accepted kw : (exists o, device_data kw = Ok o) <-> device_ok (setting device_defaults kw) (value_of (setting device_defaults kw "sector_params")).
Proof. rewrite device_iff. unfold device_ok. now rewrite !sector_of_value. Qed.
Lemma device_refused kw : device_typed (setting device_defaults kw) (value_of (setting device_defaults kw "sector_params")) -> ~ device_ok (setting device_defaults kw) (value_of (setting device_defaults kw "sector_params")) -> device_data kw = Err ConfigExn.
Proof. intros H1 H2. apply device_rejected; unfold device_typed, device_ok in *; now rewrite !sector_of_value. Qed.
Lemma template_typo data : detect_typo data template = Ok tt <-> legal data template.
Proof. apply typo_iff, template_tidy. Qed.
(** an accepted sector for which the rain loss of every link up to 10 km stops with an error *)
Lemma availability_breaks_budget : exists kw o rain avail mhz, sector_params no_files kw = Ok o /\
  value_of o "rain_rate" = VNum rain /\ value_of o "link_availability_percentage" = VNum avail /\ value_of o "carrier_frequency" = VNum mhz /\
  forall d, (0 < d <= 10)%R -> compute_rain_loss d (Q2R rain) (Q2R avail) (Q2R mhz) = Err PyValueError.
Proof.
  exists [("link_availability_percentage", VNum 100)]. eexists. exists 30%Q, 100%Q, 60000%Q. split; [vm_compute; reflexivity|]. split; [reflexivity|]. split; [reflexivity|]. split; [reflexivity|].
  intros d [H1 H2]. replace (Q2R 100) with 100%R by (unfold Q2R; cbn; lra). apply always_available; try assumption; unfold Q2R; cbn; lra.
Qed.
