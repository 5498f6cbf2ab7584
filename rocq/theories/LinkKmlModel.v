(** The links of a KML file as RawLink objects (kml_library.py 124-157): both names are strings, never None. *)
From Coq Require Import QArith.
From Verif Require Import Base TopologyModel LinkMapModel.
From Verif Require KmlModel.

Definition of_kml (w : KmlModel.raw_link) : raw :=
  mkRaw (KmlModel.w_type w) (KmlModel.w_status w) (Some (KmlModel.w_tx w)) (Some (KmlModel.w_rx w))
        (KmlModel.w_tx_lat w, KmlModel.w_tx_lon w) (KmlModel.w_rx_lat w, KmlModel.w_rx_lon w).
