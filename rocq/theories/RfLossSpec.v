(** Vocabulary of C66 and C67: the published formulas (ITU-R P.530 rain attenuation, free-space path loss in dB for km and GHz), written over the reals. *)
From Coq Require Import Reals List.
Import ListNotations.
Local Open Scope R_scope.

Definition log10 (x : R) : R := ln x / ln 10.
Definition free_space (km ghz : R) : R := 20 * log10 (km * ghz) + 92.45.
(** effective path length factor *)
Definition path_factor (km mm_per_h ghz : R) : R :=
  Rmin (1 / (0.477 * Rpower km 0.633 * Rpower mm_per_h (0.073 * 0.7486) * Rpower ghz 0.123 - 10.579 * (1 - exp (-0.024 * km)))) 2.5.
(** attenuation exceeded 0.01 percent of the time *)
Definition attenuation_001 (km mm_per_h ghz : R) : R := 0.8515 * Rpower mm_per_h 0.7486 * km * path_factor km mm_per_h ghz.
(** attenuation exceeded [percent] of the time *)
Definition attenuation (km mm_per_h ghz percent : R) : R :=
  let c0 := 0.12 + 0.4 * log10 (Rpower (ghz / 10) 0.8) in
  let c1 := Rpower 0.07 c0 * Rpower 0.12 (1 - c0) in
  let c2 := 0.855 * c0 + 0.546 * (1 - c0) in
  let c3 := 0.139 * c0 + 0.043 * (1 - c0) in
  attenuation_001 km mm_per_h ghz * c1 * Rpower percent (- (c2 + c3 * log10 percent)).
(** the weather and band for which the statements are made: no rain or at least 1 mm/h, 10 GHz to 1000 GHz *)
Definition weather (rain : R) : Prop := rain = 0 \/ 1 <= rain.
Definition band (mhz : R) : Prop := 10000 <= mhz <= 1000000.
(** oxygen absorption in dB per km at whole GHz *)
Definition absorption : list (R * R) :=
  [(52, 0); (53, 1); (54, 2.2); (55, 4); (56, 6.6); (57, 9.7); (58, 12.6); (59, 14.6); (60, 15); (61, 14.6); (62, 14.3); (63, 10.5); (64, 6.8); (65, 3.9); (66, 1.9); (67, 1); (68, 0)].
