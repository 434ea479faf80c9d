(** Inputs on which lrprop is meant to be evaluated, and the coincidences that still make it fail. *)
From Verif Require Export SpecSetup SpecScat SpecLosRef.
Open Scope R_scope.

(** Wave number, earth curvature, heights and horizon distances positive; terrain irregularity not negative;
    ground impedance with positive real part. *)
Definition physical (v : nkey -> R) : Prop :=
  0 < v WN /\ 0 < v GME /\ 0 <= v DH /\ 0 < v HG0 /\ 0 < v HG1 /\ 0 < v HE0 /\ 0 < v HE1 /\ 0 < v DL0 /\ 0 < v DL1 /\ 0 < v ZGR.
(** The impedance is not too small for a sphere of radius a (its constant 1/(|z| (a wn)^(1/3)) is below 1.607). *)
Definition not_too_conducting (v : nkey -> R) (a : R) : Prop := 1 < 1.607 * sqrt (v ZGR ^ 2 + v ZGI ^ 2) * Rpower (a * v WN) (1 / 3).
(** Excess of the bending angle at the sum of the horizon distances; the radius of the sphere between the horizons s apart. *)
Definition excess (v : nkey -> R) : R := Rmax 0 (v THE0 + v THE1 + (v DL0 + v DL1) * v GME).
Definition between_radius (v : nkey -> R) (s : R) : R := s / (excess v + s * v GME).
Definition smallest_gap (v : nkey -> R) : R := 1.3787 * Rpower (v WN * v GME ^ 2) (- (1 / 3)).
(** The three radii. *)
Definition ground_ok (v : nkey -> R) : Prop :=
  not_too_conducting v (v DL0 ^ 2 / (2 * v HE0)) /\ not_too_conducting v (v DL1 ^ 2 / (2 * v HE1)) /\
  not_too_conducting v (between_radius v (smallest_gap v)).
(** The argument of the logarithm in the rounded-earth attenuation (SpecAtten.rounded_earth). *)
Definition rounded_x (v : nkey -> R) (d : R) : R :=
  let w := Rpower ((d - v DLA) / angle_at v d * v WN) (1 / 3) in (1.607 - v QK / w) * 151 * w * angle_at v d + v XHT.

(** The ground does not absorb the reflected ray completely at distance d. *)
Definition reflects (v : nkey -> R) (d : R) : Prop := v ZGI <> 0 \/ v ZGR <> graze v d.
(** The sample points of the line-of-sight fit are defined, differ from dlsa and reflect. *)
Definition los_ok (v : nkey -> R) : Prop :=
  (0 <= v AED \/ v EMD <> 0) /\ fit_d1 v <> v DLSA /\ reflects v (fit_d1 v) /\
  (fit_d0 v < fit_d1 v -> fit_d0 v <> v DLSA /\ reflects v (fit_d0 v)).
(** The scattering angle is positive at the nearer distance and the scatter line not parallel to the diffraction line. *)
Definition scat_ok (v : nkey -> R) : Prop :=
  0 < scat_angle v (scat_d5 v) /\
  let a6 := scatter v (scat_d6 v) (path_gain v (scat_d6 v)) in let a5 := scatter v (scat_d5 v) (near_gain v) in
  a5 < 1000 -> v EMD <> (a6 - a5) / 200000.
(** The secondary parameters by the reference formulas (C56); [p2p]: point-to-point mode. *)
Definition reference_params (v : nkey -> R) (p2p : bool) : Prop := geometry_params v /\ diffraction_params v p2p /\ line_params v.
(** Ranges in which no ground with |z| >= 1/50 is too conducting: wave number and earth curvature as in lrprop's own
    checks, horizons not nearer than a tenth of the smooth-earth distance, excess of the bending angle at most 1 rad. *)
Definition ordinary (v : nkey -> R) : Prop :=
  0.838 <= v WN /\ v GME <= 250 / 1000000000 /\ sqrt (2 * v HE0 / v GME) <= 10 * v DL0 /\ sqrt (2 * v HE1 / v GME) <= 10 * v DL1 /\
  excess v <= 1 /\ 1 / 50 <= sqrt (v ZGR ^ 2 + v ZGI ^ 2).
(** The caller's entries for area mode, in everyday ranges (frequency from 40 MHz, antennas from half a metre to
    3 km, irregularity up to 500 m). *)
Definition area_ranges (v : nkey -> R) : Prop :=
  0.838 <= v WN /\ 0 < v GME <= 250 / 1000000000 /\ 0.5 <= v HG0 <= 3000 /\ 0.5 <= v HG1 <= 3000 /\ 0 <= v DH <= 500 /\
  0 < v ZGR /\ 1 / 50 <= sqrt (v ZGR ^ 2 + v ZGI ^ 2).
