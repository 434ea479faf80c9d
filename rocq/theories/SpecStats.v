(** Reference formulas for the statistics avar caches, in terms of the dictionary's values. *)
From Verif Require Export SpecQuant.
Open Scope R_scope.

(** Frequency factor c1 + c2 / ((c3 ln(0.133 wn))^2 + 1). *)
Definition freq_factor (v : nkey -> R) (c1 c2 c3 : nkey) : R := v c1 + v c2 / ((v c3 * ln (0.133 * v WN)) ^ 2 + 1).
(** Distance at which diffraction and scatter losses are about equal over a smooth earth. *)
Definition equal_distance (v : nkey -> R) : R :=
  sqrt (18000000 * v HE0) + sqrt (18000000 * v HE1) + Rpower (575700000000000 / v WN) (1 / 3).
(** Effective distance: proportional up to 130 km at dexa, then kilometre by kilometre. *)
Definition effective_distance (v : nkey -> R) : R :=
  if Rlt_dec (v DIST) (v DEXA) then 130000 * v DIST / v DEXA else 130000 + v DIST - v DEXA.
Definition curve_at (v : nkey -> R) (c1 c2 x1 x2 x3 : nkey) (de : R) : R := climate_curve (v c1) (v c2) (v x1) (v x2) (v x3) de.
(** Location variability for terrain irregularity at the path length. *)
Definition location_dev (v : nkey -> R) : R := let q := irregularity_at v (v DIST) * v WN in 10 * q / (q + 13).

(** The entries that depend on the distance, [pp] location variability off, [interf] situation variability off. *)
Definition distance_stats (v : nkey -> R) (pp interf : bool) : Prop :=
  let de := effective_distance v in
  v VMD = curve_at v CV1 CV2 YV1 YV2 YV3 de /\
  v SGTM = curve_at v CSM1 CSM2 YSM1 YSM2 YSM3 de * v GM /\
  v SGTP = curve_at v CSP1 CSP2 YSP1 YSP2 YSP3 de * v GP /\
  v SGTD = v SGTP * v CSD1 /\ v TGTD = (v SGTP - v SGTD) * v ZD /\
  v SGL = (if pp then 0 else location_dev v) /\
  v VS0 = (if interf then 0 else (5 + 3 * exp (- de / 100000)) ^ 2).
Definition stat_keys : list nkey := climate_keys ++ [GM; GP; DEXA; VMD; SGTM; SGTP; SGTD; TGTD; SGL; VS0; DIST].
