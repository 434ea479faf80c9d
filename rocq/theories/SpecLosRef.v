(** Reference formulas for the line-of-sight coefficients of lrprop. *)
From Verif Require Export SpecSetup SpecRegime.
Open Scope R_scope.

(** Line-of-sight attenuation at distance d (C17). *)
Definition los_at (v : nkey -> R) (d : R) : R :=
  v WIS * two_ray (reflection v d) (phase v d) + (1 - v WIS) * (v EMD * d + v AED).
Definition fit_d0 (v : nkey -> R) : R := los_d0 (v WN) (v HE0) (v HE1) (v DLA) (v AED).
Definition fit_d1 (v : nkey -> R) : R := los_d1 (v WN) (v HE0) (v HE1) (v DLA) (v AED) (v EMD).
Definition fit_a2 (v : nkey -> R) : R := v AED + v EMD * v DLSA.
(** Coefficient of ln d of the curve k + ak1*d + ak2*ln d through the three points, not below 0. *)
Definition fit_ak2 (v : nkey -> R) : R :=
  let d0 := fit_d0 v in let d1 := fit_d1 v in let d2 := v DLSA in
  let a0 := los_at v d0 in let a1 := los_at v d1 in let a2 := fit_a2 v in
  Rmax 0 (((d2 - d0) * (a1 - a0) - (d1 - d0) * (a2 - a0)) / ((d2 - d0) * ln (d1 / d0) - (d1 - d0) * ln (d2 / d0))).
(** Coefficient of d of the curve through the first and last point, given that of ln d. *)
Definition fit_ak1 (v : nkey -> R) : R :=
  let d0 := fit_d0 v in (fit_a2 v - los_at v d0 - fit_ak2 v * ln (v DLSA / d0)) / (v DLSA - d0).
(** The three-point fit is used when d0 < d1 and the diffraction line is not negative at 0 or ak2 is positive. *)
Definition fit_used (v : nkey -> R) : Prop := fit_d0 v < fit_d1 v /\ (0 <= v AED \/ 0 < fit_ak2 v).
Definition los_params (v : nkey -> R) : Prop :=
  (fit_used v -> 0 <= fit_ak1 v -> v AK1 = fit_ak1 v /\ v AK2 = fit_ak2 v) /\
  (fit_used v -> fit_ak1 v < 0 ->
     v AK2 = Rmax 0 (fit_a2 v - los_at v (fit_d0 v)) / ln (v DLSA / fit_d0 v) /\ v AK1 = if Req_EM_T (v AK2) 0 then v EMD else 0) /\
  (~ fit_used v -> v AK2 = 0 /\
     v AK1 = let k := Rmax 0 (fit_a2 v - los_at v (fit_d1 v)) / (v DLSA - fit_d1 v) in if Req_EM_T k 0 then v EMD else k) /\
  v AEL = fit_a2 v - v AK1 * v DLSA - v AK2 * ln (v DLSA).
Definition los_keys : list nkey := [WN; DH; HE0; HE1; ZGR; ZGI; WIS; DLA; DLSA; AED; EMD; AK1; AK2; AEL].
