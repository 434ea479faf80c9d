(** Property theorems C12-C15, C18: the attenuation curves over exact reals. *)
From Verif Require Import RInst Atten Stats SpecCurves PfCurves PfH0f PfCurves2.
Open Scope R_scope.

(** * C12 *)
Theorem C12_knife_edge_formula : forall v : R, aknfe RA v =
  Ok (if Rle_dec v 0 then knife_low 0.00001 else if Rlt_dec v 5.76 then knife_low v else knife_high v).
Proof. exact aknfe_spec. Qed.
Print Assumptions C12_knife_edge_formula.

Theorem C12_knife_edge_at_least_6dB : forall v : R, exists y : R, aknfe RA v = Ok y /\ 6.02 < y.
Proof. exact aknfe_lower. Qed.
Print Assumptions C12_knife_edge_at_least_6dB.

Theorem C12_knife_edge_increasing_low : forall a b : R, 0 < a -> a < b -> b < 5.76 ->
  exists x y : R, aknfe RA a = Ok x /\ aknfe RA b = Ok y /\ x < y.
Proof. exact aknfe_increasing_low. Qed.
Print Assumptions C12_knife_edge_increasing_low.

Theorem C12_knife_edge_increasing_high : forall a b : R, 5.76 <= a -> a < b ->
  exists x y : R, aknfe RA a = Ok x /\ aknfe RA b = Ok y /\ x < y.
Proof. exact aknfe_increasing_high. Qed.
Print Assumptions C12_knife_edge_increasing_high.

Theorem C12_knife_edge_step : forall v : R, 5.75 <= v < 5.76 ->
  exists x y : R, aknfe RA v = Ok x /\ aknfe RA 5.76 = Ok y /\ Rabs (x - y) <= 0.018.
Proof. exact aknfe_step. Qed.
Print Assumptions C12_knife_edge_step.

(** Globally: not monotone, but it never drops by more than 0.029 dB. *)
Theorem C12_knife_edge_monotone_partial : forall a b : R, a <= b ->
  exists x y : R, aknfe RA a = Ok x /\ aknfe RA b = Ok y /\ x < y + 0.029.
Proof. exact aknfe_near_monotone. Qed.
Print Assumptions C12_knife_edge_monotone_partial.

Theorem C12_knife_edge_monotone_refuted :
  exists a b x y : R, a < b /\ aknfe RA a = Ok x /\ aknfe RA b = Ok y /\ y < x.
Proof. exact aknfe_not_monotone. Qed.
Print Assumptions C12_knife_edge_monotone_refuted.

Example C12_case : aknfe RA 4 = Ok (6.02 + 9.11 * sqrt 4 - 1.27 * 4) /\ 0 < 1 < 4 /\ 4 < 5.76.
Proof.
  rewrite aknfe_spec. unfold knife_low. destruct (Rle_dec 4 0); [lra|]. destruct (Rlt_dec 4 5.76); [|lra].
  repeat split; lra.
Qed.

(** * C13 *)
Theorem C13_height_gain_total : forall x pk : R, 0 < pk -> exists y : R, fht RA x pk = Ok y.
Proof. exact fht_total. Qed.
Print Assumptions C13_height_gain_total.

Theorem C13_height_gain_far : forall x pk : R, 2000 <= x -> fht RA x pk = Ok (gain_far x).
Proof. exact fht_far. Qed.
Print Assumptions C13_height_gain_far.

Theorem C13_height_gain_increasing : forall a b pk : R, 2000 <= a -> a < b ->
  exists x y : R, fht RA a pk = Ok x /\ fht RA b pk = Ok y /\ x < y.
Proof. exact fht_increasing_far. Qed.
Print Assumptions C13_height_gain_increasing.

Theorem C13_height_gain_between : forall x pk : R, 200 <= x < 2000 -> exists y : R, fht RA x pk = Ok y /\
  Rmin (gain_far x) (gain_near x) <= y <= Rmax (gain_far x) (gain_near x).
Proof. exact fht_blend. Qed.
Print Assumptions C13_height_gain_between.

Theorem C13_height_gain_join_2000 : forall x pk : R, 1999.9 <= x < 2000 ->
  exists y z : R, fht RA x pk = Ok y /\ fht RA 2000 pk = Ok z /\ Rabs (y - z) <= 0.1.
Proof. exact fht_join_2000. Qed.
Print Assumptions C13_height_gain_join_2000.

Theorem C13_height_gain_join_200 : forall x pk : R, 0 < pk -> pk < 0.00001 \/ 5495 < x * (- ln pk) ^ 3 ->
  199.9 <= x < 200 -> exists y z : R, fht RA x pk = Ok y /\ fht RA 200 pk = Ok z /\ Rabs (y - z) <= 0.2.
Proof. exact fht_join_200. Qed.
Print Assumptions C13_height_gain_join_200.

Example C13_case : fht RA 3000 0.01 = Ok (gain_far 3000) /\
  exists y : R, fht RA 500 0.01 = Ok y /\ Rmin (gain_far 500) (gain_near 500) <= y.
Proof.
  split; [apply fht_far; lra|]. destruct (fht_blend 500 0.01 ltac:(lra)) as [y [E [H _]]]. exists y. split; assumption.
Qed.

(** * C14 *)
Theorem C14_scatter_function_formula : forall td : R, 0 < td -> ahd RA td =
  Ok (if Rle_dec td 10000 then scatter_fn 133.4 0.000332 (-4.343) td
      else if Rle_dec td 70000 then scatter_fn 104.6 0.000212 (-1.086) td
      else scatter_fn 71.8 0.000157 2.171 td).
Proof. exact ahd_spec. Qed.
Print Assumptions C14_scatter_function_formula.

Theorem C14_scatter_function_domain : forall td : R, td <= 0 -> ahd RA td = Err NotReal.
Proof. exact ahd_fails. Qed.
Print Assumptions C14_scatter_function_domain.

Theorem C14_scatter_function_join_10km : forall b : R, 10000 < b <= 10001 ->
  exists x y : R, ahd RA 10000 = Ok x /\ ahd RA b = Ok y /\ Rabs (x - y) <= 0.01.
Proof. exact ahd_join_10k. Qed.
Print Assumptions C14_scatter_function_join_10km.

Theorem C14_scatter_function_join_70km : forall b : R, 70000 < b <= 70001 ->
  exists x y : R, ahd RA 70000 = Ok x /\ ahd RA b = Ok y /\ Rabs (x - y) <= 0.35.
Proof. exact ahd_join_70k. Qed.
Print Assumptions C14_scatter_function_join_70km.

Theorem C14_scatter_function_increasing_mid : forall a b : R, 10000 < a -> a < b -> b <= 70000 ->
  exists x y : R, ahd RA a = Ok x /\ ahd RA b = Ok y /\ x < y.
Proof. exact ahd_increasing_mid. Qed.
Print Assumptions C14_scatter_function_increasing_mid.

Theorem C14_scatter_function_increasing_far : forall a b : R, 70000 < a -> a < b ->
  exists x y : R, ahd RA a = Ok x /\ ahd RA b = Ok y /\ x < y.
Proof. exact ahd_increasing_far. Qed.
Print Assumptions C14_scatter_function_increasing_far.

Example C14_case : ahd RA 10000 = Ok (133.4 + 0.000332 * 10000 + (-4.343) * ln 10000) /\
  ahd RA 80000 = Ok (71.8 + 0.000157 * 80000 + 2.171 * ln 80000).
Proof.
  rewrite !ahd_spec by lra. unfold scatter_fn. destruct (Rle_dec 10000 10000); [|lra].
  destruct (Rle_dec 80000 10000); [lra|]. destruct (Rle_dec 80000 70000); [lra|]. split; reflexivity.
Qed.

(** * C15 *)
Theorem C15_frequency_gain_rows : forall r : R, r <> 0 ->
  h0f RA r 1 = Ok (freq_gain 25 24 r) /\ h0f RA r 2 = Ok (freq_gain 80 45 r) /\ h0f RA r 3 = Ok (freq_gain 177 68 r) /\
  h0f RA r 4 = Ok (freq_gain 395 80 r) /\ h0f RA r 5 = Ok (freq_gain 705 105 r).
Proof. exact h0f_rows. Qed.
Print Assumptions C15_frequency_gain_rows.

Theorem C15_frequency_gain_interpolates : forall (r e : R) (k : nat), r <> 0 -> (1 <= k < 5)%nat ->
  INR k <= e <= INR k + 1 -> exists x y : R, h0f RA r (INR k) = Ok x /\ h0f RA r (INR k + 1)%R = Ok y /\
    h0f RA r e = Ok (x + (e - INR k) * (y - x))%R.
Proof. exact h0f_interp. Qed.
Print Assumptions C15_frequency_gain_interpolates.

Theorem C15_frequency_gain_positive : forall r et : R, r <> 0 -> exists y : R, h0f RA r et = Ok y /\ 0 < y.
Proof. exact h0f_pos. Qed.
Print Assumptions C15_frequency_gain_positive.

Theorem C15_frequency_gain_monotone_et : forall r e e' : R, r <> 0 -> e <= e' ->
  exists x y : R, h0f RA r e = Ok x /\ h0f RA r e' = Ok y /\ x <= y.
Proof. exact h0f_mono_et. Qed.
Print Assumptions C15_frequency_gain_monotone_et.

Theorem C15_frequency_gain_decreasing_r : forall r s et : R, 0 < r -> r < s ->
  exists x y : R, h0f RA r et = Ok x /\ h0f RA s et = Ok y /\ y < x.
Proof. exact h0f_decr_r. Qed.
Print Assumptions C15_frequency_gain_decreasing_r.

Theorem C15_frequency_gain_clamped : forall r e : R, r <> 0 ->
  (e <= 1 -> h0f RA r e = h0f RA r 1) /\ (5 <= e -> h0f RA r e = h0f RA r 5).
Proof. exact (fun r e H => conj (h0f_clamp_low r e H) (h0f_clamp_high r e H)). Qed.
Print Assumptions C15_frequency_gain_clamped.

(** Lipschitz in et, hence continuous. *)
Theorem C15_frequency_gain_continuous : forall r e e' : R, r <> 0 ->
  exists x y z : R, h0f RA r e = Ok x /\ h0f RA r e' = Ok y /\ h0f RA r 5 = Ok z /\ Rabs (x - y) <= z * Rabs (e - e').
Proof. exact h0f_lipschitz. Qed.
Print Assumptions C15_frequency_gain_continuous.

Example C15_case : (1 : R) <> 0 /\ h0f RA 1 1 = Ok (freq_gain 25 24 1) /\
  exists x y : R, h0f RA 1 1 = Ok x /\ h0f RA 2 1 = Ok y /\ y < x.
Proof. split; [lra|]. split; [apply h0f_rows; lra|]. apply h0f_decr_r; lra. Qed.

(** * C18 *)
Theorem C18_climate_curve_formula : forall c1 c2 x1 x2 x3 de : R, x1 <> 0 -> x3 <> 0 ->
  curv RA c1 c2 x1 x2 x3 de = Ok (climate_curve c1 c2 x1 x2 x3 de).
Proof. exact curv_spec. Qed.
Print Assumptions C18_climate_curve_formula.

Theorem C18_climate_curve_zero : forall c1 c2 x1 x2 x3 : R, x1 <> 0 -> x3 <> 0 -> curv RA c1 c2 x1 x2 x3 0 = Ok 0.
Proof. exact curv_at_0. Qed.
Print Assumptions C18_climate_curve_zero.

Theorem C18_climate_curve_bounded : forall c1 c2 x1 x2 x3 de : R, x1 <> 0 -> x3 <> 0 ->
  exists y : R, curv RA c1 c2 x1 x2 x3 de = Ok y /\ Rabs y <= Rabs c1 + Rabs c2.
Proof. exact curv_bound. Qed.
Print Assumptions C18_climate_curve_bounded.

Theorem C18_climate_curve_nonneg : forall c1 c2 x1 x2 x3 de : R, x1 <> 0 -> x3 <> 0 -> 0 <= c1 -> 0 <= c2 ->
  exists y : R, curv RA c1 c2 x1 x2 x3 de = Ok y /\ 0 <= y.
Proof. exact curv_nonneg. Qed.
Print Assumptions C18_climate_curve_nonneg.

Theorem C18_climate_curve_limit : forall c1 c2 x1 x2 x3 : R, x1 <> 0 -> x3 <> 0 -> forall eps : R, 0 < eps ->
  exists D : R, forall de : R, D <= de -> exists y : R, curv RA c1 c2 x1 x2 x3 de = Ok y /\ Rabs (y - c1) < eps.
Proof. exact curv_limit. Qed.
Print Assumptions C18_climate_curve_limit.

(** sigma_T+ of climate 5 at de = 130 km, from the table of avar. *)
Example C18_case : exists y : R, curv RA 4.75 8.12 93200 135900 113400 130000 = Ok y /\ 0 <= y.
Proof. apply curv_nonneg; lra. Qed.
