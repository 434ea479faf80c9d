(** The whole calculation in formulas: from the entries of the dictionary to the loss in the tables. *)
From Verif Require Export SpecPimter SpecStats SpecScat SpecLosRef.
Open Scope R_scope.

(** The coefficients of the branch used at distance x, and the reference attenuation there. *)
Definition regime_params (v : nkey -> R) (x : R) : Prop := (x < v DLSA -> los_params v) /\ (v DLSA <= x -> scatter_params v).
Definition attenuation_at (v : nkey -> R) (x : R) : R :=
  Rmax 0 (if Rlt_dec x (v DLSA) then v AEL + v AK1 * x + v AK2 * ln x
          else if Rle_dec x (v DX) then v AED + v EMD * x else v AES + v EMS * x).
(** The variability code: tens off the location variability, twenties also the situation variability; units the mode. *)
Definition no_situations (m : Z) : bool := (20 <=? m)%Z.
Definition without_situations (m : Z) : Z := if no_situations m then (m - 20)%Z else m.
Definition no_locations (m : Z) : bool := (10 <=? without_situations m)%Z.
Definition variability_mode (m : Z) : Z :=
  let k := if no_locations m then (without_situations m - 10)%Z else without_situations m in if (0 <=? k)%Z && (k <=? 3)%Z then k else 0%Z.
(** v holds the statistics of climate k for variability code m. *)
Definition full_statistics (k m : Z) (v : nkey -> R) : Prop :=
  map v climate_keys = @climate_row RA k /\ v GM = freq_factor v CFM1 CFM2 CFM3 /\ v GP = freq_factor v CFP1 CFP2 CFP3 /\
  v DEXA = equal_distance v /\ distance_stats v (no_locations m) (no_situations m).
(** Attenuation exceeded with the deviates t (time), l (locations), c (situations), and the loss at distance x. *)
Definition attenuation_for (v : nkey -> R) (m : Z) (t l c : R) : R := squash (raw_quantile v (variability_mode m) t l c).
Definition free_space (v : nkey -> R) (x : R) : R := 8.685890 * ln (2 * v WN * x).
(** v holds everything the loss at distance x is computed from, beyond the path parameters: the coefficients of the branch in use,
    the reference attenuation and the statistics of climate k for variability code m. *)
Definition prediction (v : nkey -> R) (x : R) (k m : Z) : Prop :=
  v DIST = x /\ regime_params v x /\ v AREF = attenuation_at v x /\ full_statistics k m v.
(** The same for a distance reached by steps from x0: within the smooth-earth horizon the reference attenuation is that at x0 (C05). *)
Definition area_prediction (v : nkey -> R) (x0 x : R) (k m : Z) : Prop :=
  v DIST = x /\ regime_params v x /\ v AREF = attenuation_at v (if Rlt_dec x (v DLSA) then x0 else x) /\ full_statistics k m v.
