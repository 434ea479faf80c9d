(** Reference formulas for the attenuation curves (Longley-Rice / ESSA algorithm), over the reals. *)
From Coq Require Export Reals.
Open Scope R_scope.

(** Single knife edge, v2 the squared parameter: small and large v2. *)
Definition knife_low (v2 : R) : R := 6.02 + 9.11 * sqrt v2 - 1.27 * v2.
Definition knife_high (v2 : R) : R := 12.953 + 4.343 * ln v2.

(** Height gain over smooth earth: the far formula, and the near one for good ground. *)
Definition gain_far (x : R) : R := 0.05751 * x - 4.343 * ln x.
Definition gain_near (x : R) : R := 17.372 * ln x - 117.

(** Scatter distance function: coefficients a + b*td + c*ln td. *)
Definition scatter_fn (a b c td : R) : R := a + b * td + c * ln td.

(** Frequency gain for table row (a, b). *)
Definition freq_gain (a b r : R) : R := 4.343 * ln ((a * (/ r) ^ 2 + b) * (/ r) ^ 2 + 1).

(** Climate curve. *)
Definition climate_curve (c1 c2 x1 x2 x3 de : R) : R :=
  (c1 + c2 / (1 + ((de - x2) / x3) ^ 2)) * (de / x1) ^ 2 / (1 + (de / x1) ^ 2).
