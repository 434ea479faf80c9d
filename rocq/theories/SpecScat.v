(** Reference formulas for troposcatter: the values ascat computes for lrprop and the scatter line. *)
From Verif Require Export SpecSetup.
Open Scope R_scope.

(** Distance function of C14, frequency gain of C15. *)
Definition distance_fn (td : R) : R :=
  if Rle_dec td 10000 then scatter_fn 133.4 0.000332 (-4.343) td
  else if Rle_dec td 70000 then scatter_fn 104.6 0.000212 (-1.086) td else scatter_fn 71.8 0.000157 2.171 td.
Definition lerp (x y t : R) : R := x + t * (y - x).
Definition gain_at (r e : R) : R :=
  if Rle_dec e 1 then freq_gain 25 24 r
  else if Rle_dec e 2 then lerp (freq_gain 25 24 r) (freq_gain 80 45 r) (e - 1)
  else if Rle_dec e 3 then lerp (freq_gain 80 45 r) (freq_gain 177 68 r) (e - 2)
  else if Rle_dec e 4 then lerp (freq_gain 177 68 r) (freq_gain 395 80 r) (e - 3)
  else if Rle_dec e 5 then lerp (freq_gain 395 80 r) (freq_gain 705 105 r) (e - 4)
  else freq_gain 705 105 r.

(** Path asymmetry: difference of the horizon distances, ratio of the heights (farther horizon's terminal below). *)
Definition skew (v : nkey -> R) : R := Rabs (v DL0 - v DL1).
Definition ratio (v : nkey -> R) : R := if Rlt_dec (v DL0) (v DL1) then v HE0 / v HE1 else v HE1 / v HE0.
(** Scattering angle; normalised heights of the terminals; height of the scattering volume. *)
Definition scat_angle (v : nkey -> R) (d : R) : R := v THE0 + v THE1 + d * v GME.
Definition norm_h (v : nkey -> R) (d he : R) : R := 2 * v WN * scat_angle v d * he.
Definition volume (v : nkey -> R) (d : R) : R := (d - skew v) * (d + skew v) * scat_angle v d / (4 * d).
Definition efficiency (v : nkey -> R) (d : R) : R :=
  let etq := (0.00000567 * v ENS - 0.00232) * v ENS + 0.031 in
  (1 + etq * exp (- Rmin 1.7 (volume v d / 8000) ^ 6)) * volume v d / 1755.6.
(** Frequency gain function of the path. *)
Definition path_gain (v : nkey -> R) (d : R) : R :=
  let r1 := norm_h v d (v HE0) in let r2 := norm_h v d (v HE1) in
  let s := (d - skew v) / (d + skew v) in let q := ratio v / s in
  let et := efficiency v d in let e := Rmax et 1 in
  let h := (gain_at r1 e + gain_at r2 e) / 2 in
  let h := Rmax 0 (h + Rmin h (0.49 * (1.38 - ln e) * ln (Rmax 0.1 s) * ln (Rmin 10 (Rmax 0.1 q)))) in
  if Rlt_dec et 1 then
    et * h + (1 - et) * 4.343 * ln (((1 + 1.4142 / r1) * (1 + 1.4142 / r2)) ^ 2 * (r1 + r2) / (r1 + r2 + 2.8284))
  else h.
(** Scatter attenuation for frequency gain h. *)
Definition scatter (v : nkey -> R) (d h : R) : R :=
  distance_fn (angle_at v d * d) + 4.343 * ln (47.7 * v WN * angle_at v d ^ 4)
  - 0.1 * (v ENS - 301) * exp (- (angle_at v d * d) / 40000) + h.

(** The two distances, the farther one evaluated first; the gain kept from it ([-15]: none, both normalised
    heights below 0.2) and the gain used for the nearer one. *)
Definition scat_d5 (v : nkey -> R) : R := v DLA + 200000.
Definition scat_d6 (v : nkey -> R) : R := v DLA + 400000.
Definition kept_gain (v : nkey -> R) : R :=
  let d := scat_d6 v in
  if Rlt_dec (norm_h v d (v HE0)) 0.2 then if Rlt_dec (norm_h v d (v HE1)) 0.2 then -15 else path_gain v d else path_gain v d.
Definition near_gain (v : nkey -> R) : R :=
  let k := kept_gain v in let h := path_gain v (scat_d5 v) in
  if Rlt_dec 15 k then k else if Rlt_dec 15 h then if Rle_dec 0 k then k else h else h.
Definition scatter_params (v : nkey -> R) : Prop :=
  let a6 := scatter v (scat_d6 v) (path_gain v (scat_d6 v)) in let a5 := scatter v (scat_d5 v) (near_gain v) in
  if Rlt_dec a5 1000 then
    v EMS = (a6 - a5) / 200000 /\
    v DX = Rmax (Rmax (v DLSA) (v DLA + 0.3 * v XAE * ln (47.7 * v WN))) ((a5 - v AED - v EMS * scat_d5 v) / (v EMD - v EMS)) /\
    v AES = v AED + (v EMD - v EMS) * v DX
  else v EMS = v EMD /\ v AES = v AED /\ v DX = 10000000.
Definition scatter_keys : list nkey :=
  [WN; GME; ENS; HE0; HE1; DL0; DL1; THE0; THE1; DLSA; DLA; THA; XAE; AED; EMD; EMS; AES; DX].
