(** Reference formulas for adiff and alos over the reals, in terms of the dictionary's values. *)
From Verif Require Export SpecDict RInst SpecCurves.
Open Scope R_scope.

(** [v] gives the values of the entries [ks]. *)
Definition values (p : prop RA) (ks : list nkey) (v : nkey -> R) : Prop := forall k, In k ks -> pn p k = Some (v k).

(** ** Diffraction *)
Definition knife (v2 : R) : R :=
  if Rle_dec v2 0 then knife_low 0.00001 else if Rlt_dec v2 5.76 then knife_low v2 else knife_high v2.
(** Bending angle at distance d; terrain irregularity at distance d. *)
Definition angle_at (v : nkey -> R) (d : R) : R := v THA + d * v GME.
Definition irregularity_at (v : nkey -> R) (d : R) : R := (1 - 0.8 * exp (- d / 50000)) * v DH.
(** Double knife edge: one edge per horizon. *)
Definition double_knife (v : nkey -> R) (d : R) : R :=
  let s := d - v DLA in
  let q := 0.0795775 * v WN * s * angle_at v d ^ 2 in
  knife (q * v DL0 / (s + v DL0)) + knife (q * v DL1 / (s + v DL1)).
(** Rounded earth between the horizons: effective radius a = s/theta. *)
Definition rounded_earth (v : nkey -> R) (d : R) : R :=
  let w := Rpower ((d - v DLA) / angle_at v d * v WN) (1 / 3) in
  let x := (1.607 - v QK / w) * 151 * w * angle_at v d + v XHT in
  0.05751 * x - 4.343 * ln x - v AHT.
(** Weight of the rounded earth. *)
Definition diff_weight (v : nkey -> R) (d : R) : R :=
  25.1 / (25.1 + sqrt ((v WD1 + v XD1 / d) * Rmin (irregularity_at v d * v WN) 6283.2)).

(** ** Line of sight *)
Definition cplus (x y : R * R) : R * R := (fst x + fst y, snd x + snd y).
Definition cscale (k : R) (x : R * R) : R * R := (k * fst x, k * snd x).
Definition cnorm2 (x : R * R) : R := fst x * fst x + snd x * snd x.
(** [x] divided by [y]: x * conj y / |y|^2. *)
Definition cquot (x y : R * R) : R * R :=
  cscale (/ cnorm2 y) (fst x * fst y + snd x * snd y, snd x * fst y - fst x * snd y).
(** Sine of the grazing angle; terrain roughness. *)
Definition graze (v : nkey -> R) (d : R) : R := (v HE0 + v HE1) / sqrt (d ^ 2 + (v HE0 + v HE1) ^ 2).
Definition quarter_power (x : R) : R := if Rlt_dec 0 x then Rpower x 0.25 else 0.
Definition roughness (v : nkey -> R) (d : R) : R :=
  let q := irregularity_at v d in 0.78 * q * exp (- quarter_power (q / 16)).
(** Reflection coefficient of rough ground with surface impedance zgnd; a weak reflection is raised to |r|^2 = graze. *)
Definition rough_reflection (v : nkey -> R) (d : R) : R * R :=
  let s := graze v d in
  cscale (exp (- Rmin 10 (v WN * roughness v d * s))) (cquot (s - v ZGR, - v ZGI) (s + v ZGR, v ZGI)).
Definition reflection (v : nkey -> R) (d : R) : R * R :=
  let r := rough_reflection v d in let s := graze v d in
  if Rlt_dec (cnorm2 r) (Rmax 0.25 s) then cscale (sqrt (s / cnorm2 r)) r else r.
(** Phase difference of the two rays, kept below pi. *)
Definition phase (v : nkey -> R) (d : R) : R :=
  let q := v WN * v HE0 * v HE1 * 2 / d in if Rlt_dec 1.57 q then 3.14 - 2.4649 / q else q.
(** Two-ray field, in dB of loss. *)
Definition two_ray (r : R * R) (ph : R) : R := -4.343 * ln (cnorm2 (cplus (cos ph, - sin ph) r)).
