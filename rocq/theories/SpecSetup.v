(** Reference formulas for the secondary parameters lrprop computes, in terms of the dictionary's values. *)
From Verif Require Export SpecAtten.
Open Scope R_scope.

(** Height gain over smooth earth for parameter x and ground constant k. *)
Definition height_gain (x k : R) : R :=
  if Rlt_dec x 200 then
    if Rlt_dec k 0.00001 then if Rlt_dec 1 x then gain_near x else -117
    else if Rlt_dec 5495 (x * (- ln k) ^ 3) then if Rlt_dec 1 x then gain_near x else -117
    else 0.000025 * x ^ 2 / k + 8.686 * ln k - 15
  else if Rlt_dec x 2000 then let w := 0.0134 * x * exp (-0.005 * x) in (1 - w) * gain_far x + w * gain_near x
  else gain_far x.

(** Three radii method: the sphere in front of a terminal with horizon distance dl and effective height he. *)
Definition sphere (v : nkey -> R) (dl he : R) : R := Rpower (dl ^ 2 / (2 * he) * v WN) (1 / 3).
Definition sphere_k (v : nkey -> R) (dl he : R) : R := v QK / sphere v dl he.
Definition sphere_x (v : nkey -> R) (dl he : R) : R := (1.607 - sphere_k v dl he) * 151 * sphere v dl he * (2 * he) / dl.

(** Diffraction attenuation at distance d (C11). *)
Definition diffraction (v : nkey -> R) (d : R) : R :=
  let w := diff_weight v d in w * rounded_earth v d + (1 - w) * double_knife v d + v AFO.
(** The two distances through which the diffraction line is drawn. *)
Definition diff_d3 (v : nkey -> R) : R := Rmax (v DLSA) (v DLA + 1.3787 * v XAE).
Definition diff_d4 (v : nkey -> R) : R := diff_d3 v + 2.7574 * v XAE.

Definition geometry_params (v : nkey -> R) : Prop :=
  v DLS0 = sqrt (2 * v HE0 / v GME) /\ v DLS1 = sqrt (2 * v HE1 / v GME) /\ v DLSA = v DLS0 + v DLS1 /\
  v DLA = v DL0 + v DL1 /\ v THA = Rmax (v THE0 + v THE1) (- v DLA * v GME) /\ v DMIN = Rabs (v HE0 - v HE1) / 0.2.
(** [p2p]: point-to-point mode. *)
Definition diffraction_params (v : nkey -> R) (p2p : bool) : Prop :=
  v WD1 = sqrt (1 + (v HE0 * v HE1 - v HG0 * v HG1) / (v HG0 * v HG1 + (if p2p then 10 else 0))) /\
  v XD1 = v DLA + v THA / v GME /\
  v AFO = Rmin 15 (2.171 * ln (1 + 0.000477 * v HG0 * v HG1 * v WN * roughness v (v DLSA))) /\
  v QK = 1 / sqrt (v ZGR ^ 2 + v ZGI ^ 2) /\
  v XHT = sphere_x v (v DL0) (v HE0) + sphere_x v (v DL1) (v HE1) /\
  v AHT = 20 + height_gain (sphere_x v (v DL0) (v HE0)) (sphere_k v (v DL0) (v HE0))
             + height_gain (sphere_x v (v DL1) (v HE1)) (sphere_k v (v DL1) (v HE1)).
Definition line_params (v : nkey -> R) : Prop :=
  v XAE = Rpower (v WN * v GME ^ 2) (- (1 / 3)) /\
  v AED + v EMD * diff_d3 v = diffraction v (diff_d3 v) /\ v AED + v EMD * diff_d4 v = diffraction v (diff_d4 v) /\
  v WIS = 0.021 / (0.021 + v WN * v DH / Rmax 10000 (v DLSA)).
(** The caller's entries. *)
Definition setup_inputs : list nkey := [WN; GME; DH; HG0; HG1; HE0; HE1; DL0; DL1; THE0; THE1; ZGR; ZGI].
Definition setup_keys : list nkey :=
  [WN; GME; DH; HG0; HG1; HE0; HE1; DL0; DL1; THE0; THE1; ZGR; ZGI;
   DLS0; DLS1; DLSA; DLA; THA; DMIN; WD1; XD1; AFO; QK; XHT; AHT; XAE; AED; EMD; WIS].
