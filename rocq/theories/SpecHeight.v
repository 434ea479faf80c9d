(** The reference attenuation of an area-mode link, and the height gain of its antennas. *)
From Verif Require Export SpecSmooth.
From Verif Require Import Prep Arith.
Open Scope R_scope.

(** Where a distance lies, by the entries lrprop leaves. *)
Inductive zone : Set := Sight | Diffraction | Scatter.
Definition zone_of (A : arith) (d : num A) (r : prop A) : res zone :=
  let! s := getn r DLSA in
  if n_ltb d s then Ok Sight else let! x := getn r DX in Ok (if n_leb d x then Diffraction else Scatter).
(** Library calls of a user: environment from qlrps at sea level with surface refractivity 301, random siting of both antennas with
    qlra, the attenuation at distance d with lrprop.  Returned with the error code and the zone. *)
Definition area_reference (A : arith) (f h0 h1 d dh eps sgm : num A) (ipol : Z) : res (num A * Z * zone) :=
  let! (wn, gme, ens, (zr, zi)) := qlrps A f (n_Z 0) (n_Z 301) ipol eps sgm in
  let p := fold_right (fun kx p => setn p (fst kx) (snd kx)) (empty_prop A)
    [(HG0, h0); (HG1, h1); (WN, wn); (ENS, ens); (GME, gme); (DH, dh); (ZGR, zr); (ZGI, zi)] in
  let! q := qlra A 0 0 (setz (setz (setz (setz p LVAR 5) MDVARX 12) KLIMX 5) KWX 0) in
  let! r := lrprop A d q in
  let! a := getn r AREF in
  let! k := getz r KWX in
  let! z := zone_of A d r in
  Ok (a, k, z).

(** Over smooth earth the diffraction loss is that of a sphere.  Its size in wavelengths; the ground constant and the argument of the
    height-gain function fht for an antenna of effective height he. *)
Definition earth_size (w : nkey -> R) : R := Rpower (/ w GME * w WN) (1 / 3).
Definition ground_constant (w : nkey -> R) : R := 1 / sqrt (w ZGR ^ 2 + w ZGI ^ 2) / earth_size w.
Definition gain_argument (he : R) (w : nkey -> R) : R := (1.607 - ground_constant w) * 151 * earth_size w * w GME * smooth_horizon he (w GME).
(** Scale of the diffraction region (xae in lrprop). *)
Definition diffraction_scale (w : nkey -> R) : R := Rpower (w WN * w GME ^ 2) (- (1 / 3)).
(** Past the threshold of fht between the formula for antennas close to the ground and the others. *)
Definition past_threshold (x k : R) : Prop := 200 <= x \/ k < 0.00001 \/ 5495 < x * (- ln k) ^ 3.
(** The same frequency, curvature and ground; the heights may differ. *)
Definition same_ground (w w' : nkey -> R) : Prop := forall k, In k [WN; GME; ZGR; ZGI] -> w' k = w k.
(** Effective heights of the terminals sited with codes k0 and k1 over smooth earth: the second link's are not lower. *)
Definition not_lower (k0 k1 k0' k1' : Z) (w w' : nkey -> R) : Prop :=
  effective_height k0 (w HG0) 0 <= effective_height k0' (w' HG0) 0 /\ effective_height k1 (w HG1) 0 <= effective_height k1' (w' HG1) 0.
(** An antenna of effective height he raised to he' without crossing the threshold of fht. *)
Definition not_crossing (he he' : R) (w : nkey -> R) : Prop :=
  past_threshold (gain_argument he w) (ground_constant w) \/ ~ past_threshold (gain_argument he' w) (ground_constant w).
(** d lies on the diffraction line according to the entries r left by lrprop. *)
Definition on_diffraction_line (r : prop RA) (d : R) : Prop := exists s x : R, pn r DLSA = Some s /\ s <= d /\ pn r DX = Some x /\ d <= x.
