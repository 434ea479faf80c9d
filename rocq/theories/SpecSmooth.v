(** Links over smooth earth. *)
From Verif Require Export SpecFlat SpecTerminal.
Open Scope R_scope.

(** The caller's entries but for the terrain: frequency from 40 MHz, at least the curvature-reducing refractivity of the atmosphere
    (qlrps never returns more than 157e-9), antennas from half a metre to 3 km, ground impedance at least 1/50. *)
Definition link_entries (p : prop RA) (w : nkey -> R) : Prop :=
  values p [HG0; HG1; WN; ENS; GME; ZGR; ZGI] w /\
  0.838 <= w WN /\ 0 < w GME <= 157 / 1000000000 /\ 0.5 <= w HG0 <= 3000 /\ 0.5 <= w HG1 <= 3000 /\
  0 < w ZGR /\ 1 / 50 <= sqrt (w ZGR ^ 2 + w ZGI ^ 2) /\
  exists lv mx kx kw, pz p LVAR = Some lv /\ pz p MDVARX = Some mx /\ pz p KLIMX = Some kx /\ pz p KWX = Some kw.
(** Distance to the common horizon of the terminals sited with codes k0 and k1. *)
Definition common_horizon (k0 k1 : Z) (w : nkey -> R) : R :=
  smooth_horizon (effective_height k0 (w HG0) 0) (w GME) + smooth_horizon (effective_height k1 (w HG1) 0) (w GME).
(** In the entries r left by a call of lrprop: y lies before the smooth-earth horizon or on the diffraction line, or the scatter line does not fall. *)
Definition before_scatter (r : prop RA) (y : R) : Prop :=
  exists s, pn r DLSA = Some s /\ y < s \/ pn r DX = Some s /\ y <= s \/ pn r EMS = Some s /\ 0 <= s.
