(** When point-to-point mode can be evaluated. *)
From Verif Require Export SpecAreaRun SpecProfile SpecReverse.
Open Scope R_scope.

(** The logarithm of the rounded-earth attenuation is defined at both distances of the diffraction line. *)
Definition curve_ok (v : nkey -> R) : Prop := 0 < rounded_x v (diff_d3 v) /\ 0 < rounded_x v (diff_d4 v).
(** The caller's entries: frequency (MHz), distance (km), antenna heights (m), polarisation; at least two heights of terrain. *)
Definition path_request (p : prop RA) (z : list R) (d f h0 h1 : R) (ipol : Z) : Prop :=
  pn p FMHZ = Some f /\ pn p DKM = Some d /\ pn p HG0 = Some h0 /\ pn p HG1 = Some h1 /\ pz p IPOL = Some ipol /\
  0 < f /\ 0 < d /\ 0 < h0 /\ 0 < h1 /\ (2 <= length z)%nat.
(** v holds what p2p.py works with: the radio parameters of qlrps (C42), the terrain parameters qlrpfl draws from the
    profile (C41, C43) and the reference values of the derived ones (C56). *)
Definition path_values (z : list R) (d f h0 h1 : R) (ipol : Z) (v : nkey -> R) : Prop :=
  qlrps RA f 0 314 ipol 15 (5 / 1000)%R = Ok (v WN, v GME, v ENS, (v ZGR, v ZGI)) /\ v HG0 = h0 /\ v HG1 = h1 /\
  (forall q, path_entries q (script_path d z) v -> exists r, qlrpfl_geom RA q = Ok r /\ values r [DH; HE0; HE1; DL0; DL1; THE0; THE1] v) /\
  reference_params v true.
(** The scattering angle 200 km beyond the horizons is positive, or not needed. *)
Definition scatters (v : nkey -> R) (x : R) : Prop := v DLSA <= x -> 0 < scat_angle v (scat_d5 v).
