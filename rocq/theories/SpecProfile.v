(** What the preparation of a point-to-point path (qlrpfl) is expected to deliver, over the reals. *)
From Verif Require Export SpecTerrain SpecTerminal.
Open Scope R_scope.
(** A dictionary with a well-formed profile f and positive antenna heights and curvature v. *)
Definition path_entries (p : prop RA) (f : profile RA) (v : nkey -> R) : Prop :=
  ppfl p = Some f /\ well_formed f /\ values p [HG0; HG1; GME] v /\ 0 < v HG0 /\ 0 < v HG1 /\ 0 < v GME.
(** Antenna above the terrain trend: the structural height plus what the ground rises above the trend. *)
Definition above_trend (hg elevation trend : R) : R := hg + Rmax (elevation - trend) 0.
(** The terrain considered begins 15 antenna heights (at most a tenth of the horizon distance) from each terminal. *)
Definition setback (hg d : R) : R := Rmin (15 * hg) (d / 10).
