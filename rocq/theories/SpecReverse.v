(** The same path seen from its other end. *)
From Verif Require Export SpecProfile SpecSwap.
Open Scope R_scope.

(** q describes the path of p from its other end: terminals exchanged, profile reversed. *)
Definition other_way (p q : prop RA) : Prop := exchanged p q /\ exists f, ppfl p = Some f /\ ppfl q = Some (reverse_profile f).
(** Each terminal has one horizon: no two points are seen under its largest angle. *)
Definition one_horizon (l : list (R * R)) : Prop := forall a d d', largest_angle l a -> In (d, a) l -> In (d', a) l -> d = d'.
Definition single_horizons (f : profile RA) (hg0 hg1 gme : R) : Prop :=
  one_horizon (sights0 f hg0 hg1 gme) /\ one_horizon (sights1 f hg0 hg1 gme).
(** The ground is level over the first and over the last interval. *)
Definition level_ends (f : profile RA) : Prop :=
  ground f 1 = ground f 0 /\ ground f (intervals f - 1) = ground f (intervals f).
(** The two horizon distances together fall short of one and a half path lengths. *)
Definition obstructed (f : profile RA) (hg0 hg1 gme : R) : Prop :=
  forall a0 a1 d0 d1, largest_angle (sights0 f hg0 hg1 gme) a0 -> largest_angle (sights1 f hg0 hg1 gme) a1 ->
    In (d0, a0) (sights0 f hg0 hg1 gme) -> In (d1, a1) (sights1 f hg0 hg1 gme) -> d0 + d1 < 3 / 2 * path_length f.
(** The profile and curvature p2p.py uses for heights z over d kilometres. *)
Definition script_path (d : R) (z : list R) : profile RA :=
  @Profile RA (Z.of_nat (length z) - 1) (d * 1000 / IZR (Z.of_nat (length z) - 1)) z.
Definition script_curvature : R := 157 / 10 ^ 9 * (1 - 0.04665 * exp (314 / 179.3)).
