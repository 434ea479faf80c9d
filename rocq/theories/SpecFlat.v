(** Paths over straight ground and the area prediction over smooth ground. *)
From Verif Require Export SpecTilt.
Open Scope R_scope.

(** The heights are those of the line c + b*k. *)
Definition straight (f : profile RA) (c b : R) : Prop := forall k, (k <= intervals f)%nat -> ground f k = c + b * INR k.
(** The path is not longer than the two smooth-earth horizon distances together. *)
Definition within_horizons (f : profile RA) (hg0 hg1 gme : R) : Prop := path_length f <= smooth_horizon hg0 gme + smooth_horizon hg1 gme.
(** All entries but mdp and the profile are equal; mdp is present in both. *)
Definition same_but_mdp (p q : prop RA) : Prop :=
  (forall k, pn q k = pn p k) /\ (forall k, k <> MDP -> pz q k = pz p k) /\ (forall k, pb q k = pb p k).
