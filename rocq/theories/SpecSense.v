(** Two profiles of one path that differ in their heights. *)
From Verif Require Export SpecTerrain.
Open Scope R_scope.

(** Two profiles with the same number and spacing of samples. *)
Definition same_path (f g : profile RA) : Prop := well_formed f /\ well_formed g /\ pf_np g = pf_np f /\ pf_xi g = pf_xi f.
(** The heights of the samples lo..hi differ by at most e. *)
Definition heights_within (e : R) (lo hi : nat) (f g : profile RA) : Prop := forall k, (lo <= k <= hi)%nat -> - e <= ground g k - ground f k <= e.
(** The line through u at the first and v at the last sample, at sample k. *)
Definition line_at (f : profile RA) (u v : R) (k : nat) : R := u + (v - u) * INR k / INR (intervals f).
(** Where sample k lies relative to the samples lo..hi: -1 at lo, 1 at hi. *)
Definition offset (lo hi k : nat) : R := (2 * INR k - INR lo - INR hi) / (INR hi - INR lo).
