(** Terrain profiles over the reals: sight lines, least-squares lines. *)
From Coq Require Import Sorting.Permutation Sorting.Sorted.
From Verif Require Export RInst Dict.
Open Scope R_scope.

(** A profile of np >= 1 intervals of length xi > 0 carries np + 1 heights. *)
Definition well_formed (f : profile RA) : Prop :=
  (1 <= pf_np f)%Z /\ 0 < pf_xi f /\ Z.of_nat (length (pf_z f)) = (pf_np f + 1)%Z.
Definition intervals (f : profile RA) : nat := Z.to_nat (pf_np f).
Definition ground (f : profile RA) (j : nat) : R := nth j (pf_z f : list R) 0.
Definition path_length (f : profile RA) : R := INR (intervals f) * (pf_xi f : R).

(** Take-off angle towards a point of height z at distance s, seen from height za over an earth of curvature gme. *)
Definition sight_angle (gme za z s : R) : R := (z - za) / s - gme / 2 * s.
(** All sights (distance, angle) of the terminal at the start of the profile (antenna height za) whose partner at the end has
    antenna height zb: every interior profile point, and the partner's antenna. *)
Definition sights (f : profile RA) (gme za zb : R) : list (R * R) :=
  (path_length f, sight_angle gme za zb (path_length f))
  :: map (fun j => (INR j * (pf_xi f : R), sight_angle gme za (ground f j) (INR j * (pf_xi f : R)))) (seq 1 (intervals f - 1)).
(** The profile traversed from the other end. *)
Definition reverse_profile (f : profile RA) : profile RA := Profile (pf_np f) (pf_xi f) (rev (pf_z f)).
(** [th] is the largest angle of the sights. *)
Definition largest_angle (l : list (R * R)) (th : R) : Prop := (exists d, In (d, th) l) /\ forall d a, In (d, a) l -> a <= th.
(** The sights of both terminals with antennas hg0, hg1 above their own ground. *)
Definition sights0 (f : profile RA) (hg0 hg1 gme : R) : list (R * R) :=
  sights f gme (ground f 0 + hg0) (ground f (intervals f) + hg1).
Definition sights1 (f : profile RA) (hg0 hg1 gme : R) : list (R * R) :=
  sights (reverse_profile f) gme (ground f (intervals f) + hg1) (ground f 0 + hg0).
(** No interior point rises above the straight line between the antennas. *)
Definition unobstructed (f : profile RA) (hg0 hg1 gme : R) : Prop :=
  forall d a, In (d, a) (sights0 f hg0 hg1 gme) ->
    a <= sight_angle gme (ground f 0 + hg0) (ground f (intervals f) + hg1) (path_length f).

(** ** Least squares *)
(** Sum over the samples lo..hi, the two end samples counting one half. *)
Definition trapezoid (lo hi : nat) (g : nat -> R) : R :=
  g lo / 2 + fold_right Rplus 0 (map g (seq (S lo) (hi - lo - 1))) + g hi / 2.
(** Weighted squared distance of the heights lo..hi from the line a + b*k. *)
Definition misfit (f : profile RA) (lo hi : nat) (a b : R) : R :=
  trapezoid lo hi (fun k => (ground f k - (a + b * INR k)) ^ 2).
(** a + b*k is the only line of least misfit. *)
Definition best_line (f : profile RA) (lo hi : nat) (a b : R) : Prop :=
  forall a' b', misfit f lo hi a b <= misfit f lo hi a' b' /\ (misfit f lo hi a' b' = misfit f lo hi a b -> a' = a /\ b' = b).
(** lo..hi are the samples around the distances x1..x2: the last sample not after max(x1, 0) and the first not before
    min(x2, length). *)
Definition window (f : profile RA) (x1 x2 : R) (lo hi : nat) : Prop :=
  INR lo <= Rmax (x1 / (pf_xi f : R)) 0 < INR lo + 1 /\
  INR hi - 1 < Rmin (x2 / (pf_xi f : R)) (INR (intervals f)) <= INR hi.
(** A window of positive width meeting the path. *)
Definition proper (f : profile RA) (x1 x2 : R) : Prop := x1 < x2 /\ 0 < x2 /\ x1 < path_length f.
(** The profile with the line a + b*k added to its heights; heights multiplied by c. *)
Definition add_line (f : profile RA) (a b : R) : profile RA :=
  Profile (pf_np f) (pf_xi f) (map (fun k => ground f k + (a + b * INR k)) (seq 0 (length (pf_z f)))).
Definition scale (f : profile RA) (c : R) : profile RA := Profile (pf_np f) (pf_xi f) (map (fun z : R => c * z) (pf_z f)).

(** ** Terrain irregularity *)
(** Height y of the terrain at distance d: linear between neighbouring samples. *)
Definition terrain_at (f : profile RA) (d y : R) : Prop :=
  exists k, (k < intervals f)%nat /\ INR k * (pf_xi f : R) <= d <= INR (S k) * (pf_xi f : R) /\
    y = ground f k + (ground f (S k) - ground f k) * ((d - INR k * (pf_xi f : R)) / (pf_xi f : R)).
(** s holds the heights at n equidistant points from x1 to x2. *)
Definition samples (f : profile RA) (x1 x2 : R) (n : nat) (s : list R) : Prop :=
  length s = n /\ forall j y, nth_error s j = Some y -> terrain_at f (x1 + INR j * ((x2 - x1) / INR (n - 1))) y.
(** k-th largest and k-th smallest of a list, counting from 1. *)
Definition kth_largest (l : list R) (k : nat) (v : R) : Prop :=
  exists l', Permutation l l' /\ StronglySorted Rge l' /\ nth_error l' (k - 1) = Some v.
Definition kth_smallest (l : list R) (k : nat) (v : R) : Prop :=
  exists l', Permutation l l' /\ StronglySorted Rle l' /\ nth_error l' (k - 1) = Some v.
(** Heights minus the line a + b*j. *)
Definition residuals (s : list R) (a b : R) : list R := map (fun j => nth j s 0 - (a + b * INR j)) (seq 0 (length s)).
(** A tenth of the number of intervals (plus 8), kept within 4..25. *)
Definition decile (w : R) (q : nat) : Prop :=
  exists m, IZR m <= (w + 8) / 10 < IZR m + 1 /\ Z.of_nat q = Z.min (Z.max 4 m) 25.
(** The terrain irregularity between x1 and x2: 10q-5 interpolated heights minus their best line; the q-th largest minus the
    q-th smallest, extrapolated to an infinite stretch. *)
Definition irregularity (f : profile RA) (x1 x2 dh : R) : Prop :=
  exists q s a b u v, decile ((x2 - x1) / (pf_xi f : R)) q /\ samples f x1 x2 (10 * q - 5) s /\
    best_line (@Profile RA (Z.of_nat (10 * q - 6)) 1 s) 0 (10 * q - 6) a b /\
    kth_largest (residuals s a b) q u /\ kth_smallest (residuals s a b) q v /\
    dh = (u - v) / (1 - 8 / 10 * exp (- ((x2 - x1) / 50000))).
