(** Property theorems C28..C35: horizons, least-squares line and terrain irregularity of a profile, over the reals. *)
From Verif Require Import RInst SpecTerrain Prep PfHzns PfLsq PfDlthx PfTerrainCases.
Open Scope R_scope.

(** * C28 *)
(** hzns never fails; both angles are the largest over all interior points and the far antenna; unobstructed: both
    horizons are the path length. *)
Theorem C28_horizons : forall (f : profile RA) (hg0 hg1 gme : R), well_formed f ->
  exists t0 t1 d0 d1 : R, hzns RA f (path_length f) hg0 hg1 gme = Ok (t0, t1, d0, d1) /\
    largest_angle (sights0 f hg0 hg1 gme) t0 /\ largest_angle (sights1 f hg0 hg1 gme) t1 /\
    (unobstructed f hg0 hg1 gme -> d0 = path_length f /\ d1 = path_length f).
Proof. exact hzns_angles. Qed.
Print Assumptions C28_horizons.
Example C28_case_obstructed : well_formed hill /\ ~ unobstructed hill 10 10 0.
Proof. exact hill_obstructed. Qed.
Example C28_case_unobstructed : well_formed valley /\ unobstructed valley 10 10 0.
Proof. exact valley_clear. Qed.

(** * C29 *)
Theorem C29_horizon_distance : forall (f : profile RA) (hg0 hg1 gme t0 t1 d0 d1 : R), well_formed f ->
  hzns RA f (path_length f) hg0 hg1 gme = Ok (t0, t1, d0, d1) ->
  In (d0, t0) (sights0 f hg0 hg1 gme) /\ In (d1, t1) (sights1 f hg0 hg1 gme) /\
  0 < d0 <= path_length f /\ 0 < d1 <= path_length f.
Proof. exact hzns_distances. Qed.
Print Assumptions C29_horizon_distance.

(** * C30 *)
Theorem C30_reversal : forall (f : profile RA) (hg0 hg1 gme t0 t1 d0 d1 : R), well_formed f ->
  hzns RA f (path_length f) hg0 hg1 gme = Ok (t0, t1, d0, d1) ->
  exists e0 e1 : R, hzns RA (reverse_profile f) (path_length f) hg1 hg0 gme = Ok (t1, t0, e0, e1).
Proof. exact hzns_reverse. Qed.
Print Assumptions C30_reversal.

(** * C31 *)
(** On every window of positive width meeting the path zlsq1 returns the values at both ends of the path of the unique line
    of least weighted squares over the samples around the window. *)
Theorem C31_least_squares : forall (f : profile RA) (x1 x2 : R), well_formed f -> proper f x1 x2 ->
  exists lo hi (a b : R), window f x1 x2 lo hi /\ (lo < hi <= intervals f)%nat /\ best_line f lo hi a b /\
    zlsq1 RA f x1 x2 = Ok (a, (a + b * INR (intervals f))%R).
Proof. exact zlsq1_spec. Qed.
Print Assumptions C31_least_squares.
(** the specification determines one window and one line *)
Theorem C31_window_unique : forall f x1 x2 lo hi lo' hi', window f x1 x2 lo hi -> window f x1 x2 lo' hi' -> lo = lo' /\ hi = hi'.
Proof. exact window_unique. Qed.
Print Assumptions C31_window_unique.
Theorem C31_line_unique : forall f lo hi a b a' b', best_line f lo hi a b -> best_line f lo hi a' b' -> a = a' /\ b = b'.
Proof. exact best_unique. Qed.
Print Assumptions C31_line_unique.
Example C31_case : proper hill 150 250 /\ window hill 150 250 1 3 /\ best_line hill 1 3 (3875 / 100) (-25 / 10).
Proof. exact hill_window. Qed.

(** * C32 *)
Theorem C32_straight : forall (f : profile RA) (x1 x2 : R) lo hi (c d : R), well_formed f -> proper f x1 x2 ->
  window f x1 x2 lo hi -> (forall k, (lo <= k <= hi)%nat -> ground f k = c + d * INR k) ->
  zlsq1 RA f x1 x2 = Ok (c, (c + d * INR (intervals f))%R).
Proof. exact zlsq1_straight. Qed.
Print Assumptions C32_straight.
Theorem C32_add_line : forall (f : profile RA) (x1 x2 a b u v : R), well_formed f -> proper f x1 x2 ->
  zlsq1 RA f x1 x2 = Ok (u, v) ->
  zlsq1 RA (add_line f a b) x1 x2 = Ok ((u + a)%R, (v + (a + b * INR (intervals f)))%R).
Proof. exact zlsq1_add_line. Qed.
Print Assumptions C32_add_line.
Theorem C32_scale : forall (f : profile RA) (x1 x2 c u v : R), well_formed f -> proper f x1 x2 ->
  zlsq1 RA f x1 x2 = Ok (u, v) -> zlsq1 RA (scale f c) x1 x2 = Ok ((c * u)%R, (c * v)%R).
Proof. exact zlsq1_scale. Qed.
Print Assumptions C32_scale.

(** * C33 *)
(** Full statement: zlsq1 returns a result on every window inside the path, reading only samples of the profile; a window
    with x2 <= x1 is widened by one sample on both sides.
    Proved part: windows of positive width (C31 gives the result); only the samples of the window matter. *)
Theorem C33_reads_window_partial : forall (f g : profile RA) (x1 x2 : R) lo hi, well_formed f -> well_formed g ->
  pf_np g = pf_np f -> pf_xi g = pf_xi f -> proper f x1 x2 -> window f x1 x2 lo hi ->
  (forall k, (lo <= k <= hi)%nat -> ground g k = ground f k) -> zlsq1 RA g x1 x2 = zlsq1 RA f x1 x2.
Proof. exact zlsq1_local. Qed.
Print Assumptions C33_reads_window_partial.
(** False for windows that degenerate to one sample: the widening moves the upper end down, and zlsq1 divides by zero
    at every sample but the first ... *)
Theorem C33_degenerate_refuted : forall (f : profile RA) k, well_formed f -> (1 <= k <= pf_np f)%Z ->
  zlsq1 RA f (IZR k * (pf_xi f : R))%R (IZR k * (pf_xi f : R))%R = Err ZeroDivisionError.
Proof. exact zlsq1_degenerate. Qed.
Print Assumptions C33_degenerate_refuted.
(** ... where it takes the spacing for a height and returns the first height with its sign changed. *)
Theorem C33_origin_refuted : forall (f : profile RA), well_formed f ->
  exists v : R, zlsq1 RA f 0 0 = Ok ((- ground f 0)%R, v).
Proof. exact zlsq1_origin. Qed.
Print Assumptions C33_origin_refuted.
Example C33_case : well_formed hill /\ (1 <= 2 <= pf_np hill)%Z /\ ground valley 0 = 10.
Proof. exact hill_case. Qed.

(** * C34 *)
Theorem C34_total_nonnegative : forall (f : profile RA) (x1 x2 : R), well_formed f -> 0 <= x1 -> x2 <= path_length f ->
  exists dh : R, dlthx RA f x1 x2 = Ok dh /\ 0 <= dh.
Proof. exact dlthx_total. Qed.
Print Assumptions C34_total_nonnegative.
Theorem C34_short_window : forall (f : profile RA) (x1 x2 : R), well_formed f -> x2 - x1 < 2 * (pf_xi f : R) ->
  dlthx RA f x1 x2 = Ok 0.
Proof. exact dlthx_short. Qed.
Print Assumptions C34_short_window.
Theorem C34_straight : forall (f : profile RA) (c d x1 x2 : R), well_formed f -> 0 <= x1 -> x2 <= path_length f ->
  (forall k, (k <= intervals f)%nat -> ground f k = c + d * INR k) -> dlthx RA f x1 x2 = Ok 0.
Proof. exact dlthx_straight. Qed.
Print Assumptions C34_straight.
Theorem C34_add_line : forall (f : profile RA) (a b x1 x2 : R), well_formed f -> 0 <= x1 -> x2 <= path_length f ->
  dlthx RA (add_line f a b) x1 x2 = dlthx RA f x1 x2.
Proof. exact dlthx_add_line. Qed.
Print Assumptions C34_add_line.
Theorem C34_scale : forall (f : profile RA) (c x1 x2 dh : R), well_formed f -> 0 <= c -> 0 <= x1 -> x2 <= path_length f ->
  dlthx RA f x1 x2 = Ok dh -> dlthx RA (scale f c) x1 x2 = Ok (c * dh)%R.
Proof. exact dlthx_scale. Qed.
Print Assumptions C34_scale.

(** * C35 *)
(** On every window of at least two spacings inside the path: the spread of the detrended interpolated heights. *)
Theorem C35_irregularity : forall (f : profile RA) (x1 x2 : R), well_formed f -> 0 <= x1 -> x2 <= path_length f ->
  2 * (pf_xi f : R) <= x2 - x1 -> exists dh : R, dlthx RA f x1 x2 = Ok dh /\ irregularity f x1 x2 dh.
Proof. exact dlthx_spec. Qed.
Print Assumptions C35_irregularity.
Theorem C35_irregularity_unique : forall f x1 x2 d d', well_formed f ->
  irregularity f x1 x2 d -> irregularity f x1 x2 d' -> d = d'.
Proof. exact irregularity_unique. Qed.
Print Assumptions C35_irregularity_unique.
Example C35_case : 0 <= 0 /\ 400 <= path_length hill /\ 2 * (pf_xi hill : R) <= 400 - 0 /\ terrain_at hill 150 35.
Proof. exact hill_terrain. Qed.
