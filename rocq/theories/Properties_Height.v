(** Property theorems C78: raising an antenna. *)
From Verif Require Import RInst SpecHeight Prep PfHeight2 PfHeight3 PfHeight4 PfHeight5 PfHeightCases PyFloat Cases Arith.
Open Scope R_scope.

(** * C78 *)
(** Smooth earth, both links on the diffraction line at distance d, up to 2.7574 xae beyond the horizon of the lower one: with higher
    antennas (or better sites) the attenuation falls by at least what their height gains grow. *)
Theorem C78_gain : forall k0 k1 k0' k1' (p p' q q' r r' : prop RA) w w' (d a a' g0 g1 g0' g1' : R), link_entries p w -> link_entries p' w' -> pn p DH = Some 0 -> pn p' DH = Some 0 -> same_ground w w' ->
  not_lower k0 k1 k0' k1' w w' -> qlra RA k0 k1 p = Ok q -> qlra RA k0' k1' p' = Ok q' -> lrprop RA d q = Ok r -> lrprop RA d q' = Ok r' -> 0 < d -> on_diffraction_line r d -> on_diffraction_line r' d ->
  d <= common_horizon k0 k1 w + 2.7574 * diffraction_scale w -> pn r AREF = Some a -> pn r' AREF = Some a' ->
  fht RA (gain_argument (effective_height k0 (w HG0) 0) w) (ground_constant w) = Ok g0 -> fht RA (gain_argument (effective_height k1 (w HG1) 0) w) (ground_constant w) = Ok g1 ->
  fht RA (gain_argument (effective_height k0' (w' HG0) 0) w) (ground_constant w) = Ok g0' -> fht RA (gain_argument (effective_height k1' (w' HG1) 0) w) (ground_constant w) = Ok g1' ->
  a' + (g0' + g1') <= a + (g0 + g1).
Proof. exact height_gain_credited. Qed.
Print Assumptions C78_gain.
(** The height gain grows with height on either side of fht's threshold. *)
Theorem C78_height_gain : forall x y k g g' : R, 0 < x -> x <= y -> 0 < k < 1 -> past_threshold x k \/ ~ past_threshold y k -> fht RA x k = Ok g -> fht RA y k = Ok g' -> g <= g'.
Proof. exact gain_monotone. Qed.
Print Assumptions C78_height_gain.
(** So the attenuation does not grow unless an antenna crosses the threshold. *)
Theorem C78_diffraction_partial : forall k0 k1 k0' k1' (p p' q q' r r' : prop RA) w w' (d a a' : R), link_entries p w -> link_entries p' w' -> pn p DH = Some 0 -> pn p' DH = Some 0 -> same_ground w w' ->
  not_lower k0 k1 k0' k1' w w' -> qlra RA k0 k1 p = Ok q -> qlra RA k0' k1' p' = Ok q' -> lrprop RA d q = Ok r -> lrprop RA d q' = Ok r' -> 0 < d -> on_diffraction_line r d -> on_diffraction_line r' d ->
  d <= common_horizon k0 k1 w + 2.7574 * diffraction_scale w ->
  not_crossing (effective_height k0 (w HG0) 0) (effective_height k0' (w' HG0) 0) w -> not_crossing (effective_height k1 (w HG1) 0) (effective_height k1' (w' HG1) 0) w ->
  pn r AREF = Some a -> pn r' AREF = Some a' -> a' <= a.
Proof. exact height_helps. Qed.
Print Assumptions C78_diffraction_partial.
(** The same with the distances in closed form: from the higher link's horizon to 0.3 xae ln f beyond the lower link's, up to 9.5 GHz. *)
Theorem C78_region_partial : forall k0 k1 k0' k1' (p p' q q' r r' : prop RA) w w' (d a a' : R), link_entries p w -> link_entries p' w' -> pn p DH = Some 0 -> pn p' DH = Some 0 -> same_ground w w' ->
  not_lower k0 k1 k0' k1' w w' -> qlra RA k0 k1 p = Ok q -> qlra RA k0' k1' p' = Ok q' -> lrprop RA d q = Ok r -> lrprop RA d q' = Ok r' -> w WN <= 200 -> d <= 10000000 ->
  common_horizon k0' k1' w' <= d <= common_horizon k0 k1 w + 0.3 * diffraction_scale w * ln (47.7 * w WN) ->
  not_crossing (effective_height k0 (w HG0) 0) (effective_height k0' (w' HG0) 0) w -> not_crossing (effective_height k1 (w HG1) 0) (effective_height k1' (w' HG1) 0) w ->
  pn r AREF = Some a -> pn r' AREF = Some a' -> a' <= a.
Proof. exact height_helps_region. Qed.
Print Assumptions C78_region_partial.
(** Heights and siting codes not below those of the first link are enough for not_lower. *)
Theorem C78_siting : forall k0 k1 k0' k1' (p p' : prop RA) (w w' : nkey -> R), link_entries p w -> link_entries p' w' -> (k0 <= k0')%Z -> (k1 <= k1')%Z -> w HG0 <= w' HG0 -> w HG1 <= w' HG1 ->
  not_lower k0 k1 k0' k1' w w'.
Proof. exact raised_not_lower. Qed.
Print Assumptions C78_siting.
(** Crossing the threshold costs at most 4.3 dB of height gain, and so raising both antennas at most 8.6 dB. *)
Theorem C78_crossing : forall x y k g g' : R, 0 < x -> x <= y -> 0.00003 <= k <= 0.287 -> fht RA x k = Ok g -> fht RA y k = Ok g' -> g <= g' + 4.3.
Proof. exact gain_falls. Qed.
Print Assumptions C78_crossing.
(** 4.3 is nearly attained: there is a crossing that costs more than 4.1 dB. *)
Theorem C78_crossing_sharp : exists x y k g g' : R, 0 < x /\ x <= y /\ 0.00003 <= k <= 0.287 /\ fht RA x k = Ok g /\ fht RA y k = Ok g' /\ g' + 4.1 < g.
Proof. exact gain_sharp. Qed.
Print Assumptions C78_crossing_sharp.
Theorem C78_cost : forall k0 k1 k0' k1' (p p' q q' r r' : prop RA) w w' (d a a' : R), link_entries p w -> link_entries p' w' -> pn p DH = Some 0 -> pn p' DH = Some 0 -> same_ground w w' ->
  not_lower k0 k1 k0' k1' w w' -> qlra RA k0 k1 p = Ok q -> qlra RA k0' k1' p' = Ok q' -> lrprop RA d q = Ok r -> lrprop RA d q' = Ok r' -> 0 < d -> on_diffraction_line r d -> on_diffraction_line r' d ->
  d <= common_horizon k0 k1 w + 2.7574 * diffraction_scale w -> 0.00003 <= ground_constant w -> pn r AREF = Some a -> pn r' AREF = Some a' -> a' <= a + 8.6.
Proof. exact height_costs. Qed.
Print Assumptions C78_cost.
Theorem C78_cost_region : forall k0 k1 k0' k1' (p p' q q' r r' : prop RA) w w' (d a a' : R), link_entries p w -> link_entries p' w' -> pn p DH = Some 0 -> pn p' DH = Some 0 -> same_ground w w' ->
  not_lower k0 k1 k0' k1' w w' -> qlra RA k0 k1 p = Ok q -> qlra RA k0' k1' p' = Ok q' -> lrprop RA d q = Ok r -> lrprop RA d q' = Ok r' -> w WN <= 200 -> d <= 10000000 ->
  common_horizon k0' k1' w' <= d <= common_horizon k0 k1 w + 0.3 * diffraction_scale w * ln (47.7 * w WN) -> 0.00003 <= ground_constant w ->
  pn r AREF = Some a -> pn r' AREF = Some a' -> a' <= a + 8.6.
Proof. exact height_costs_region. Qed.
Print Assumptions C78_cost_region.
(** Not so in general, in binary64, error code 0.  Line of sight, 150 MHz, irregularity 90 m, 40 km: from 92.734 m to 92.735 m the
    attenuation rises by more than 7 dB. *)
Theorem C78_sight_refuted : exists a b, area_reference TA (PI 150) (PI 120) (L 92734 1000) (PI 40000) (PI 90) (PI 15) (L 5 1000) 0 = Ok (a, 0%Z, Sight) /\
  area_reference TA (PI 150) (PI 120) (L 92735 1000) (PI 40000) (PI 90) (PI 15) (L 5 1000) 0 = Ok (b, 0%Z, Sight) /\ @n_ltb TA (@n_add TA a (PI 7)) b = true.
Proof. exact sight_jump. Qed.
Print Assumptions C78_sight_refuted.
(** Crossing the threshold of fht: vertical polarisation over fresh water, 45 MHz, 80 km, more than 3 dB. *)
Theorem C78_diffraction_refuted : exists a b, area_reference TA (PI 45) (PI 30) (L 65541 1000) (PI 80000) (PI 0) (PI 81) (L 1 100) 1 = Ok (a, 0%Z, Diffraction) /\
  area_reference TA (PI 45) (PI 30) (L 65542 1000) (PI 80000) (PI 0) (PI 81) (L 1 100) 1 = Ok (b, 0%Z, Diffraction) /\ @n_ltb TA (@n_add TA a (PI 3)) b = true.
Proof. exact water_jump. Qed.
Print Assumptions C78_diffraction_refuted.
(** Troposcatter, 200 MHz, 100 km, an antenna of 2 m: more than 3 dB. *)
Theorem C78_scatter_refuted : exists a b, area_reference TA (PI 200) (PI 80) (L 2024 1000) (PI 100000) (PI 0) (PI 4) (L 1 1000) 0 = Ok (a, 0%Z, Scatter) /\
  area_reference TA (PI 200) (PI 80) (L 2025 1000) (PI 100000) (PI 0) (PI 4) (L 1 1000) 0 = Ok (b, 0%Z, Scatter) /\ @n_ltb TA (@n_add TA a (PI 3)) b = true.
Proof. exact scatter_jump. Qed.
Print Assumptions C78_scatter_refuted.

(** 286 MHz, 20 m to 20 m and 20 m to 30 m at 45 km: all conditions of C78_region_partial. *)
Example C78_case : exists q q' r r' a a', link_entries (raised_link 20) (raised_v 20) /\ link_entries (raised_link 30) (raised_v 30) /\ pn (raised_link 20) DH = Some 0 /\ pn (raised_link 30) DH = Some 0 /\
  same_ground (raised_v 20) (raised_v 30) /\ not_lower 0 0 0 0 (raised_v 20) (raised_v 30) /\ qlra RA 0 0 (raised_link 20) = Ok q /\ qlra RA 0 0 (raised_link 30) = Ok q' /\
  lrprop RA 45000 q = Ok r /\ lrprop RA 45000 q' = Ok r' /\ raised_v 20 WN <= 200 /\ 45000 <= 10000000 /\
  common_horizon 0 0 (raised_v 30) <= 45000 <= common_horizon 0 0 (raised_v 20) + 0.3 * diffraction_scale (raised_v 20) * ln (47.7 * raised_v 20 WN) /\
  not_crossing (effective_height 0 20 0) (effective_height 0 20 0) (raised_v 20) /\ not_crossing (effective_height 0 20 0) (effective_height 0 30 0) (raised_v 20) /\
  pn r AREF = Some a /\ pn r' AREF = Some a'.
Proof. exact raised_case. Qed.
Example C78_case_gain : past_threshold 300 0.01 /\ (exists g, fht RA 300 0.01 = Ok g) /\ (exists g, fht RA 400 0.01 = Ok g).
Proof. exact gain_case. Qed.
Example C78_case_crossing : 0 < 150 /\ 150 <= 210 /\ 0.00003 <= 0.05 <= 0.287 /\ (exists g, fht RA 150 0.05 = Ok g) /\ (exists g, fht RA 210 0.05 = Ok g) /\ ~ past_threshold 150 0.05 /\ past_threshold 210 0.05.
Proof. exact drop_case. Qed.
(** The remaining condition of C78_cost_region for the links of C78_case. *)
Example C78_case_ground : 0.00003 <= ground_constant (raised_v 20).
Proof. exact site_case. Qed.
