(** C71: the terrain irregularity around a transmitter is taken of the whole raster window, masked cells included. *)
From Verif Require Import SpecTerrainArea PfTerrainArea RInst PyFloat Cases Arith.
Open Scope R_scope.

(** With no masked cell the parameter is the interdecile range of the heights in range (C50 says what that is). *)
Theorem C71_in_range_partial : forall (A : arith) (w : masked_array A), (forall v m, In (v, m) w -> m = false) -> terrain_area A w = interdecile_range A (compressed A w).
Proof. exact unmasked. Qed.
Print Assumptions C71_in_range_partial.

(** The mask has no influence. *)
Theorem C71_mask_unused : forall (A : arith) (w w' : masked_array A), map fst w = map fst w' -> terrain_area A w = terrain_area A w'.
Proof. exact mask_free. Qed.
Print Assumptions C71_mask_unused.

(** A plateau in surroundings of another height: as soon as a tenth of the window lies outside the range (a circle leaves
    a fifth of its bounding box outside), the parameter is the drop to the surroundings, to the nearest metre; the heights in range
    have interdecile range 0.  Surroundings without data count with the nodata value. *)
Theorem C71_plateau : forall (w : masked_array RA) (c c' : R), plateau w c c' -> over_a_tenth (inside w) w -> over_a_tenth (outside w) w ->
  (exists k, terrain_area RA w = Ok k /\ Rabs (Rabs (c - c') - IZR k) <= 1 / 2) /\ interdecile_range RA (compressed RA w) = Ok 0%Z.
Proof. exact plateau_drop. Qed.
Print Assumptions C71_plateau.

(** So it is not a function of the heights in range. *)
Theorem C71_in_range_refuted : exists (w w' : masked_array RA) k k', compressed RA w = compressed RA w' /\ map snd w = map snd w' /\
  terrain_area RA w = Ok k /\ terrain_area RA w' = Ok k' /\ k <> k'.
Proof. exact in_range_only_refuted. Qed.
Print Assumptions C71_in_range_refuted.

(** all_data keeps the heights in range above zero (it is not called by the scripts). *)
Theorem C71_all_data : forall (w : masked_array RA) (h : R), In h (all_data RA w) <-> in_range w h /\ 0 < h.
Proof. exact all_data_in. Qed.
Print Assumptions C71_all_data.

(** Thirty cells in range at 100 m, ten around them in the sea. *)
Example C71_island : let w := repeat (100, false) 30 ++ repeat (0, true) 10 in plateau w 100 0 /\ over_a_tenth (inside w) w /\ over_a_tenth (outside w) w.
Proof. exact island. Qed.
(** In Python's arithmetic; the third number is that of an island of 5 m in a window with nodata cells. *)
Example C71_island_python : terrain_area TA (repeat (PI 100, false) 30 ++ repeat (PI 0, true) 10) = Ok 100%Z /\
  interdecile_range TA (compressed TA (repeat (PI 100, false) 30 ++ repeat (PI 0, true) 10)) = Ok 0%Z /\
  terrain_area TA (repeat (PI 5, false) 30 ++ repeat (PI (-9999), true) 10) = Ok 10004%Z.
Proof. vm_compute. repeat split. Qed.
