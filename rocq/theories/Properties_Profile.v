(** Property theorem C43: geometry of a point-to-point path, over the reals. *)
From Verif Require Import RInst SpecProfile Prep PfPfl PyFloat Cases.
Open Scope R_scope.

(** * C43 *)
(** Full statement: effective heights are never below the structural heights; they are measured from each terminal's own
    ground; on a line-of-sight profile the horizon distances cover the path.
    Proved: everything but the receiver's own ground on line-of-sight profiles, which is false. *)
Theorem C43_heights_partial : forall (p q : prop RA) f v, path_entries p f v -> qlrpfl RA p = Ok q ->
  exists he0 he1, pn q HE0 = Some he0 /\ pn q HE1 = Some he1 /\ v HG0 <= he0 /\ v HG1 <= he1.
Proof. exact pfl_heights. Qed.
Print Assumptions C43_heights_partial.
(** Obstructed path: the heights above the trend of the terrain in front of each terminal, at its own ground; the horizons
    of the profile. *)
Theorem C43_obstructed_partial : forall (p q : prop RA) f v t0 t1 d0 d1, path_entries p f v -> qlrpfl RA p = Ok q ->
  hzns RA f (path_length f) (v HG0) (v HG1) (v GME) = Ok (t0, t1, d0, d1) -> d0 + d1 < 3 / 2 * path_length f ->
  exists za za' zb' zb dh : R, zlsq1 RA f (setback (v HG0) d0) (9 / 10 * d0)%R = Ok (za, za') /\
    zlsq1 RA f (path_length f - 9 / 10 * d1)%R (path_length f - setback (v HG1) d1)%R = Ok (zb', zb) /\
    dlthx RA f (setback (v HG0) d0) (path_length f - setback (v HG1) d1)%R = Ok dh /\ pn q DH = Some dh /\
    pn q HE0 = Some (above_trend (v HG0) (ground f 0) za) /\
    pn q HE1 = Some (above_trend (v HG1) (ground f (intervals f)) zb) /\
    pn q DL0 = Some d0 /\ pn q DL1 = Some d1 /\ pn q THE0 = Some t0 /\ pn q THE1 = Some t1.
Proof. exact pfl_obstructed. Qed.
Print Assumptions C43_obstructed_partial.
(** Line of sight: both heights above the common trend, scaled by a common factor s >= 1 when the smooth-earth horizons do
    not cover the path; afterwards they do.  The receiver's rise is taken from the sample before its own. *)
Theorem C43_line_of_sight_partial : forall (p q : prop RA) f v t0 t1 d0 d1, path_entries p f v -> qlrpfl RA p = Ok q ->
  hzns RA f (path_length f) (v HG0) (v HG1) (v GME) = Ok (t0, t1, d0, d1) -> 3 / 2 * path_length f <= d0 + d1 ->
  exists za zb s dh he0 he1 dl0 dl1 : R,
    zlsq1 RA f (setback (v HG0) d0) (path_length f - setback (v HG1) d1)%R = Ok (za, zb) /\
    dlthx RA f (setback (v HG0) d0) (path_length f - setback (v HG1) d1)%R = Ok dh /\
    he0 = above_trend (v HG0) (ground f 0) za * s /\ he1 = above_trend (v HG1) (ground f (intervals f - 1)) zb * s /\
    dl0 = rough_horizon he0 (v GME) dh /\ dl1 = rough_horizon he1 (v GME) dh /\
    1 <= s /\ path_length f <= dl0 + dl1 /\
    (let q0 := rough_horizon (above_trend (v HG0) (ground f 0) za) (v GME) dh
             + rough_horizon (above_trend (v HG1) (ground f (intervals f - 1)) zb) (v GME) dh in
     s = 1 \/ s = (path_length f / q0) ^ 2) /\
    pn q DH = Some dh /\ pn q HE0 = Some he0 /\ pn q HE1 = Some he1 /\ pn q DL0 = Some dl0 /\ pn q DL1 = Some dl1 /\
    pn q THE0 = Some (takeoff_angle he0 (v GME) dh) /\ pn q THE1 = Some (takeoff_angle he1 (v GME) dh).
Proof. exact pfl_los. Qed.
Print Assumptions C43_line_of_sight_partial.
(** The geometry is computed for every such dictionary. *)
Theorem C43_geometry_total : forall (p : prop RA) f v, path_entries p f v -> exists q, qlrpfl_geom RA p = Ok q.
Proof. exact pfl_total. Qed.
Print Assumptions C43_geometry_total.
(** A receiver on a mound 20 m above the trend of an unobstructed path: its effective height is that of flat ground. *)
Theorem C43_own_ground_refuted : exists (p : prop RA) f v q he0 he1 za zb s,
  path_entries p f v /\ qlrpfl_geom RA p = Ok q /\ unobstructed f (v HG0) (v HG1) (v GME) /\
  zlsq1 RA f (setback (v HG0) (path_length f)) (path_length f - setback (v HG1) (path_length f))%R = Ok (za, zb) /\
  pn q HE0 = Some he0 /\ pn q HE1 = Some he1 /\ 1 <= s /\ he0 = above_trend (v HG0) (ground f 0) za * s /\ he1 = 10 * s /\
  above_trend (v HG1) (ground f (intervals f)) zb * s = 30 * s.
Proof. exact mound_case. Qed.
Print Assumptions C43_own_ground_refuted.
Example C43_case : path_entries mound_entries mound mound_v.
Proof. exact mound_ok. Qed.
(** Complete runs of qlrpfl on a line-of-sight and an obstructed path. *)
Example C43_case_run : on_ok (qlrpfl TA case_los) (fun q => has_b q WLOS true) && on_ok (qlrpfl TA case_far) (fun q => has_b q WSCAT true) = true.
Proof. vm_compute. reflexivity. Qed.
