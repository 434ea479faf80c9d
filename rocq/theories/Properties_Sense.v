(** C69: what errors in the terrain heights do to the horizons, the irregularity, the effective heights and the losses. *)
From Verif Require Import RInst SpecSense SpecProfile Prep Stats Scripts PfSense PfSense2 PfSenseCases PfTilt PfTiltCases PfReverseCases PyFloat Cases Arith.
Open Scope R_scope.

(** Raising the ground between the terminals lowers neither take-off angle. *)
Theorem C69_raising : forall f g (hg0 hg1 gme t0 t1 d0 d1 u0 u1 x0 x1 : R), same_path f g -> ground g 0 = ground f 0 -> ground g (intervals f) = ground f (intervals f) ->
  (forall j, (j <= intervals f)%nat -> ground f j <= ground g j) ->
  hzns RA f (path_length f) hg0 hg1 gme = Ok (t0, t1, d0, d1) -> hzns RA g (path_length f) hg0 hg1 gme = Ok (u0, u1, x0, x1) -> t0 <= u0 /\ t1 <= u1.
Proof. exact angles_raised. Qed.
Print Assumptions C69_raising.
(** Heights known to e: take-off angles known to 2 e / xi, obstructed or not. *)
Theorem C69_angles : forall f g (hg0 hg1 gme e t0 t1 d0 d1 u0 u1 x0 x1 : R), same_path f g -> heights_within e 0 (intervals f) f g ->
  hzns RA f (path_length f) hg0 hg1 gme = Ok (t0, t1, d0, d1) -> hzns RA g (path_length f) hg0 hg1 gme = Ok (u0, u1, x0, x1) ->
  Rabs (u0 - t0) <= 2 * e / pf_xi f /\ Rabs (u1 - t1) <= 2 * e / pf_xi f.
Proof. exact angles_within. Qed.
Print Assumptions C69_angles.
(** The line zlsq1 fits moves by at most e * sqrt (1 + 3 t^2) at offset t: by 2 e within its window. *)
Theorem C69_line : forall f g (x1 x2 e u v u' v' : R) lo hi, same_path f g -> proper f x1 x2 -> window f x1 x2 lo hi -> heights_within e lo hi f g ->
  zlsq1 RA f x1 x2 = Ok (u, v) -> zlsq1 RA g x1 x2 = Ok (u', v') -> forall k, (line_at f u' v' k - line_at f u v k) ^ 2 <= (1 + 3 * offset lo hi k ^ 2) * e ^ 2.
Proof. exact line_moves. Qed.
Print Assumptions C69_line.
(** The irregularity dlthx computes is known to 30 e, on long windows to little more than 6 e. *)
Theorem C69_irregularity : forall f g (x1 x2 e u v : R), same_path f g -> heights_within e 0 (intervals f) f g -> 0 <= x1 -> x1 <= x2 -> x2 <= path_length f ->
  dlthx RA f x1 x2 = Ok u -> dlthx RA g x1 x2 = Ok v -> Rabs (v - u) <= 6 * e / (1 - 8 / 10 * exp (- ((x2 - x1) / 50000))) /\ Rabs (v - u) <= 30 * e.
Proof. exact dlthx_moves. Qed.
Print Assumptions C69_irregularity.
(** qlrpfl on an obstructed path whose horizons stay where they are: effective heights, irregularity and take-off angles. *)
Theorem C69_obstructed_path : forall f g (p q p' q' : prop RA) v v' (e t0 t1 u0 u1 d0 d1 : R), same_path f g -> heights_within e 0 (intervals f) f g ->
  path_entries p f v -> path_entries p' g v' -> (forall k, In k [HG0; HG1; GME] -> v' k = v k) -> qlrpfl RA p = Ok q -> qlrpfl RA p' = Ok q' ->
  hzns RA f (path_length f) (v HG0) (v HG1) (v GME) = Ok (t0, t1, d0, d1) -> hzns RA g (path_length f) (v HG0) (v HG1) (v GME) = Ok (u0, u1, d0, d1) -> d0 + d1 < 3 / 2 * path_length f ->
  exists w w', values q [HE0; HE1; DH; THE0; THE1] w /\ values q' [HE0; HE1; DH; THE0; THE1] w' /\ Rabs (w' HE0 - w HE0) <= 3.4 * e /\ Rabs (w' HE1 - w HE1) <= 3.4 * e /\
    Rabs (w' DH - w DH) <= 30 * e /\ Rabs (w' THE0 - w THE0) <= 2 * e / pf_xi f /\ Rabs (w' THE1 - w THE1) <= 2 * e / pf_xi f.
Proof. exact obstructed_moves. Qed.
Print Assumptions C69_obstructed_path.
(** ... and the irregularity of two lines of sight. *)
Theorem C69_line_of_sight : forall f g (p q p' q' : prop RA) v v' (e : R), same_path f g -> heights_within e 0 (intervals f) f g ->
  path_entries p f v -> path_entries p' g v' -> (forall k, In k [HG0; HG1; GME] -> v' k = v k) -> qlrpfl RA p = Ok q -> qlrpfl RA p' = Ok q' ->
  unobstructed f (v HG0) (v HG1) (v GME) -> unobstructed g (v HG0) (v HG1) (v GME) -> exists dh dh' : R, pn q DH = Some dh /\ pn q' DH = Some dh' /\ Rabs (dh' - dh) <= 30 * e.
Proof. exact los_moves. Qed.
Print Assumptions C69_line_of_sight.
(** No such bound for the losses: a transmitter on a bluff of 500 m, the edge 2 km away just below and just above the line of
    sight.  One millimetre more raises all fifteen losses of p2p.py by more than 9 dB. *)
Theorem C69_losses_jump : exists o o', itmlogic_p2p TA (PI 500 :: L 457933 1000 :: map PI [0; 0; 0; 0; 0; 0; 0; 0; 0]%Z) (link 20 10 10) = Ok o /\
  itmlogic_p2p TA (PI 500 :: L 457934 1000 :: map PI [0; 0; 0; 0; 0; 0; 0; 0; 0]%Z) (link 20 10 10) = Ok o' /\
  length (out_rows TA o) = 15%nat /\ length (out_rows TA o') = 15%nat /\ exceeds (PI 9) o' o = true.
Proof. exact edge_jump. Qed.
Print Assumptions C69_losses_jump.

(** A hill of 60 m or 61 m half way: heights within 1 m, raised, both obstructed, the horizon at the hill. *)
Example C69_case : same_path (peak 1000 60) (peak 1000 61) /\ heights_within 1 0 2 (peak 1000 60) (peak 1000 61) /\ (forall j, (j <= 2)%nat -> ground (peak 1000 60) j <= ground (peak 1000 61) j) /\
  (exists t0 t1, hzns RA (peak 1000 60) (path_length (peak 1000 60)) 10 10 (1 / 10000000) = Ok (t0, t1, 1000, 1000)) /\
  (exists u0 u1, hzns RA (peak 1000 61) (path_length (peak 1000 60)) 10 10 (1 / 10000000) = Ok (u0, u1, 1000, 1000)) /\ 1000 + 1000 < 3 / 2 * path_length (peak 1000 60).
Proof. exact peaks. Qed.
