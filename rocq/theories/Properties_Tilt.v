(** Property theorems C66: terrain heights are relative. *)
From Verif Require Import RInst SpecTilt Stats Prep Scripts PfReverse4 PfReverseCases PfTilt3 PfTilt4 PfTiltCases PyFloat Cases.
Open Scope R_scope.

(** * C66 *)
(** Full statement: adding a constant, or a straight line, to all terrain heights of a path changes no loss.
    Proved: for a constant without restriction; for a line on obstructed paths.  On line-of-sight paths a line changes the
    losses. *)
(** A constant: qlrpfl fails in the same way or computes the same entries. *)
Theorem C66_datum : forall (p q : prop RA) f v (c : R), path_entries p f v -> same_entries p q -> ppfl q = Some (add_line f c 0) ->
  same_outcome same_entries (qlrpfl RA p) (qlrpfl RA q).
Proof. exact qlrpfl_datum. Qed.
Print Assumptions C66_datum.
(** p2p.py and pimter.py print the same. *)
Theorem C66_datum_table : forall (z : list R) (p : prop RA) (d h0 h1 c : R), (2 <= length z)%nat ->
  pn p DKM = Some d -> 0 < d -> pn p HG0 = Some h0 -> pn p HG1 = Some h1 -> 0 < h0 -> 0 < h1 ->
  itmlogic_p2p RA (map (fun x => x + c) z) p = itmlogic_p2p RA z p.
Proof. exact p2p_datum. Qed.
Print Assumptions C66_datum_table.
Theorem C66_datum_pimter : forall (z dist : list R) (d0 d1 c : R), length z = length dist ->
  nth_error dist 0 = Some d0 -> nth_error dist 1 = Some d1 -> d0 < d1 ->
  run_itmlogic RA (map (fun x => x + c) z) dist = run_itmlogic RA z dist.
Proof. exact pimter_datum. Qed.
Print Assumptions C66_datum_pimter.
(** The horizons of a tilted profile: the same distances, angles turned by the slope. *)
Theorem C66_horizons : forall (f : profile RA) (a b hg0 hg1 gme t0 t1 d0 d1 : R), well_formed f ->
  hzns RA f (path_length f) hg0 hg1 gme = Ok (t0, t1, d0, d1) ->
  hzns RA (add_line f a b) (path_length f) hg0 hg1 gme = Ok (t0 + b / (pf_xi f : R), t1 - b / (pf_xi f : R), d0, d1).
Proof. exact hzns_tilt. Qed.
Print Assumptions C66_horizons.
(** A line, obstructed path: qlrpfl computes the same entries, the take-off angles turned by the slope.  kwx may differ when an
    angle exceeds 0.2 rad. *)
Theorem C66_tilt_partial : forall (p q : prop RA) f v (a b : R), path_entries p f v -> same_entries p q -> ppfl q = Some (add_line f a b) ->
  obstructed f (v HG0) (v HG1) (v GME) ->
  same_outcome (fun p' q' => turned_by (b / (pf_xi f : R)) [KWX] p' q' /\ (gentle p' -> gentle q' -> pz q' KWX = pz p' KWX))
    (qlrpfl RA p) (qlrpfl RA q).
Proof. exact qlrpfl_tilt. Qed.
Print Assumptions C66_tilt_partial.
Theorem C66_tilt_table_partial : forall (z : list R) (p : prop RA) (d h0 h1 a b : R), (2 <= length z)%nat ->
  pn p DKM = Some d -> 0 < d -> pn p HG0 = Some h0 -> pn p HG1 = Some h1 -> 0 < h0 -> 0 < h1 ->
  obstructed (script_path d z) h0 h1 script_curvature -> itmlogic_p2p RA (inclined a b z) p = itmlogic_p2p RA z p.
Proof. exact p2p_tilt. Qed.
Print Assumptions C66_tilt_table_partial.
Theorem C66_tilt_pimter_partial : forall (z dist : list R) (d0 d1 a b : R), length z = length dist ->
  nth_error dist 0 = Some d0 -> nth_error dist 1 = Some d1 -> d0 < d1 ->
  (forall k, (10 <= k <= 130)%nat -> obstructed (walked_path dist z) 2.56 (INR k) script_curvature) ->
  run_itmlogic RA (inclined a b z) dist = run_itmlogic RA z dist.
Proof. exact pimter_tilt. Qed.
Print Assumptions C66_tilt_pimter_partial.
(** Line of sight, binary64: on a path of 5 km falling steadily by 20 m per sample towards the receiver all fifteen losses are
    more than 8 dB below those of the level path. *)
Theorem C66_slope_refuted : exists o o',
  itmlogic_p2p TA (map PI [0; 0; 0; 0; 0; 0; 0; 0; 0; 0; 0]%Z) (link 5 10 10) = Ok o /\
  itmlogic_p2p TA (map PI [200; 180; 160; 140; 120; 100; 80; 60; 40; 20; 0]%Z) (link 5 10 10) = Ok o' /\
  out_kind TA o = LineOfSight /\ out_kind TA o' = LineOfSight /\
  length (out_rows TA o) = 15%nat /\ length (out_rows TA o') = 15%nat /\ exceeds (PI 8) o o' = true.
Proof. exact slope_refuted. Qed.
Print Assumptions C66_slope_refuted.
Example C66_case_peak : path_entries (path_dict (peak 1000 60) 10 10 (1 / 10000000)) (peak 1000 60) (path_v 10 10 (1 / 10000000)) /\
  obstructed (peak 1000 60) 10 10 (1 / 10000000).
Proof. split; [apply path_dict_ok; try lra; apply peak_wf; lra | apply peak_obstructed; lra]. Qed.
Example C66_case_script : obstructed (script_path 2 [0; 60; 0]) 10 10 script_curvature.
Proof.
  replace (script_path 2 [0; 60; 0]) with (peak 1000 60); [apply peak_obstructed; pose proof curvature_pos; lra|].
  unfold peak, script_path. cbn [length Z.of_nat Pos.of_succ_nat Pos.succ Z.sub]. f_equal. change (1000 = 2 * 1000 / 2)%R. lra.
Qed.
Example C66_case_pimter : forall k, (10 <= k <= 130)%nat -> obstructed (walked_path [0; 1000; 2000] [0; 100; 0]) 2.56 (INR k) script_curvature.
Proof.
  intros k K. replace (walked_path [0; 1000; 2000] [0; 100; 0]) with (peak 1000 100).
  - apply peak_obstructed; [lra | pose proof curvature_pos; lra |]. assert (INR k <= 130) by (rewrite INR_IZR_INZ; apply IZR_le; lia). lra.
  - unfold peak, walked_path. cbn [length nth]. f_equal. change (1000 = 1000 - 0)%R. lra.
Qed.
