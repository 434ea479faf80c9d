(** Property theorems C61: a link seen from its other end. *)
From Verif Require Import RInst SpecReverse Stats Prep Scripts PfSwapCases PfReverse PfReverse2 PfReverse3 PfReverse4 PfReverseCases PfTerrainCases PfRealRun PyFloat Cases.
Open Scope R_scope.

(** * C61 *)
(** Full statement: exchanging the ends of a link changes neither the reference attenuation nor any loss in the tables.
    Proved: area mode, the statistics and the area table without restriction; the path mode and its table for paths on which
    each terminal has a single horizon and which are obstructed or level at both ends.  Without these it is false. *)
(** Area mode: the siting codes are exchanged with the terminals. *)
Theorem C61_area : forall k0 k1 (p q p' : prop RA), exchanged p q -> qlra RA k0 k1 p = Ok p' ->
  exists q', qlra RA k1 k0 q = Ok q' /\ exchanged p' q'.
Proof. exact sw_qlra. Qed.
Print Assumptions C61_area.
(** Both directions have the same quantiles. *)
Theorem C61_statistics : forall (zt zl zc : R) (p q : prop RA) a p', exchanged p q -> avar RA zt zl zc p = Ok (a, p') ->
  exists q', avar RA zt zl zc q = Ok (a, q') /\ exchanged p' q'.
Proof. exact sw_avar. Qed.
Print Assumptions C61_statistics.
(** area.py prints the same table. *)
Theorem C61_area_table : forall (p q : prop RA) (h0 h1 : R) rows, exchanged p q -> pn p HG0 = Some h0 -> pn p HG1 = Some h1 -> 0 < h0 -> 0 < h1 ->
  itmlogic_area RA p = Ok rows -> itmlogic_area RA q = Ok rows.
Proof. exact sw_area. Qed.
Print Assumptions C61_area_table.
(** The trend line and the terrain irregularity of the reversed profile. *)
Theorem C61_trend : forall (f : profile RA) (x1 x2 u v : R), well_formed f -> proper f x1 x2 -> zlsq1 RA f x1 x2 = Ok (u, v) ->
  zlsq1 RA (reverse_profile f) (path_length f - x2)%R (path_length f - x1)%R = Ok (v, u).
Proof. exact zlsq1_reverse. Qed.
Print Assumptions C61_trend.
Theorem C61_irregularity : forall (f : profile RA) (x1 x2 : R), well_formed f -> 0 <= x1 -> x2 <= path_length f ->
  dlthx RA (reverse_profile f) (path_length f - x2)%R (path_length f - x1)%R = dlthx RA f x1 x2.
Proof. exact dlthx_reverse. Qed.
Print Assumptions C61_irregularity.
(** Path mode. *)
Theorem C61_path_partial : forall (p q p' : prop RA) f v, path_entries p f v -> other_way p q ->
  single_horizons f (v HG0) (v HG1) (v GME) -> (obstructed f (v HG0) (v HG1) (v GME) \/ level_ends f) ->
  qlrpfl RA p = Ok p' -> exists q', qlrpfl RA q = Ok q' /\ other_way p' q'.
Proof. exact sw_qlrpfl. Qed.
Print Assumptions C61_path_partial.
(** p2p.py prints the same kind of path, the same mode and the same table. *)
Theorem C61_path_table_partial : forall (z : list R) (p q : prop RA) (d h0 h1 : R) out, exchanged p q -> (2 <= length z)%nat ->
  pn p DKM = Some d -> 0 < d -> pn p HG0 = Some h0 -> pn p HG1 = Some h1 -> 0 < h0 -> 0 < h1 ->
  let f := script_path d z in single_horizons f h0 h1 script_curvature -> (obstructed f h0 h1 script_curvature \/ level_ends f) ->
  itmlogic_p2p RA z p = Ok out -> itmlogic_p2p RA (rev z) q = Ok out.
Proof. exact sw_p2p. Qed.
Print Assumptions C61_path_table_partial.
(** A 5 km line-of-sight path ending on a mound: all fifteen losses differ by more than 8 dB between the directions. *)
Theorem C61_mound_refuted : exists (z : list (num TA)) (p q : prop TA) o o', exchanged p q /\
  itmlogic_p2p TA z p = Ok o /\ itmlogic_p2p TA (rev z) q = Ok o' /\
  length (out_rows TA o) = 15%nat /\ length (out_rows TA o') = 15%nat /\ exceeds (PI 8) o o' = true.
Proof. exact mound_direction. Qed.
Print Assumptions C61_mound_refuted.
(** Two points under the same angle: the horizon of the same terminal is the further one from one end, the nearer one from
    the other. *)
Theorem C61_tie_refuted : exists z (xi hg gme t0 t1 d0 d1 u0 u1 e0 e1 : num TA),
  hzns TA (Profile 4 xi z) (@n_mul TA (PI 4) xi) hg hg gme = Ok (t0, t1, d0, d1) /\
  hzns TA (Profile 4 xi (rev z)) (@n_mul TA (PI 4) xi) hg hg gme = Ok (u0, u1, e0, e1) /\
  @n_eqb TA u0 t1 = true /\ @n_eqb TA d1 (@n_mul TA (PI 2) e0) = true.
Proof. exact ridge_direction. Qed.
Print Assumptions C61_tie_refuted.
Example C61_case_area : exchanged case_real case_real_exchanged.
Proof. exact case_exchanged. Qed.
Example C61_case_obstructed : path_entries (path_dict hill 10 10 (1 / 10000000)) hill (path_v 10 10 (1 / 10000000)) /\
  other_way (path_dict hill 10 10 (1 / 10000000)) (path_dict (reverse_profile hill) 10 10 (1 / 10000000)) /\
  single_horizons hill 10 10 (1 / 10000000) /\ obstructed hill 10 10 (1 / 10000000).
Proof. split; [apply path_dict_ok; (exact hill_wf || lra)|]. split; [apply path_dict_other | exact hill_both]. Qed.
Example C61_case_level : path_entries (path_dict dip 10 10 (1 / 10000000)) dip (path_v 10 10 (1 / 10000000)) /\
  single_horizons dip 10 10 (1 / 10000000) /\ level_ends dip.
Proof. split; [apply path_dict_ok; (exact dip_wf || lra) | exact dip_both]. Qed.
(** Both directions of an obstructed path of uneven ends in binary64: the same losses within 1e-6 dB. *)
Example C61_case_run : match itmlogic_p2p TA hilly (link 20 10 20), itmlogic_p2p TA (rev hilly) (link 20 20 10) with
  | Ok o, Ok o' => (length (out_rows TA o) =? 15)%nat && (length (out_rows TA o') =? 15)%nat && within (L 1 1000000) o o' | _, _ => false end = true.
Proof. exact hilly_run. Qed.
