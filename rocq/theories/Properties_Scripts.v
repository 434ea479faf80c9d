(** Property theorems C46-C53: the scripts. *)
From Coq Require Import Sorting.Permutation Sorting.Sorted.
From Verif Require Import RInst SpecScripts SpecRegime SpecAtten Scripts PfTerrainMod PfP2P PfAreaGrid PfMode PfPimter PfScriptCases PfMisc PyFloat Cases.
Open Scope R_scope.

(** * C46 *)
(** In every arithmetic: one row per reliability/confidence pair, reliability-major; each loss is the common free-space loss
    plus the variability avar gives for the deviates of that pair on the prepared dictionary. *)
Theorem C46_rows : forall (A : arith) (z : list (num A)) (p : prop A) out, itmlogic_p2p A z p = Ok out ->
  exists q d, p2p_prepare A z p = Ok q /\ pn p DKM = Some d /\
    (exists wn dist l, pn q WN = Some wn /\ pn q DIST = Some dist /\ np_log (n_mul (n_mul (n_Z 2) wn) dist) = Ok l /\
       out_fs A out = n_mul (n_lit 8685890 1000000) l) /\
    Forall2 (fun (rc : Z * Z) row => exists zr zc a q', deviate A (fst rc) zr /\ deviate A (snd rc) zc /\
      avar A zr (n_Z 0) zc q = Ok (a, q') /\ row = (d, n_Z (fst rc), n_Z (snd rc), n_add (out_fs A out) a)) p2p_levels (out_rows A out).
Proof. exact p2p_out_rows. Qed.
Print Assumptions C46_rows.
(** Over the reals: a row of higher reliability and confidence never has a smaller loss. *)
Theorem C46_ordered : forall (z : list R) (p : prop RA) out (d r c l d' r' c' l' : R), itmlogic_p2p RA z p = Ok out ->
  In (d, r, c, l) (out_rows RA out) -> In (d', r', c', l') (out_rows RA out) -> r <= r' -> c <= c' -> l <= l'.
Proof. exact p2p_ordered. Qed.
Print Assumptions C46_ordered.
(** A path over two hills (the Crystal Palace - Mursley path of the repository's tests is run in Validate.v). *)
Example C46_case : on_ok (itmlogic_p2p TA hills (path 30)) (fun o => (length (out_rows TA o) =? 15)%nat) = true.
Proof. vm_compute. reflexivity. Qed.

(** * C47 *)
(** Full statement: the grid is D0, D0 + DS1, ... to D1, then by DS2 to D2, strictly increasing; every choice of parameters works.
    Proved: the grid of every run that returns; false: every choice works. *)
Theorem C47_grid_partial : forall (c : area_cfg RA) (p : prop RA) rows, itmlogic_area_cfg RA c p = Ok rows ->
  let D0 := start_distance (cfg_D0 RA c) (cfg_DS1 RA c) in
  D0 < cfg_D1 RA c /\ 0 < cfg_DS1 RA c /\
  exists n1 n2, (1 <= n1)%nat /\
    (let last := D0 + INR (n1 - 1) * cfg_DS1 RA c in
     reaches (cfg_D1 RA c) (cfg_DS1 RA c) last /\
     (if Rlt_dec last (cfg_D2 RA c) then
        if Rlt_dec 0 (cfg_DS2 RA c) then reaches (cfg_D2 RA c) (cfg_DS2 RA c) (last + INR n2 * cfg_DS2 RA c) else n2 = 0%nat
      else n2 = 0%nat)) /\
    map fst rows = flat_map (fun d => map (fun q => (d, q)) (cfg_QC RA c)) (area_distances D0 (cfg_DS1 RA c) (cfg_DS2 RA c) n1 n2).
Proof. exact area_grid_spec. Qed.
Print Assumptions C47_grid_partial.
Theorem C47_increasing : forall (D0 DS1 DS2 : R) n1 n2, 0 < DS1 -> 0 < DS2 \/ n2 = 0%nat -> (1 <= n1)%nat ->
  StronglySorted Rlt (area_distances D0 DS1 DS2 n1 n2) /\ length (area_distances D0 DS1 DS2 n1 n2) = (n1 + n2)%nat.
Proof. exact distances_increasing. Qed.
Print Assumptions C47_increasing.
(** Asking for a single distance (D1 = D0, or no fine step) never works, although the script has a branch for it. *)
Theorem C47_single_distance_refuted : forall (c : area_cfg RA) (p : prop RA) rows,
  cfg_D1 RA c <= start_distance (cfg_D0 RA c) (cfg_DS1 RA c) \/ cfg_DS1 RA c <= 0 -> itmlogic_area_cfg RA c p <> Ok rows.
Proof. exact single_distance. Qed.
Print Assumptions C47_single_distance_refuted.
(** D0 = 10, D1 = 20, DS1 = 10, D2 = 50, DS2 = 30 works; with D1 = D0 = 10 the script ends in UnboundLocalError.  (The complete
    run of test_area.py, 66 rows, is in Validate.v.) *)
Example C47_case :
  on_ok (itmlogic_area_cfg TA (AreaCfg TA (PI 50) (PI 50) [PI 90] (PI 10) (PI 20) (PI 10) (PI 50) (PI 30) 2 2) area_in)
    (fun rows => match map (fun r => fst (fst r)) rows with [a; b; c] => @n_eqb TA a (PI 10) && @n_eqb TA b (PI 20) && @n_eqb TA c (PI 50) | _ => false end) = true /\
  itmlogic_area_cfg TA (AreaCfg TA (PI 50) (PI 50) [PI 90] (PI 10) (PI 10) (PI 10) (PI 500) (PI 50) 2 2) area_in = Err UnboundLocalError.
Proof. vm_compute. split; reflexivity. Qed.

(** * C48 *)
Theorem C48_range : forall d : R, 0 <= d -> exists n, determine_num_samples RA d = Ok n /\ (2 <= n <= 600)%Z.
Proof. exact num_range. Qed.
Print Assumptions C48_range.
Theorem C48_zero : determine_num_samples RA 0 = Ok 2%Z.
Proof. exact num_zero. Qed.
Print Assumptions C48_zero.
Theorem C48_monotone : forall (d d' : R) n n', 0 <= d -> d <= d' ->
  determine_num_samples RA d = Ok n -> determine_num_samples RA d' = Ok n' -> (n <= n')%Z.
Proof. exact num_mono. Qed.
Print Assumptions C48_monotone.
(** Exactly the distances with 600 samples: from about 199.8 km on. *)
Theorem C48_reaches_600 : forall d : R, 0 <= d -> (determine_num_samples RA d = Ok 600%Z <-> 100000 * (2 - 1 / 598) <= d).
Proof. exact num_600. Qed.
Print Assumptions C48_reaches_600.
Theorem C48_nearest_integer : forall d : R, 0 <= d ->
  exists n, determine_num_samples RA d = Ok n /\ Rabs (600 - 1 / (d / 100000 + 1 / 598) - IZR n) <= 1 / 2.
Proof. exact num_spec. Qed.
Print Assumptions C48_nearest_integer.
Example C48_case : determine_num_samples TA (PI 10000) = Ok 590%Z.
Proof. vm_compute. reflexivity. Qed.

(** * C49 *)
(** Full statement: the samples are equally spaced, start at the transmitter and end at the receiver.
    Proved: everything but the end, which is false. *)
Theorem C49_equally_spaced_partial : forall (d len : R) (xs : list R), 0 <= d -> terrain_sampling RA d len = Ok xs ->
  nth_error xs 0 = Some 0 /\
  exists h, len = INR (length xs) * h /\ forall i x y, nth_error xs i = Some x -> nth_error xs (S i) = Some y -> y - x = h.
Proof. exact sampling_spacing. Qed.
Print Assumptions C49_equally_spaced_partial.
Theorem C49_total : forall d len : R, 0 <= d -> exists xs : list R, terrain_sampling RA d len = Ok xs.
Proof. exact sampling_total. Qed.
Print Assumptions C49_total.
(** Every sample of every path stays at least one 600th of the path short of the receiver. *)
Theorem C49_end_refuted : forall (d len : R) (xs : list R), 0 <= d -> 0 < len -> terrain_sampling RA d len = Ok xs ->
  forall x, In x xs -> x <= len - len / 600.
Proof. exact sampling_short. Qed.
Print Assumptions C49_end_refuted.
(** The two samples of a path of (almost) no length. *)
Example C49_case : on_ok (terrain_sampling TA (PI 0) (PI 8)) (fun xs => match xs with [x; y] => @n_eqb TA x (PI 0) && @n_eqb TA y (PI 4) | _ => false end) = true.
Proof. vm_compute. reflexivity. Qed.

(** * C50 *)
(** The nearest integer to the distance between the 10th and the 90th percentile. *)
Theorem C50_reference : forall x : list R, x <> [] -> exists k, interdecile_range RA x = Ok k /\ (0 <= k)%Z /\
  exists u v, percentile x 90 u /\ percentile x 10 v /\ Rabs (u - v - IZR k) <= 1 / 2.
Proof. exact idr_nonneg. Qed.
Print Assumptions C50_reference.
Theorem C50_percentiles_unique : forall x q u v, percentile x q u -> percentile x q v -> u = v.
Proof. exact percentile_unique. Qed.
Print Assumptions C50_percentiles_unique.
Theorem C50_shift : forall (x : list R) c, x <> [] -> interdecile_range RA (map (fun z => z + c) x) = interdecile_range RA x.
Proof. exact idr_shift. Qed.
Print Assumptions C50_shift.
Theorem C50_permutation : forall x y : list R, Permutation x y -> interdecile_range RA x = interdecile_range RA y.
Proof. exact idr_perm. Qed.
Print Assumptions C50_permutation.
Theorem C50_constant : forall (x : list R) c, x <> [] -> (forall z, In z x -> z = c) -> interdecile_range RA x = Ok 0%Z.
Proof. exact idr_const. Qed.
Print Assumptions C50_constant.
Example C50_case : interdecile_range TA (map PI [40; 0; 10; 30; 20]%Z) = Ok 32%Z.
Proof. vm_compute. reflexivity. Qed.

(** * C51 *)
(** Full statement: both scripts give the ground impedance of qlrps.
    Proved: wave number, curvature and refractivity of both, and the impedance of p2p; the impedance of area.py is wrong. *)
Theorem C51_p2p_environment : forall (z : list R) (p q : prop RA) (fmhz : R) ipol, pn p FMHZ = Some fmhz -> pz p IPOL = Some ipol ->
  p2p_prepare RA z p = Ok q ->
  exists wn gme ens zgnd, qlrps RA fmhz 0 314 ipol 15 (5 / 1000)%R = Ok (wn, gme, ens, zgnd) /\
    pn q WN = Some wn /\ pn q GME = Some gme /\ pn q ENS = Some ens /\ pn q ZGR = Some (fst zgnd) /\ pn q ZGI = Some (snd zgnd).
Proof. exact p2p_environment. Qed.
Print Assumptions C51_p2p_environment.
(** At every frequency and for both polarisations the impedance of area.py differs from that of qlrps. *)
Theorem C51_area_impedance_refuted : forall (p q : prop RA) (fmhz : R) ipol, 0 < fmhz -> pn p FMHZ = Some fmhz -> pz p IPOL = Some ipol ->
  area_env RA p = Ok q ->
  exists wn gme ens zgnd zr zi, qlrps RA fmhz 0 301 ipol 15 (1 / 1000)%R = Ok (wn, gme, ens, zgnd) /\
    pn q WN = Some wn /\ pn q GME = Some gme /\ pn q ENS = Some ens /\ pn q ZGR = Some zr /\ pn q ZGI = Some zi /\ (zr, zi) <> zgnd.
Proof. exact area_environment. Qed.
Print Assumptions C51_area_impedance_refuted.
Theorem C51_area_total : forall (p : prop RA) (fmhz : R) ipol, 0 < fmhz -> pn p FMHZ = Some fmhz -> pz p IPOL = Some ipol ->
  exists q, area_env RA p = Ok q.
Proof. exact area_env_total. Qed.
Print Assumptions C51_area_total.
Example C51_case : is_ok (p2p_prepare TA hills (path 30)) = true.
Proof. vm_compute. reflexivity. Qed.

(** * C52 *)
(** Full statement: 'Diffraction' is reported only when the diffraction line gave aref, 'Tropospheric scatter' only when the
    scatter line did, and the report never fails.
    Proved: it never fails, and scatter is reported exactly on the scatter line beyond the horizon.  'Diffraction' is false. *)
Theorem C52_report_partial : forall (xi : R) (p q : prop RA), qlrpfl RA p = Ok q -> exists k m dist dlsa a, p2p_classify RA xi q = Ok (k, m) /\
  values q [DIST; DLSA; AREF] (fun x => match x with DIST => dist | DLSA => dlsa | _ => a end) /\
  (0 < dist < dlsa -> m = MsgDiffraction /\ exists c, los_entries q c /\ a = Rmax 0 (los_curve c dist)) /\
  (dlsa < dist -> exists c, pn q DX = Some (b_dx c) /\
     (b_dx c < dist -> m = MsgScatter /\ pn q AES = Some (b_aes c) /\ pn q EMS = Some (b_ems c) /\ a = Rmax 0 (scat_line c dist)) /\
     (dist <= b_dx c -> m = MsgNone /\ pn q AED = Some (b_aed c) /\ pn q EMD = Some (b_emd c) /\ a = Rmax 0 (diff_line c dist))).
Proof. exact report_spec. Qed.
Print Assumptions C52_report_partial.
(** A line-of-sight path is reported as diffraction; a path in the diffraction regime is not reported. *)
Theorem C52_diffraction_refuted : exists (z z' : list (num TA)) (p p' : prop TA) o o',
  itmlogic_p2p TA z p = Ok o /\ out_kind TA o = LineOfSight /\ out_mode TA o = MsgDiffraction /\
  itmlogic_p2p TA z' p' = Ok o' /\ out_kind TA o' = DoubleHorizon /\ out_mode TA o' = MsgNone.
Proof. exact mode_case. Qed.
Print Assumptions C52_diffraction_refuted.

(** * C53 *)
(** Full statement: run_itmlogic evaluates avar at the deviates of the requested 50% levels, i.e. at 0.
    False: it uses qerfi([50]) = -4.7533 for both.  Every row of every run carries that loss, which is never below the median. *)
Theorem C53_levels_refuted : qerfi RA [1 / 2] = Ok [0] /\ forall (terrain distance : list R) rows, run_itmlogic RA terrain distance = Ok rows ->
  Forall2 (fun (hg : R) (row : R * R * R * R) => exists (p q q' q'' : prop RA) (wn dist a m : R), qlrpfl RA p = Ok q /\ pn p HG1 = Some hg /\
    pn q WN = Some wn /\ pn q DIST = Some dist /\
    avar RA (- (47533 / 10000))%R 0 (- (47533 / 10000))%R q = Ok (a, q') /\ row = (2488, hg, 50, 8685890 / 1000000 * ln (2 * wn * dist) + a) /\
    avar RA 0 0 0 q = Ok (m, q'') /\ m <= a) (map (fun k => IZR (Z.of_nat k)) (seq 10 121)) rows.
Proof. exact (conj qerfi_half pimter_spec). Qed.
Print Assumptions C53_levels_refuted.
(** A run for the heights 10 m and 130 m (the first and the last; the complete run, 121 rows, is evaluated in Validate.v): the
    losses lie more than 10 dB above those at the median. *)
Example C53_case : on_ok pimter_excess (fun l => (length l =? 2)%nat && forallb (fun x => @n_ltb TA (PI 10) x) l) = true.
Proof. vm_compute. reflexivity. Qed.

(** * C54 *)
(** Full statement: 'Line of sight path' is reported only for paths whose terrain horizons reach the other terminal.
    Proved: the report compares the length with the smooth-earth horizons (half a sample step of tolerance), never fails.
    False: the terrain plays no part. *)
Theorem C54_smooth_earth_partial : forall (xi : R) (p q : prop RA), 0 <= xi -> qlrpfl RA p = Ok q ->
  exists k m dist dlsa, p2p_classify RA xi q = Ok (k, m) /\ pn q DIST = Some dist /\ pn q DLSA = Some dlsa /\
    k = if Rlt_dec dist (dlsa - xi / 2) then LineOfSight else if Rle_dec dist (dlsa + xi / 2) then SingleHorizon else DoubleHorizon.
Proof. exact kind_spec. Qed.
Print Assumptions C54_smooth_earth_partial.
(** Two hills of 300 m and 400 m between masts of 100 m: reported as line of sight. *)
Theorem C54_line_of_sight_refuted : exists (z : list (num TA)) (p q : prop TA) o d0 d1 dist, p2p_prepare TA z p = Ok q /\
  pn q DL0 = Some d0 /\ pn q DL1 = Some d1 /\ pn q DIST = Some dist /\ @n_ltb TA (@n_add TA d0 d1) dist = true /\
  itmlogic_p2p TA z p = Ok o /\ out_kind TA o = LineOfSight.
Proof. exact kind_case. Qed.
Print Assumptions C54_line_of_sight_refuted.
