(** Property theorems C77: over smooth earth every distance within the horizons is answered, and attenuation grows with distance. *)
From Verif Require Import RInst SpecPathRun SpecPimter SpecSmooth SpecHeight Prep Scripts PfPathCases PfFlatCases PfReverse4 PfSmooth3 PfSmooth4 PfHeight4 PfSmooth5 Arith.
Open Scope R_scope.

(** * C77 *)
(** Area mode, no terrain irregularity, any siting: all distances before the common horizon are answered, a longer one never with
    less attenuation.  Ground with some conductivity (zgi <> 0), as qlrps always returns for a positive one. *)
Theorem C77_area : forall k0 k1 (p : prop RA) w (x y : R), link_entries p w -> pn p DH = Some 0 -> w ZGI <> 0 -> 0 < x -> x <= y -> y < common_horizon k0 k1 w ->
  exists q rx ry ax ay, qlra RA k0 k1 p = Ok q /\ lrprop RA x q = Ok rx /\ lrprop RA y q = Ok ry /\ pn rx AREF = Some ax /\ pn ry AREF = Some ay /\ ax <= ay.
Proof. exact area_within. Qed.
Print Assumptions C77_area.
(** Beyond the horizon: as far as the diffraction line is used, and further if the scatter line does not fall. *)
Theorem C77_beyond : forall k0 k1 (p : prop RA) w q rx ry (x y ax ay : R), link_entries p w -> pn p DH = Some 0 -> qlra RA k0 k1 p = Ok q -> 0 < x -> x <= y ->
  lrprop RA x q = Ok rx -> lrprop RA y q = Ok ry -> before_scatter ry y -> pn rx AREF = Some ax -> pn ry AREF = Some ay -> ax <= ay.
Proof. exact area_grows. Qed.
Print Assumptions C77_beyond.
(** The diffraction line rises and exceeds 1 dB at the horizon: the conditions of C08 hold. *)
Theorem C77_diffraction : forall k0 k1 (p : prop RA) w q r (x emd aed s : R), link_entries p w -> pn p DH = Some 0 -> qlra RA k0 k1 p = Ok q -> 0 < x -> lrprop RA x q = Ok r ->
  pn r EMD = Some emd -> pn r AED = Some aed -> pn r DLSA = Some s -> 0 < emd /\ 1 < aed + emd * s.
Proof. exact area_line. Qed.
Print Assumptions C77_diffraction.
(** Point to point: the same links over two stretches of straight ground, level or rising towards the receiver, however sampled. *)
Theorem C77_path : forall (p p' : prop RA) w f f' (c b c' b' : R), link_entries p w -> link_entries p' w -> ppfl p = Some f -> ppfl p' = Some f' -> well_formed f -> well_formed f' ->
  straight f c b -> straight f' c' b' -> 0 <= b -> 0 <= b' -> path_length f <= path_length f' ->
  path_length f' < smooth_horizon (w HG0) (w GME) + smooth_horizon (w HG1) (w GME) -> w ZGI <> 0 ->
  exists r r' ax ay, qlrpfl RA p = Ok r /\ qlrpfl RA p' = Ok r' /\ pn r AREF = Some ax /\ pn r' AREF = Some ay /\ ax <= ay.
Proof. exact path_within. Qed.
Print Assumptions C77_path.
(** p2p.py from 40 MHz over straight ground of any slope, shorter than the two smooth-earth horizon distances: always fifteen rows. *)
Theorem C77_script : forall (p : prop RA) z (d f h0 h1 c b : R) ipol, path_request p z d f h0 h1 ipol -> 40 <= f -> straight (script_path d z) c b ->
  1000 * d < smooth_horizon h0 script_curvature + smooth_horizon h1 script_curvature -> exists out, itmlogic_p2p RA z p = Ok out /\ length (out_rows RA out) = 15%nat.
Proof. exact script_answered. Qed.
Print Assumptions C77_script.

(** pimter.py over straight ground of any slope, up to 19.8 km, however sampled: all 121 heights. *)
Theorem C77_flight : forall (dist z : list R) (c b : R), length z = length dist -> (2 <= length dist)%nat -> nth 0 dist 0 < nth 1 dist 0 -> straight (walked_path dist z) c b ->
  path_length (walked_path dist z) <= 19800 -> exists rows, run_itmlogic RA z dist = Ok rows /\
    map (fun r : R * R * R * R => let '(f, h, q, _) := r in (f, h, q)) rows = map (fun k => (2488, INR k, 50)) (seq 10 121).
Proof. exact straight_flight. Qed.
Print Assumptions C77_flight.

(** What distance costs beyond the horizon: each diffraction scale 1 / (wn gme^2)^(1/3), 23 km at 286 MHz, adds between 9.7 and 14 dB. *)
Theorem C77_rate : forall k0 k1 (p : prop RA) w q rx ry (x y ax ay : R), link_entries p w -> pn p DH = Some 0 -> qlra RA k0 k1 p = Ok q -> 0 < x -> x <= y ->
  lrprop RA x q = Ok rx -> lrprop RA y q = Ok ry -> on_diffraction_line rx x -> on_diffraction_line ry y -> pn rx AREF = Some ax -> pn ry AREF = Some ay ->
  9.7 * ((y - x) / diffraction_scale w) <= ay - ax <= 14 * ((y - x) / diffraction_scale w).
Proof. exact line_rate. Qed.
Print Assumptions C77_rate.
(** The same with the distances bounded by the inputs. *)
Theorem C77_rate_region : forall k0 k1 (p : prop RA) w q rx ry (x y ax ay : R), link_entries p w -> pn p DH = Some 0 -> qlra RA k0 k1 p = Ok q ->
  common_horizon k0 k1 w <= x -> x <= y -> y <= common_horizon k0 k1 w + 0.3 * diffraction_scale w * ln (47.7 * w WN) -> y <= 10000000 ->
  lrprop RA x q = Ok rx -> lrprop RA y q = Ok ry -> pn rx AREF = Some ax -> pn ry AREF = Some ay ->
  9.7 * ((y - x) / diffraction_scale w) <= ay - ax <= 14 * ((y - x) / diffraction_scale w).
Proof. exact region_rate. Qed.
Print Assumptions C77_rate_region.

(** 286 MHz between 10 m and 20 m: every pair of distances up to 30 km; a ramp of 2 km and one of 20 km. *)
Example C77_case_area : forall k0 k1 (x y : R), 0 < x -> x <= y -> y <= 30000 ->
  link_entries (smooth_link (ramp 1000 0)) smooth_v /\ pn (smooth_link (ramp 1000 0)) DH = Some 0 /\ smooth_v ZGI <> 0 /\ y < common_horizon k0 k1 smooth_v.
Proof.
  intros k0 k1 x y P L Y. destruct (smooth_link_ok (ramp 1000 0)) as (A & B & _). split; [exact A|]. split; [exact B|]. split; [cbn; lra|]. assert (H := smooth_case_horizon k0 k1). lra.
Qed.
Example C77_case_path : link_entries (smooth_link (ramp 1000 3)) smooth_v /\ link_entries (smooth_link (ramp 10000 0)) smooth_v /\ straight (ramp 1000 3) 0 3 /\ straight (ramp 10000 0) 0 0 /\
  path_length (ramp 1000 3) <= path_length (ramp 10000 0) /\ path_length (ramp 10000 0) < smooth_horizon (smooth_v HG0) (smooth_v GME) + smooth_horizon (smooth_v HG1) (smooth_v GME).
Proof.
  split; [apply smooth_link_ok|]. split; [apply smooth_link_ok|]. split; [apply ramp_straight|]. split; [apply ramp_straight|].
  assert (E : forall x b, path_length (ramp x b) = 2 * x) by (intros; unfold path_length, intervals; change (Z.to_nat (pf_np (ramp x b))) with 2%nat; cbn [INR]; change (@pf_xi RA (ramp x b)) with x; lra).
  rewrite !E. split; [lra|]. assert (H := smooth_case_horizon 0 0). unfold common_horizon in H. rewrite !no_siting in H. lra.
Qed.
Example C77_case_script : path_request (path_call 100 2 10 10 0) [0; -5; -10] 2 100 10 10 0 /\ straight (script_path 2 [0; -5; -10]) 0 (-5) /\
  1000 * 2 < smooth_horizon 10 script_curvature + smooth_horizon 10 script_curvature.
Proof.
  split; [apply path_call_request; try lra; cbn; lia|]. split.
  - intros k K. change (intervals (script_path 2 [0; -5; -10])) with 2%nat in K. destruct k as [|[|[|k]]]; [| | |lia]; unfold ground, script_path; cbn; lra.
  - assert (G := curvature_pos). assert (L := curvature_le). assert (A : 1000 < smooth_horizon 10 script_curvature).
    { unfold smooth_horizon. rewrite <- (sqrt_square 1000) by lra. apply sqrt_lt_1_alt. split; [lra|]. apply Rmult_lt_reg_r with script_curvature; [exact G|]. replace (2 * 10 / script_curvature * script_curvature) with 20 by (field; lra). lra. } lra.
Qed.
(** Ground falling by 3 m in every kilometre. *)
Example C77_case_flight : let dist := [0; 1000; 2000] in let z := [60; 57; 54] in length z = length dist /\ (2 <= length dist)%nat /\ nth 0 dist 0 < nth 1 dist 0 /\ straight (walked_path dist z) 60 (-3) /\
  path_length (walked_path dist z) <= 19800.
Proof. exact straight_flight_case. Qed.
(** 286 MHz between antennas of 20 m, at 45 km and 70 km: all conditions of C77_rate_region. *)
Example C77_case_rate : exists q rx ry ax ay, link_entries (raised_link 20) (raised_v 20) /\ pn (raised_link 20) DH = Some 0 /\ qlra RA 0 0 (raised_link 20) = Ok q /\ common_horizon 0 0 (raised_v 20) <= 45000 /\
  70000 <= common_horizon 0 0 (raised_v 20) + 0.3 * diffraction_scale (raised_v 20) * ln (47.7 * raised_v 20 WN) /\ lrprop RA 45000 q = Ok rx /\ lrprop RA 70000 q = Ok ry /\ pn rx AREF = Some ax /\ pn ry AREF = Some ay.
Proof. exact rate_case. Qed.
