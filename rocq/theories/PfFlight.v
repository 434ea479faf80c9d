(** pimter.py over level ground: every height can be computed. *)
From Interval Require Import Tactic.
From Coq Require Import Lra Lia.
From Verif Require Import Frame SpecRegime SpecPimter SpecFlat Scripts RTac PfRealRun PfRealScripts PfHzns PfPfl PfTotal PfTotal4 PfFlat PfReverseCases PfReverse4 PfTilt PfPimterRun PfPathRun3 RInst Arith.
Open Scope R_scope.

Lemma flight_ground : runs (qlrps RA 2488 0 314 1 15 (5 / 1000)%R) (fun r => let '(wn, g, _, (zr, zi)) := r in
  521593 / 10000 <= wn <= 521594 / 10000 /\ 11479 / 10 ^ 11 <= g <= 11481 / 10 ^ 11 /\ 0 < zr /\ 16 <= / (zr ^ 2 + zi ^ 2) <= 161 / 10).
Proof. unfold qlrps. rgo2. repeat split; ival. Qed.
Lemma flight_numbers (c a0 a1 s : R) : 13000 <= a1 <= 48000 -> 213 / 10000 <= c <= 215 / 10000 -> 6670 <= a0 <= 6685 -> 15590 <= s <= 15640 -> 
  let d3 := a0 + a1 + s in let d4 := d3 + 2 * s in let x1 := c * a1 in let w := 0.0134 * x1 * exp (-0.005 * x1) in
  (0 < 0.05751 * c * (2 * s) - 4.343 * ln (d4 / d3)) /\
  0 < 0.05751 * c * (a0 + a1) - 4.343 * (1.5 * ln (c * d3) - 0.5 * ln (c * d4)) - (20 + (17.372 * ln (c * a0) - 117) + ((1 - w) * (0.05751 * x1 - 4.343 * ln x1) + w * (17.372 * ln x1 - 117))).
Proof.
  intros A C A0 S. cbv zeta. split; [interval with (i_prec 53) | interval with (i_prec 53, i_bisect a1)].
Qed.
Lemma takeoff_level (h g : R) : 0 < h -> 0 < g -> takeoff_angle h g 0 = - g * smooth_horizon h g.
Proof.
  intros H G. unfold takeoff_angle. cbv zeta. unfold smooth_horizon. set (a := sqrt (2 * h / g)). assert (P : 0 < 2 * h / g) by (apply Rdiv_lt_0_compat; lra).
  assert (A : a * a = 2 * h / g) by (apply sqrt_sqrt; lra). assert (AP : 0 < a) by (apply sqrt_lt_R0; exact P).
  replace (0.65 * 0 * (a / rough_horizon h g 0 - 1) - 2 * h) with (- (2 * h)) by ring. replace (2 * h) with (g * (a * a)) by (rewrite A; field; lra). field. lra.
Qed.
(** The values at one height. *)
Lemma level_values (dist z : list R) (c h : R) v : length z = length dist -> (2 <= length dist)%nat -> nth 0 dist 0 < nth 1 dist 0 -> straight (walked_path dist z) c 0 ->
  path_length (walked_path dist z) <= 19000 -> 10 <= h <= 130 -> flight_values dist z h v ->
  521593 / 10000 <= v WN <= 521594 / 10000 /\ 11479 / 10 ^ 11 <= v GME <= 11481 / 10 ^ 11 /\ 0 < v ZGR /\ 16 <= / (v ZGR ^ 2 + v ZGI ^ 2) <= 161 / 10 /\
  v HG0 = 2.56 /\ v HG1 = h /\ v DH = 0 /\ v HE0 = 2.56 /\ v HE1 = h /\ v DL0 = sqrt (2 * 2.56 / v GME) /\ v DL1 = sqrt (2 * h / v GME) /\ v THE0 = - v GME * v DL0 /\ v THE1 = - v GME * v DL1 /\ 6670 <= v DL0 <= 6685 /\ 13000 <= v DL1 <= 48000.
Proof.
  intros L L2 D S X H (Q & E0 & E1 & GEO & _). assert (W := walked_wf dist z L L2 D). set (f := walked_path dist z) in *.
  destruct flight_ground as ([[[wn g] ens] [zr zi]] & Q' & B). rewrite Q' in Q. injection Q as -> -> -> -> ->. destruct B as (Bw & Bg & Bz & Bq).
  assert (S0 : 6670 <= sqrt (2 * 2.56 / v GME) <= 6685) by (split; interval with (i_prec 53)).
  assert (S1 : 13000 <= sqrt (2 * h / v GME) <= 48000) by (split; interval with (i_prec 53)).
  assert (P : path_entries (path_dict f (v HG0) (v HG1) (v GME)) f v).
  { assert (GP : 0 < v GME) by lra. destruct (path_dict_ok f (v HG0) (v HG1) (v GME) W ltac:(lra) ltac:(lra) GP) as (A1 & A2 & A3 & A4 & A5 & A6).
    split; [exact A1|]. split; [exact A2|]. split; [|auto]. intros k K. rewrite (A3 k K). cbn in K. destruct K as [<-|[<-|[<-|[]]]]; reflexivity. }
  destruct (GEO _ P) as (r & Er & Vr).
  destruct (straight_geom _ f v c 0 P S) as (r' & Er' & Gr). { unfold within_horizons, smooth_horizon. rewrite E0, E1. lra. }
  rewrite Er in Er'. injection Er' as <-. unfold geom_entries, raised in Gr. rewrite Rmax_right in Gr by lra. rewrite Rplus_0_r in Gr.
  rewrite !takeoff_level in Gr by lra. subst r.
  rename Vr into K. unfold values in K.
  assert (K1 := K DH ltac:(cbn; tauto)). assert (K2 := K HE0 ltac:(cbn; tauto)). assert (K3 := K HE1 ltac:(cbn; tauto)). assert (K4 := K DL0 ltac:(cbn; tauto)). assert (K5 := K DL1 ltac:(cbn; tauto)). assert (K6 := K THE0 ltac:(cbn; tauto)). assert (K7 := K THE1 ltac:(cbn; tauto)).
  cbn in K1, K2, K3, K4, K5, K6, K7. injection K1 as K1. injection K2 as K2. injection K3 as K3. injection K4 as K4. injection K5 as K5. injection K6 as K6. injection K7 as K7.
  unfold smooth_horizon in *. rewrite <- K1, <- K2, <- K3, <- K4, <- K5, <- K6, <- K7, E0, E1. tauto.
Qed.

Lemma level_flyable (dist z : list R) (c h : R) v : length z = length dist -> (2 <= length dist)%nat -> nth 0 dist 0 < nth 1 dist 0 -> straight (walked_path dist z) c 0 ->
  path_length (walked_path dist z) <= 19000 -> 10 <= h <= 130 -> flight_values dist z h v -> (ground_ok v -> curve_ok v) -> (scatters v (path_length (walked_path dist z))) ->
  flyable v (path_length (walked_path dist z)).
Proof.
  intros L L2 D S X H FV CO SC. destruct (level_values dist z c h v L L2 D S X H FV) as (Bw & Bg & Bz & Bq & G0 & G1 & EH & E0 & E1 & D0 & D1 & T0 & T1 & B0 & B1).
  destruct FV as (_ & _ & _ & _ & (GP & DP & LP)). set (x := path_length _) in *. clear L L2 D S.
  destruct GP as (S0 & S1 & SA & LA & TH & _). destruct DP as (_ & _ & AF & QK_ & XH & AH). destruct LP as (XA & L3 & L4 & _).
  assert (GP : 0 < v GME) by lra.
  rewrite E0, <- D0 in S0. rewrite E1, <- D1 in S1. assert (SL : v DLSA = v DLA) by lra.
  assert (TA : v THA = - v DLA * v GME). { rewrite TH, T0, T1, LA. apply Rmax_right. lra. }
  (* 1/g is the radius everywhere *)
  set (w := Rpower (/ v GME * v WN) (1 / 3)). assert (WB : 7685 / 10 <= w <= 7695 / 10) by (unfold w, Rpower; split; interval with (i_prec 53)).
  assert (QB : 4 <= v QK <= 402 / 100).
  { rewrite QK_. set (q := v ZGR ^ 2 + v ZGI ^ 2) in *. assert (P : 0 < q) by (unfold q; nra). assert (IQ : 1 / sqrt q = sqrt (/ q)) by (rewrite sqrt_inv; unfold Rdiv; ring).
    rewrite IQ. set (i := / q) in *. split; interval with (i_prec 53). }
  set (k := v QK / w). assert (KB : 519 / 100000 <= k <= 524 / 100000) by (unfold k; split; interval with (i_prec 53)).
  set (a := (1.607 - k) * 151 * w * v GME). assert (AB : 213 / 10000 <= a <= 215 / 10000) by (unfold a; split; interval with (i_prec 53)).
  assert (RAD : forall he : R, 0 < he -> let dl := sqrt (2 * he / v GME) in 0 < dl /\ dl ^ 2 / (2 * he) = / v GME /\ 2 * he / dl = v GME * dl).
  { intros he P. cbv zeta. assert (P2 : 0 < 2 * he / v GME) by (apply Rdiv_lt_0_compat; lra). set (dl := sqrt (2 * he / v GME)). assert (Q : dl * dl = 2 * he / v GME) by (apply sqrt_sqrt; lra).
    assert (DLP : 0 < dl) by (apply sqrt_lt_R0; exact P2). split; [exact DLP|]. split; [replace (dl ^ 2) with (dl * dl) by ring; rewrite Q; field; lra|].
    apply Rmult_eq_reg_r with dl; [|lra]. replace (v GME * dl * dl) with (v GME * (dl * dl)) by ring. rewrite Q. field. lra. }
  destruct (RAD 2.56 ltac:(lra)) as (_ & R0 & Q0). destruct (RAD h ltac:(lra)) as (_ & R1 & Q1). cbv zeta in *. rewrite <- D0 in *. rewrite <- D1 in *.
  assert (P0 : sphere v (v DL0) (v HE0) = w) by (unfold sphere; rewrite E0, R0; reflexivity). assert (P1 : sphere v (v DL1) (v HE1) = w) by (unfold sphere; rewrite E1, R1; reflexivity).
  assert (X0 : sphere_x v (v DL0) (v HE0) = a * v DL0). { unfold sphere_x, sphere_k. rewrite P0. fold k. unfold a. unfold Rdiv. rewrite Rmult_assoc. change (2 * v HE0 * / v DL0) with (2 * v HE0 / v DL0). rewrite E0, Q0. ring. }
  assert (X1 : sphere_x v (v DL1) (v HE1) = a * v DL1). { unfold sphere_x, sphere_k. rewrite P1. fold k. unfold a. unfold Rdiv. rewrite Rmult_assoc. change (2 * v HE1 * / v DL1) with (2 * v HE1 / v DL1). rewrite E1, Q1. ring. }
  assert (K0 : sphere_k v (v DL0) (v HE0) = k) by (unfold sphere_k; rewrite P0; reflexivity). assert (K1 : sphere_k v (v DL1) (v HE1) = k) by (unfold sphere_k; rewrite P1; reflexivity).
  rewrite X0, X1 in XH. rewrite X0, X1, K0, K1 in AH.
  (* height gains *)
  assert (H0 : height_gain (a * v DL0) k = 17.372 * ln (a * v DL0) - 117).
  { unfold height_gain. destruct (Rlt_dec (a * v DL0) 200) as [_|N]; [|exfalso; apply N; interval with (i_prec 53)]. destruct (Rlt_dec k 0.00001) as [N|_]; [lra|].
    destruct (Rlt_dec 5495 _) as [_|N]; [|exfalso; apply N; interval with (i_prec 53)]. destruct (Rlt_dec 1 _) as [_|N]; [reflexivity | exfalso; apply N; interval with (i_prec 53)]. }
  set (y := a * v DL1) in *. set (b := 0.0134 * y * exp (-0.005 * y)).
  assert (H1 : height_gain y k = (1 - b) * (0.05751 * y - 4.343 * ln y) + b * (17.372 * ln y - 117)).
  { unfold height_gain. destruct (Rlt_dec y 200) as [N|_]; [exfalso; revert N; apply Rle_not_lt; unfold y; interval with (i_prec 53)|].
    destruct (Rlt_dec y 2000) as [_|N]; [reflexivity|exfalso; apply N; unfold y; interval with (i_prec 53)]. }
  rewrite H0, H1 in AH.
  (* the diffraction line *)
  set (s := 1.3787 * v XAE). assert (SB : 15590 <= s <= 15640) by (unfold s; rewrite XA; unfold Rpower; split; interval with (i_prec 53)).
  assert (F3 : diff_d3 v = v DL0 + v DL1 + s) by (unfold diff_d3; fold s; rewrite SL, LA; apply Rmax_right; lra).
  assert (F4 : diff_d4 v = diff_d3 v + 2 * s) by (unfold diff_d4, s; lra).
  assert (DIF : forall d, v DLA < d -> diffraction v d = 0.05751 * (a * d) - 4.343 * ln (a * d) - v AHT).
  { intros d Dd. assert (I0 : forall e, irregularity_at v e = 0) by (intro e; unfold irregularity_at; rewrite EH; ring).
    assert (WG : diff_weight v d = 1). { unfold diff_weight. rewrite I0, Rmult_0_l, Rmin_left, Rmult_0_r, sqrt_0 by lra. field. lra. }
    assert (AZ : v AFO = 0). { rewrite AF. unfold roughness. rewrite I0. rewrite Rmult_0_r, Rmult_0_l, Rmult_0_r, Rplus_0_r, ln_1, Rmult_0_r. apply Rmin_right. lra. }
    unfold diffraction. rewrite WG, AZ. unfold rounded_earth.
    assert (AG : angle_at v d = (d - v DLA) * v GME) by (unfold angle_at; rewrite TA; ring). rewrite AG.
    replace ((d - v DLA) / ((d - v DLA) * v GME)) with (/ v GME) by (field; lra). fold w. fold k.
    replace ((1.607 - k) * 151 * w * ((d - v DLA) * v GME) + v XHT) with (a * d) by (rewrite XH; unfold y, a; rewrite LA; ring). ring. }
  rewrite DIF in L3, L4 by lra.
  destruct (flight_numbers a (v DL0) (v DL1) s B1 AB B0 SB) as [N1 N2]. cbv zeta in N1, N2. fold y in N2. fold b in N2. rewrite <- F3, <- F4 in N1, N2.
  set (d3 := diff_d3 v) in *. set (d4 := diff_d4 v) in *. assert (D3 : 0 < d3) by lra. assert (D4 : 0 < d4) by lra. assert (AP : 0 < a) by lra.
  assert (LN : ln (a * d4) = ln (a * d3) + ln (d4 / d3)). { rewrite <- ln_mult; [f_equal; field; lra | apply Rmult_lt_0_compat; lra | apply Rdiv_lt_0_compat; lra]. }
  assert (EP : 0 < v EMD).
  { assert (E : v EMD * (2 * s) = 0.05751 * a * (2 * s) - 4.343 * ln (d4 / d3)) by (replace (2 * s) with (d4 - d3) by lra; rewrite LN in L4; lra). assert (0 < v EMD * (2 * s)) by lra. nra. }
  assert (A2 : 0 < v AED + v EMD * v DLSA).
  { assert (E : v AED + v EMD * v DLSA = 1.5 * (v AED + v EMD * d3) - 0.5 * (v AED + v EMD * d4)) by (rewrite SL, LA, F4, F3; lra). rewrite E, L3, L4, AH. rewrite F4, F3. rewrite F4, F3 in N2. lra. }
  split; [|split; [exact SC|]].
  - apply CO, simple_ground.
    + unfold physical. rewrite EH, G0, G1, E0, E1. repeat split; lra.
    + unfold ordinary, excess. rewrite E0, E1, T0, T1, <- D0, <- D1. rewrite Rmax_left by lra.
      assert (ZB : 1 / 50 <= sqrt (v ZGR ^ 2 + v ZGI ^ 2)).
      { assert (ZP : 0 < sqrt (v ZGR ^ 2 + v ZGI ^ 2)) by (apply sqrt_lt_R0; nra). assert (ZE : v QK * sqrt (v ZGR ^ 2 + v ZGI ^ 2) = 1) by (rewrite QK_; field; lra). nra. }
      repeat split; try lra. 
  - intros [[C [[_ Z]|[Z|[Z1 Z]]]]|[C _]].
    + lra.
    + unfold fit_d1, los_d1 in Z. destruct (Rle_dec 0 (v AED)) as [Z0|Z0].
      * assert (F : los_d0 (v WN) (v HE0) (v HE1) (v DLA) (v AED) <= 0.5 * v DLA) by (unfold los_d0; destruct (Rle_dec 0 (v AED)); [apply Rmin_r | lra]). lra.
      * assert (- v AED / v EMD < v DLSA) by (apply Rmult_lt_reg_r with (v EMD); [exact EP|]; unfold Rdiv; rewrite Rmult_assoc, Rinv_l by lra; lra).
        assert (Rmax (- v AED / v EMD) (0.25 * v DLA) < v DLSA) by (apply Rmax_lub_lt; lra). lra.
    + unfold fit_d1, los_d1 in Z1. destruct (Rle_dec 0 (v AED)) as [Z0|Z0].
      * unfold fit_d0 in *. assert (F : los_d0 (v WN) (v HE0) (v HE1) (v DLA) (v AED) <= 0.5 * v DLA) by (unfold los_d0; destruct (Rle_dec 0 (v AED)); [apply Rmin_r | lra]). lra.
      * assert (- v AED / v EMD < v DLSA) by (apply Rmult_lt_reg_r with (v EMD); [exact EP|]; unfold Rdiv; rewrite Rmult_assoc, Rinv_l by lra; lra).
        assert (Rmax (- v AED / v EMD) (0.25 * v DLA) < v DLSA) by (apply Rmax_lub_lt; lra). lra.
    + lra.
Qed.

Lemma level_flight (dist z : list R) (c : R) : length z = length dist -> (2 <= length dist)%nat -> nth 0 dist 0 < nth 1 dist 0 -> (forall x, In x z -> x = c) ->
  path_length (walked_path dist z) <= 19000 -> exists rows, run_itmlogic RA z dist = Ok rows /\
    map (fun r : R * R * R * R => let '(f, h, q, _) := r in (f, h, q)) rows = map (fun k => (2488, INR k, 50)) (seq 10 121).
Proof.
  intros L L2 D E X. destruct (pimter_exact dist z L L2 D) as (v & V & F & _). apply F. intros k K. destruct (V k K) as (FV & SC & CO). apply in_seq in K.
  apply (level_flyable dist z c (INR k)); try assumption; [| |apply SC; lra].
  - intros j J. unfold intervals, walked_path in J. cbn [pf_np] in J. unfold ground. rewrite Rmult_0_l, Rplus_0_r. apply E. unfold walked_path. cbn [pf_z]. apply nth_In. change (num RA) with R. lia.
  - replace 10 with (INR 10) by (cbn; lra). replace 130 with (INR 130) by (cbn; lra). split; apply le_INR; lia.
Qed.
