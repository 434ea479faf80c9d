(** Smooth earth: attenuation on the diffraction line against antenna height. *)
From Interval Require Import Tactic.
From Coq Require Import Lra Lia List.
From Verif Require Import RInst SpecLr SpecTotal SpecLoss SpecHeight RTac Frame LrProp Prep PfFrame PfStats PfRegime PfLrGen PfAvarReal PfAtten PfTotal3 PfTotal4 PfTotal6 PfTerminal PfLoss PfSetup PfFlight PfSmooth PfSmooth2 PfSmooth3 PfHeight Arith.
Import ListNotations.
Open Scope R_scope.

(** The line through two values of the smooth-earth diffraction loss. *)
Lemma smooth_line_at v b (far : R) : smooth v -> reference_params v b -> let k := ground_constant v in let a := (1.607 - k) * 151 * earth_size v * v GME in let s := 1.3787 * diffraction_scale v in
  0 < k <= 0.287 /\ 0 < a /\ 0 < s /\ v DLSA = v DL0 + v DL1 /\ 0 < v DL0 /\ 0 < v DL1 /\
  v AED + v EMD * far = 0.05751 * (a * far) - 4.343 * chord (a * s) (a * far) (a * v DLSA) - (20 + height_gain (a * v DL0) k + height_gain (a * v DL1) k).
Proof.
  intros SM RP. destruct (smooth_horizons v b SM RP) as (SL & TA & P0 & P1 & LA). destruct SM as (BW & BG & EH & _ & _ & HP0 & HP1 & D0 & D1 & T0 & T1 & ZP & ZB).
  destruct RP as (_ & (_ & _ & AF & QK_ & XH & AH) & (XA & L3 & L4 & _)).
  set (w := Rpower (/ v GME * v WN) (1 / 3)). assert (WB : 1747 / 10 <= w) by (apply third_low; lra).
  assert (QB : 0 < v QK <= 50). { rewrite QK_. set (s := sqrt (v ZGR ^ 2 + v ZGI ^ 2)) in *. split; [apply Rdiv_lt_0_compat; lra|]. apply Rmult_le_reg_r with s; [lra|]. unfold Rdiv. rewrite Rmult_assoc, Rinv_l by lra. lra. }
  set (k := v QK / w). assert (KE : ground_constant v = k) by (unfold ground_constant, k; rewrite QK_; reflexivity). assert (KB : 0 < k <= 0.287). { unfold k. split; [apply Rdiv_lt_0_compat; lra|]. apply Rmult_le_reg_r with w; [lra|]. unfold Rdiv. rewrite Rmult_assoc, Rinv_l by lra. lra. }
  set (a := (1.607 - k) * 151 * w * v GME). assert (AP : 0 < a) by (unfold a; repeat apply Rmult_lt_0_compat; lra).
  assert (RAD : forall he : R, 0 < he -> let dl := sqrt (2 * he / v GME) in 0 < dl /\ dl ^ 2 / (2 * he) = / v GME /\ 2 * he / dl = v GME * dl).
  { intros he P. cbv zeta. assert (P2 : 0 < 2 * he / v GME) by (apply Rdiv_lt_0_compat; lra). set (dl := sqrt (2 * he / v GME)). assert (Q : dl * dl = 2 * he / v GME) by (apply sqrt_sqrt; lra).
    assert (DLP : 0 < dl) by (apply sqrt_lt_R0; exact P2). split; [exact DLP|]. split; [replace (dl ^ 2) with (dl * dl) by ring; rewrite Q; field; lra|].
    apply Rmult_eq_reg_r with dl; [|lra]. replace (v GME * dl * dl) with (v GME * (dl * dl)) by ring. rewrite Q. field. lra. }
  destruct (RAD _ HP0) as (_ & R0 & Q0). destruct (RAD _ HP1) as (_ & R1 & Q1). cbv zeta in *. rewrite <- D0 in *. rewrite <- D1 in *.
  assert (S0 : sphere v (v DL0) (v HE0) = w) by (unfold sphere; rewrite R0; reflexivity). assert (S1 : sphere v (v DL1) (v HE1) = w) by (unfold sphere; rewrite R1; reflexivity).
  assert (X0 : sphere_x v (v DL0) (v HE0) = a * v DL0). { unfold sphere_x, sphere_k. rewrite S0. fold k. unfold a. unfold Rdiv. rewrite Rmult_assoc. change (2 * v HE0 * / v DL0) with (2 * v HE0 / v DL0). rewrite Q0. ring. }
  assert (X1 : sphere_x v (v DL1) (v HE1) = a * v DL1). { unfold sphere_x, sphere_k. rewrite S1. fold k. unfold a. unfold Rdiv. rewrite Rmult_assoc. change (2 * v HE1 * / v DL1) with (2 * v HE1 / v DL1). rewrite Q1. ring. }
  assert (K0 : sphere_k v (v DL0) (v HE0) = k) by (unfold sphere_k; rewrite S0; reflexivity). assert (K1 : sphere_k v (v DL1) (v HE1) = k) by (unfold sphere_k; rewrite S1; reflexivity).
  rewrite X0, X1 in XH. rewrite X0, X1, K0, K1 in AH.
  set (s := 1.3787 * v XAE). assert (XP : 0 < v XAE) by (rewrite XA; apply exp_pos). assert (SB : a * s = (1.607 - k) * 151 * 1.3787).
  { unfold a, s. rewrite XA. assert (T := third_scale (v WN) (v GME) ltac:(lra) ltac:(lra)). fold w in T. set (y := Rpower (v WN * v GME ^ 2) (- (1 / 3))) in *. replace ((1.607 - k) * 151 * w * v GME * (1.3787 * y)) with ((1.607 - k) * 151 * 1.3787 * (w * v GME * y)) by ring. rewrite T. ring. }
  assert (SP : 0 < s) by (unfold s; lra).
  assert (F3 : diff_d3 v = v DL0 + v DL1 + s) by (unfold diff_d3; fold s; rewrite SL, LA; apply Rmax_right; lra).
  assert (F4 : diff_d4 v = diff_d3 v + 2 * s) by (unfold diff_d4, s; lra).
  assert (DIF : forall d, v DLA < d -> diffraction v d = 0.05751 * (a * d) - 4.343 * ln (a * d) - v AHT).
  { intros d Dd. assert (I0 : forall e, irregularity_at v e = 0) by (intro e; unfold irregularity_at; rewrite EH; ring).
    assert (WG : diff_weight v d = 1). { unfold diff_weight. rewrite I0, Rmult_0_l, Rmin_left, Rmult_0_r, sqrt_0 by lra. field. lra. }
    assert (AZ : v AFO = 0). { rewrite AF. unfold roughness. rewrite I0. rewrite Rmult_0_r, Rmult_0_l, Rmult_0_r, Rplus_0_r, ln_1, Rmult_0_r. apply Rmin_right. lra. }
    unfold diffraction. rewrite WG, AZ. unfold rounded_earth.
    assert (AG : angle_at v d = (d - v DLA) * v GME) by (unfold angle_at; rewrite TA; ring). rewrite AG.
    replace ((d - v DLA) / ((d - v DLA) * v GME)) with (/ v GME) by (field; lra). fold w. fold k.
    replace ((1.607 - k) * 151 * w * ((d - v DLA) * v GME) + v XHT) with (a * d) by (rewrite XH; unfold a; rewrite LA; ring). ring. }
  rewrite DIF in L3, L4 by lra. cbv zeta. change (earth_size v) with w. rewrite KE. fold a. replace (1.3787 * diffraction_scale v) with s by (unfold s; rewrite XA; reflexivity).
  repeat (split; [first [exact KB | exact AP | exact SP | lra]|]). assert (AS : 0 < a * s) by (apply Rmult_lt_0_compat; lra).
  set (x0 := a * v DL0) in *. set (x1 := a * v DL1) in *. set (S := a * s) in *.
  assert (q3 : a * diff_d3 v = x0 + x1 + S) by (rewrite F3; unfold x0, x1, S; ring). assert (q4 : a * diff_d4 v = x0 + x1 + 3 * S) by (rewrite F4, F3; unfold x0, x1, S; ring).
  rewrite q3 in L3. rewrite q4 in L4. unfold chord. rewrite SL, LA. replace (a * (v DL0 + v DL1)) with (x0 + x1) by (unfold x0, x1; ring).
  set (l1 := ln (x0 + x1 + S)) in *. set (l3 := ln (x0 + x1 + 3 * S)) in *. rewrite AH in L3, L4.
  assert (R : (a * far - (x0 + x1) - S) / (2 * S) = (far - diff_d3 v) / (2 * s)) by (rewrite F3; unfold x0, x1, S; field; lra). rewrite R.
  assert (EQ : v EMD * (2 * s) = 0.05751 * (2 * S) - 4.343 * (l3 - l1)) by (replace (2 * s) with (diff_d4 v - diff_d3 v) by lra; lra).
  assert (EM : v EMD = 0.05751 * a - 4.343 * (l3 - l1) / (2 * s)). { apply Rmult_eq_reg_r with (2 * s); [|lra]. rewrite EQ. unfold S. field. lra. }
  replace (v AED + v EMD * far) with (v AED + v EMD * diff_d3 v + v EMD * (far - diff_d3 v)) by ring. rewrite L3, EM, <- q3. field. lra.
Qed.

(** One call on the diffraction line. *)
Lemma line_call k0 k1 p w q r (d a : R) : link_entries p w -> pn p DH = Some 0 -> qlra RA k0 k1 p = Ok q -> lrprop RA d q = Ok r -> on_diffraction_line r d -> 0 < d -> pn r AREF = Some a ->
  let k := ground_constant w in let c := (1.607 - k) * 151 * earth_size w * w GME in let s := 1.3787 * diffraction_scale w in
  let l0 := smooth_horizon (effective_height k0 (w HG0) 0) (w GME) in let l1 := smooth_horizon (effective_height k1 (w HG1) 0) (w GME) in
  0 < k <= 0.287 /\ 0 < c /\ 0 < s /\ 0 < l0 /\ 0 < l1 /\
  a = 0.05751 * (c * d) - 4.343 * chord (c * s) (c * d) (c * (l0 + l1)) - (20 + height_gain (c * l0) k + height_gain (c * l1) k).
Proof.
  intros L D Q E (s0 & x0 & ES & LS & EX & LX) P EA. assert (S := link_smooth p w L D). destruct (smooth_call _ _ _ _ _ _ _ S Q P E) as (SM & RP & _ & AR & _ & VI).
  assert (SV := sited_values k0 k1 p (level w) q S Q). assert (X : forall j, In j (ENS :: setup_inputs) -> vals r j = sited k0 k1 (level w) j) by (intros j I; assert (Y1 := VI j I); assert (Y2 := SV j I); congruence).
  destruct (smooth_line_at (vals r) false d SM RP) as (KB & CP & SP & DS & P0 & P1 & LN). destruct (smooth_line _ _ SM RP) as (EP & LP).
  assert (XW : vals r WN = w WN) by (rewrite X by inks; reflexivity). assert (XG : vals r GME = w GME) by (rewrite X by inks; reflexivity). assert (XR : vals r ZGR = w ZGR) by (rewrite X by inks; reflexivity). assert (XI : vals r ZGI = w ZGI) by (rewrite X by inks; reflexivity).
  assert (X0 : vals r DL0 = smooth_horizon (effective_height k0 (w HG0) 0) (w GME)) by (rewrite X by inks; cbn [sited level]; apply dh_zero).
  assert (X1 : vals r DL1 = smooth_horizon (effective_height k1 (w HG1) 0) (w GME)) by (rewrite X by inks; cbn [sited level]; apply dh_zero).
  assert (KE : ground_constant (vals r) = ground_constant w) by (unfold ground_constant, earth_size; rewrite XR, XI, XG, XW; reflexivity).
  assert (WE : earth_size (vals r) = earth_size w) by (unfold earth_size; rewrite XG, XW; reflexivity). assert (SE : diffraction_scale (vals r) = diffraction_scale w) by (unfold diffraction_scale; rewrite XG, XW; reflexivity).
  rewrite DS, X0, X1, KE, WE, SE, XG in LN. rewrite KE, WE, XG in CP. rewrite KE in KB. rewrite SE in SP. rewrite X0 in P0. rewrite X1 in P1. cbv zeta. repeat (split; [assumption|]). rewrite <- LN.
  assert (EA' : a = attenuation_at (vals r) d) by congruence. rewrite EA'. unfold attenuation_at. rewrite (vals_some _ _ _ ES), (vals_some _ _ _ EX) in *.
  destruct (Rlt_dec d s0); [lra|]. destruct (Rle_dec d x0); [|lra]. apply Rmax_right. assert (vals r EMD * s0 <= vals r EMD * d) by (apply Rmult_le_compat_l; lra). lra.
Qed.
Lemma raised_line k0 k1 k0' k1' p p' w w' q q' r r' (d a a' : R) : link_entries p w -> link_entries p' w' -> pn p DH = Some 0 -> pn p' DH = Some 0 -> same_ground w w' ->
  let h0 := effective_height k0 (w HG0) 0 in let h1 := effective_height k1 (w HG1) 0 in let h0' := effective_height k0' (w' HG0) 0 in let h1' := effective_height k1' (w' HG1) 0 in
  h0 <= h0' -> h1 <= h1' -> qlra RA k0 k1 p = Ok q -> qlra RA k0' k1' p' = Ok q' -> lrprop RA d q = Ok r -> lrprop RA d q' = Ok r' -> 0 < d -> on_diffraction_line r d -> on_diffraction_line r' d ->
  d <= common_horizon k0 k1 w + 2.7574 * diffraction_scale w -> pn r AREF = Some a -> pn r' AREF = Some a' -> let k := ground_constant w in
  a' + (height_gain (gain_argument h0' w) k + height_gain (gain_argument h1' w) k) <= a + (height_gain (gain_argument h0 w) k + height_gain (gain_argument h1 w) k) /\
  0 < k < 1 /\ 0 < gain_argument h0 w <= gain_argument h0' w /\ 0 < gain_argument h1 w <= gain_argument h1' w.
Proof.
  intros L L' D D' SG h0 h1 h0' h1' H0 H1 Q Q' E E' P O O' B A A'.
  destruct (line_call k0 k1 p w q r d a L D Q E O P A) as (KB & CP & SP & P0 & P1 & V). destruct (line_call k0' k1' p' w' q' r' d a' L' D' Q' E' O' P A') as (_ & _ & _ & P0' & P1' & V').
  assert (XW : w' WN = w WN) by (apply SG; cbn; tauto). assert (XG : w' GME = w GME) by (apply SG; cbn; tauto). assert (XR : w' ZGR = w ZGR) by (apply SG; cbn; tauto). assert (XI : w' ZGI = w ZGI) by (apply SG; cbn; tauto).
  assert (KE : ground_constant w' = ground_constant w) by (unfold ground_constant, earth_size; rewrite XR, XI, XG, XW; reflexivity).
  assert (WE : earth_size w' = earth_size w) by (unfold earth_size; rewrite XG, XW; reflexivity). assert (SE : diffraction_scale w' = diffraction_scale w) by (unfold diffraction_scale; rewrite XG, XW; reflexivity).
  rewrite KE, WE, SE, XG in V'. rewrite XG in P0', P1'. fold h0 h1 in V, P0, P1. fold h0' h1' in V', P0', P1'. cbv zeta in *. unfold common_horizon in B. fold h0 h1 in B. unfold gain_argument.
  set (c := (1.607 - ground_constant w) * 151 * earth_size w * w GME) in *. set (k := ground_constant w) in *. set (s := 1.3787 * diffraction_scale w) in *.
  assert (GP : 0 < w GME) by (destruct L as (_ & _ & G & _); lra).
  assert (MH : forall x y, x <= y -> smooth_horizon x (w GME) <= smooth_horizon y (w GME)).
  { intros x y XY. unfold smooth_horizon. apply sqrt_le_1_alt. unfold Rdiv. apply Rmult_le_compat_r; [left; apply Rinv_0_lt_compat; exact GP | lra]. }
  assert (M0 := MH _ _ H0). assert (M1 := MH _ _ H1). set (l0 := smooth_horizon h0 (w GME)) in *. set (l1 := smooth_horizon h1 (w GME)) in *. set (l0' := smooth_horizon h0' (w GME)) in *. set (l1' := smooth_horizon h1' (w GME)) in *.
  assert (B' : d <= l0 + l1 + 2 * s) by (unfold s; lra).
  assert (C := chord_moves (c * s) (c * d) (c * (l0 + l1)) (c * (l0' + l1')) ltac:(apply Rmult_lt_0_compat; lra) ltac:(apply Rmult_lt_0_compat; lra) ltac:(apply Rmult_le_compat_l; lra) ltac:(nra)).
  split; [rewrite V, V'; lra|]. split; [lra|]. split; split; first [apply Rmult_lt_0_compat; lra | apply Rmult_le_compat_l; lra].
Qed.
Lemma raised_lower k0 k1 k0' k1' p p' w w' q q' r r' (d a a' : R) : link_entries p w -> link_entries p' w' -> pn p DH = Some 0 -> pn p' DH = Some 0 -> same_ground w w' ->
  let h0 := effective_height k0 (w HG0) 0 in let h1 := effective_height k1 (w HG1) 0 in let h0' := effective_height k0' (w' HG0) 0 in let h1' := effective_height k1' (w' HG1) 0 in
  h0 <= h0' -> h1 <= h1' -> qlra RA k0 k1 p = Ok q -> qlra RA k0' k1' p' = Ok q' -> lrprop RA d q = Ok r -> lrprop RA d q' = Ok r' -> 0 < d -> on_diffraction_line r d -> on_diffraction_line r' d ->
  d <= common_horizon k0 k1 w + 2.7574 * diffraction_scale w -> let k := ground_constant w in
  past_threshold (gain_argument h0 w) k \/ ~ past_threshold (gain_argument h0' w) k -> past_threshold (gain_argument h1 w) k \/ ~ past_threshold (gain_argument h1' w) k ->
  pn r AREF = Some a -> pn r' AREF = Some a' -> a' <= a.
Proof.
  intros L L' D D' SG h0 h1 h0' h1' H0 H1 Q Q' E E' P O O' B k T0 T1 A A'.
  destruct (raised_line k0 k1 k0' k1' p p' w w' q q' r r' d a a' L L' D D' SG H0 H1 Q Q' E E' P O O' B A A') as (I & K & G0 & G1). fold h0 h1 h0' h1' k in I, K, G0, G1.
  assert (M0 := gain_mono _ _ k (proj1 G0) (proj2 G0) K T0). assert (M1 := gain_mono _ _ k (proj1 G1) (proj2 G1) K T1). lra.
Qed.
