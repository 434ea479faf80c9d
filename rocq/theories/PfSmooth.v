(** Smooth earth: the diffraction line rises and starts above zero at the horizon. *)
From Interval Require Import Tactic.
From Coq Require Import Lra Lia.
From Verif Require Import RInst SpecTotal SpecLoss RTac PfTotal4 PfFlight Arith.
Open Scope R_scope.

(** Values of a path over smooth earth: no irregularity, the horizons of the sphere. *)
Definition smooth (v : nkey -> R) : Prop :=
  0.838 <= v WN /\ 0 < v GME <= 157 / 1000000000 /\ v DH = 0 /\ 0 < v HG0 /\ 0 < v HG1 /\ 0 < v HE0 /\ 0 < v HE1 /\
  v DL0 = sqrt (2 * v HE0 / v GME) /\ v DL1 = sqrt (2 * v HE1 / v GME) /\ v THE0 = - v GME * v DL0 /\ v THE1 = - v GME * v DL1 /\
  0 < v ZGR /\ 1 / 50 <= sqrt (v ZGR ^ 2 + v ZGI ^ 2).

Lemma near_below_far x : 200 <= x -> gain_near x <= gain_far x.
Proof.
  intro H. unfold gain_near, gain_far. assert (P : 0 < x / 380) by lra. assert (E := exp_ineq1_le (ln (x / 380))). rewrite exp_ln in E by exact P.
  unfold Rdiv in E at 1. rewrite ln_mult in E by lra. rewrite ln_Rinv in E by lra.
  assert (B : ln 380 <= 595 / 100) by interval with (i_prec 53). lra.
Qed.
Lemma gain_low x k : 0 < x -> 0 < k <= 0.287 -> height_gain x k <= 0.05751 * x - 4.343 * ln (Rmax x 380).
Proof.
  intros X K. unfold height_gain. assert (L380 : 594 / 100 <= ln 380 <= 59402 / 10000) by (split; interval with (i_prec 53)).
  destruct (Rlt_dec x 200) as [C|C].
  - rewrite Rmax_right by lra. assert (N : forall y, 1 <= y <= 200 -> gain_near y <= 0.05751 * y - 4.343 * ln 380).
    { intros y Y. unfold gain_near. enough (17.372 * ln y - 117 - 0.05751 * y <= -25.8) by lra. interval with (i_bisect y, i_prec 53). }
    destruct (Rlt_dec k 0.00001) as [S|S]; [destruct (Rlt_dec 1 x); [apply N; lra | lra]|].
    destruct (Rlt_dec 5495 _) as [T|T]; [destruct (Rlt_dec 1 x); [apply N; lra | lra]|].
    set (w := - ln k) in *. assert (EK : / k = exp w) by (unfold w; rewrite exp_Ropp, exp_ln by lra; reflexivity).
    assert (LK : ln k = - w) by (unfold w; ring). rewrite LK. unfold Rdiv. rewrite EK.
    assert (W : 1248 / 1000 <= w <= 1153 / 100). { assert (A : ln k <= ln 0.287) by (apply ln_le_mono; lra). assert (B : ln 0.00001 <= ln k) by (apply ln_le_mono; lra).
      assert (A' : ln 0.287 <= -1248 / 1000) by (replace 0.287 with (287 / 1000) by lra; interval with (i_prec 53)). assert (B' : -1153 / 100 <= ln 0.00001) by (replace 0.00001 with (1 / 100000) by lra; interval with (i_prec 53)). unfold w. lra. }
    clearbody w. clear EK LK N S.
    enough (0.000025 * x ^ 2 * exp w - 0.05751 * x <= 8.686 * w - 10.799) by lra.
    destruct (Rle_dec w 2.44) as [W1|W1].
    + assert (EB : exp w <= 11.5) by (replace 11.5 with (115 / 10) by lra; interval with (i_prec 53)). assert (EP := exp_pos w). assert (x ^ 2 * exp w <= 200 * x * 11.5) by nra. lra.
    + destruct (Rle_dec w 3.35) as [W2|W2].
      * assert (0 <= x <= 200) by lra. assert (244 / 100 <= w <= 335 / 100) by lra. enough (0.000025 * x ^ 2 * exp w - 0.05751 * x - 8.686 * w + 10.799 <= 0) by lra. clear - H H0. interval with (i_bisect x, i_bisect w, i_prec 53).
      * assert (W3 : 335 / 100 <= w <= 1153 / 100) by lra. assert (P3 : 0 < w ^ 3) by (apply pow_lt; lra). assert (XB : x <= 5495 / w ^ 3). { apply Rmult_le_reg_r with (w ^ 3); [exact P3|]. unfold Rdiv. rewrite Rmult_assoc, Rinv_l by lra. lra. }
        assert (X2 : x ^ 2 <= (5495 / w ^ 3) ^ 2) by (apply pow_incr; lra). assert (EP := exp_pos w).
        assert (0.000025 * (5495 / w ^ 3) ^ 2 * exp w - 8.686 * w <= -10.8). { clear - W3. interval with (i_bisect w, i_prec 53). }
        assert (x ^ 2 * exp w <= (5495 / w ^ 3) ^ 2 * exp w) by (apply Rmult_le_compat_r; lra). lra.
  - destruct (Rlt_dec x 2000) as [D|D].
    + cbv zeta. set (b := 0.0134 * x * exp (-0.005 * x)). assert (BP : 0 < b) by (unfold b; assert (E := exp_pos (-0.005 * x)); assert (0 < 0.0134 * x) by lra; nra).
      assert (NF := near_below_far x ltac:(lra)). destruct (Rle_dec 380 x) as [E|E].
      * rewrite Rmax_left by lra. unfold gain_far at 1. unfold gain_far in NF at 1. fold (gain_far x) in *. unfold gain_far in *. nra.
      * rewrite Rmax_right by lra. clear NF BP. unfold b, gain_far, gain_near. assert (X2 : 200 <= x <= 380) by lra.
        enough ((1 - 0.0134 * x * exp (-0.005 * x)) * (- (4.343) * ln x) + 0.0134 * x * exp (-0.005 * x) * (17.372 * ln x - 117 - 0.05751 * x) <= -25.8) by nra.
        clear - X2. interval with (i_bisect x, i_prec 53).
    + rewrite Rmax_left by lra. unfold gain_far. lra.
Qed.

Lemma third_scale (a g : R) : 0 < a -> 0 < g -> Rpower (/ g * a) (1 / 3) * g * Rpower (a * g ^ 2) (- (1 / 3)) = 1.
Proof.
  intros A G. rewrite <- (exp_ln g G) at 2. unfold Rpower. rewrite <- !exp_plus. match goal with |- exp ?x = _ => enough (Z : x = 0) by (rewrite Z; apply exp_0) end.
  assert (IG : 0 < / g) by (apply Rinv_0_lt_compat; exact G). rewrite (ln_mult (/ g) a IG A), (ln_Rinv g G). replace (a * g ^ 2) with (a * (g * g)) by ring. assert (GG : 0 < g * g) by nra. rewrite (ln_mult a (g * g) A GG), (ln_mult g g G G). lra.
Qed.
Lemma third_low (a g : R) : 0.838 <= a -> 0 < g <= 157 / 1000000000 -> 1747 / 10 <= Rpower (/ g * a) (1 / 3).
Proof.
  intros A G. apply Rle_trans with (Rpower 5337000 (1 / 3)); [unfold Rpower; interval with (i_prec 53)|]. apply Rle_Rpower_l; [lra|]. split; [lra|].
  apply Rmult_le_reg_l with g; [lra|]. rewrite <- Rmult_assoc, Rinv_r by lra. nra.
Qed.

Lemma smooth_horizons v b : smooth v -> reference_params v b -> v DLSA = v DLA /\ v THA = - v DLA * v GME /\ 0 < v DL0 /\ 0 < v DL1 /\ v DLA = v DL0 + v DL1.
Proof.
  intros (W & G & D & _ & _ & H0 & H1 & L0 & L1 & T0 & T1 & _) ((S0 & S1 & SA & LA & TH & _) & _).
  assert (P : forall h, 0 < h -> 0 < sqrt (2 * h / v GME)) by (intros h P; apply sqrt_lt_R0, Rdiv_lt_0_compat; lra).
  assert (P0 := P _ H0). assert (P1 := P _ H1). repeat split; try lra. rewrite TH, T0, T1, LA. apply Rmax_right. lra.
Qed.

Lemma smooth_line v b : smooth v -> reference_params v b -> 0 < v EMD /\ 1 < v AED + v EMD * v DLSA.
Proof.
  intros SM RP. destruct (smooth_horizons v b SM RP) as (SL & TA & P0 & P1 & LA). destruct SM as (BW & BG & EH & _ & _ & HP0 & HP1 & D0 & D1 & T0 & T1 & ZP & ZB).
  destruct RP as (_ & (_ & _ & AF & QK_ & XH & AH) & (XA & L3 & L4 & _)).
  set (w := Rpower (/ v GME * v WN) (1 / 3)). assert (WB : 1747 / 10 <= w) by (apply third_low; lra).
  assert (QB : 0 < v QK <= 50). { rewrite QK_. set (s := sqrt (v ZGR ^ 2 + v ZGI ^ 2)) in *. split; [apply Rdiv_lt_0_compat; lra|]. apply Rmult_le_reg_r with s; [lra|]. unfold Rdiv. rewrite Rmult_assoc, Rinv_l by lra. lra. }
  set (k := v QK / w). assert (KB : 0 < k <= 0.287). { unfold k. split; [apply Rdiv_lt_0_compat; lra|]. apply Rmult_le_reg_r with w; [lra|]. unfold Rdiv. rewrite Rmult_assoc, Rinv_l by lra. lra. }
  set (a := (1.607 - k) * 151 * w * v GME). assert (AP : 0 < a) by (unfold a; repeat apply Rmult_lt_0_compat; lra).
  assert (RAD : forall he : R, 0 < he -> let dl := sqrt (2 * he / v GME) in 0 < dl /\ dl ^ 2 / (2 * he) = / v GME /\ 2 * he / dl = v GME * dl).
  { intros he P. cbv zeta. assert (P2 : 0 < 2 * he / v GME) by (apply Rdiv_lt_0_compat; lra). set (dl := sqrt (2 * he / v GME)). assert (Q : dl * dl = 2 * he / v GME) by (apply sqrt_sqrt; lra).
    assert (DLP : 0 < dl) by (apply sqrt_lt_R0; exact P2). split; [exact DLP|]. split; [replace (dl ^ 2) with (dl * dl) by ring; rewrite Q; field; lra|].
    apply Rmult_eq_reg_r with dl; [|lra]. replace (v GME * dl * dl) with (v GME * (dl * dl)) by ring. rewrite Q. field. lra. }
  destruct (RAD _ HP0) as (_ & R0 & Q0). destruct (RAD _ HP1) as (_ & R1 & Q1). cbv zeta in *. rewrite <- D0 in *. rewrite <- D1 in *.
  assert (S0 : sphere v (v DL0) (v HE0) = w) by (unfold sphere; rewrite R0; reflexivity). assert (S1 : sphere v (v DL1) (v HE1) = w) by (unfold sphere; rewrite R1; reflexivity).
  assert (X0 : sphere_x v (v DL0) (v HE0) = a * v DL0). { unfold sphere_x, sphere_k. rewrite S0. fold k. unfold a. unfold Rdiv. rewrite Rmult_assoc. change (2 * v HE0 * / v DL0) with (2 * v HE0 / v DL0). rewrite Q0. ring. }
  assert (X1 : sphere_x v (v DL1) (v HE1) = a * v DL1). { unfold sphere_x, sphere_k. rewrite S1. fold k. unfold a. unfold Rdiv. rewrite Rmult_assoc. change (2 * v HE1 * / v DL1) with (2 * v HE1 / v DL1). rewrite Q1. ring. }
  assert (K0 : sphere_k v (v DL0) (v HE0) = k) by (unfold sphere_k; rewrite S0; reflexivity). assert (K1 : sphere_k v (v DL1) (v HE1) = k) by (unfold sphere_k; rewrite S1; reflexivity).
  rewrite X0, X1 in XH. rewrite X0, X1, K0, K1 in AH.
  assert (x0P : 0 < a * v DL0) by (apply Rmult_lt_0_compat; lra). assert (x1P : 0 < a * v DL1) by (apply Rmult_lt_0_compat; lra).
  assert (G0 := gain_low _ k x0P KB). assert (G1 := gain_low _ k x1P KB).
  set (s := 1.3787 * v XAE). assert (XP : 0 < v XAE) by (rewrite XA; apply exp_pos). assert (SB : a * s = (1.607 - k) * 151 * 1.3787).
  { unfold a, s. rewrite XA. assert (T := third_scale (v WN) (v GME) ltac:(lra) ltac:(lra)). fold w in T. set (y := Rpower (v WN * v GME ^ 2) (- (1 / 3))) in *. replace ((1.607 - k) * 151 * w * v GME * (1.3787 * y)) with ((1.607 - k) * 151 * 1.3787 * (w * v GME * y)) by ring. rewrite T. ring. }
  assert (SP : 0 < s) by (unfold s; lra).
  assert (F3 : diff_d3 v = v DL0 + v DL1 + s) by (unfold diff_d3; fold s; rewrite SL, LA; apply Rmax_right; lra).
  assert (F4 : diff_d4 v = diff_d3 v + 2 * s) by (unfold diff_d4, s; lra).
  assert (DIF : forall d, v DLA < d -> diffraction v d = 0.05751 * (a * d) - 4.343 * ln (a * d) - v AHT).
  { intros d Dd. assert (I0 : forall e, irregularity_at v e = 0) by (intro e; unfold irregularity_at; rewrite EH; ring).
    assert (WG : diff_weight v d = 1). { unfold diff_weight. rewrite I0, Rmult_0_l, Rmin_left, Rmult_0_r, sqrt_0 by lra. field. lra. }
    assert (AZ : v AFO = 0). { rewrite AF. unfold roughness. rewrite I0. rewrite Rmult_0_r, Rmult_0_l, Rmult_0_r, Rplus_0_r, ln_1, Rmult_0_r. apply Rmin_right. lra. }
    unfold diffraction. rewrite WG, AZ. unfold rounded_earth.
    assert (AG : angle_at v d = (d - v DLA) * v GME) by (unfold angle_at; rewrite TA; ring). rewrite AG.
    replace ((d - v DLA) / ((d - v DLA) * v GME)) with (/ v GME) by (field; lra). fold w. fold k.
    replace ((1.607 - k) * 151 * w * ((d - v DLA) * v GME) + v XHT) with (a * d) by (rewrite XH; unfold a; rewrite LA; ring). ring. }
  rewrite DIF in L3, L4 by lra. set (x0 := a * v DL0) in *. set (x1 := a * v DL1) in *. set (S := a * s) in *.
  assert (q3 : a * diff_d3 v = x0 + x1 + S) by (rewrite F3; unfold x0, x1, S; ring). assert (q4 : a * diff_d4 v = x0 + x1 + 3 * S) by (rewrite F4, F3; unfold x0, x1, S; ring).
  rewrite q3 in L3. rewrite q4 in L4. assert (SR : 274 <= S <= 335) by lra.
  assert (EQ : v EMD * (2 * s) = 0.05751 * (2 * S) - 4.343 * (ln (x0 + x1 + 3 * S) - ln (x0 + x1 + S))) by (replace (2 * s) with (diff_d4 v - diff_d3 v) by lra; lra).
  assert (LR : ln (x0 + x1 + 3 * S) - ln (x0 + x1 + S) <= 2 * S / 274).
  { assert (P : 0 < x0 + x1 + S) by lra. assert (U := exp_ineq1_le (ln ((x0 + x1 + 3 * S) / (x0 + x1 + S)))). assert (RP : 0 < (x0 + x1 + 3 * S) / (x0 + x1 + S)) by (apply Rdiv_lt_0_compat; lra).
    rewrite exp_ln in U by exact RP. unfold Rdiv in U at 1. rewrite ln_mult, ln_Rinv in U by (try apply Rinv_0_lt_compat; lra).
    assert ((x0 + x1 + 3 * S) / (x0 + x1 + S) - 1 <= 2 * S / 274); [|lra]. replace ((x0 + x1 + 3 * S) / (x0 + x1 + S) - 1) with (2 * S / (x0 + x1 + S)) by (field; lra).
    unfold Rdiv. apply Rmult_le_compat_l; [lra|]. apply Rinv_le_contravar; lra. }
  split; [assert (0 < v EMD * (2 * s)) by lra; nra|].
  assert (E : v AED + v EMD * v DLSA = 1.5 * (v AED + v EMD * diff_d3 v) - 0.5 * (v AED + v EMD * diff_d4 v)) by (rewrite SL, LA, F4, F3; lra).
  rewrite E, L3, L4, AH. set (m0 := Rmax x0 380) in *. set (m1 := Rmax x1 380) in *.
  assert (M0 : 380 <= m0 /\ x0 <= m0) by (split; [apply Rmax_r | apply Rmax_l]). assert (M1 : 380 <= m1 /\ x1 <= m1) by (split; [apply Rmax_r | apply Rmax_l]).
  assert (L1 : ln (x0 + x1 + S) <= ln (x0 + x1 + 3 * S)) by (apply ln_le_mono; lra).
  assert (L2 : ln (131 * (x0 + x1 + S)) <= ln (m0 * m1)).
  { apply ln_le_mono; [lra|]. assert (0 <= (m0 - 380) * (m1 - 380)) by (apply Rmult_le_pos; lra). nra. }
  rewrite !ln_mult in L2 by lra. assert (N : 48751 / 10000 <= ln 131) by interval with (i_prec 53). lra.
Qed.
