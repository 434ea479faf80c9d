(** Smooth earth: raising an antenna in the diffraction region. *)
From Interval Require Import Tactic.
From Coquelicot Require Import Coquelicot.
From Coq Require Import Lra Lia List.
From Verif Require Import RInst SpecTotal SpecLoss SpecHeight RTac PfTotal4 PfFlight PfSmooth Arith.
Import ListNotations.
Open Scope R_scope.

(** ** The height gain grows on either side of the threshold *)
Lemma near_mono x y : 0 < x -> x <= y -> gain_near x <= gain_near y.
Proof. intros P L. unfold gain_near. assert (H := ln_le_mono x y P L). lra. Qed.
Lemma far_mono x y : 200 <= x -> x <= y -> gain_far x <= gain_far y.
Proof.
  intros P L. unfold gain_far. assert (Q : 0 < y / x) by (apply Rdiv_lt_0_compat; lra). assert (E := exp_ineq1_le (ln (y / x))). rewrite exp_ln in E by exact Q.
  unfold Rdiv in E at 1. rewrite ln_mult, ln_Rinv in E by (try apply Rinv_0_lt_compat; lra).
  assert (y / x - 1 <= (y - x) / 200). { replace (y / x - 1) with ((y - x) * / x) by (field; lra). unfold Rdiv. apply Rmult_le_compat_l; [lra|]. apply Rinv_le_contravar; lra. } lra.
Qed.
Definition blend (x : R) : R := 0.0134 * x * exp (-0.005 * x).
Lemma blend_range x : 200 <= x -> 0 <= blend x <= 1.
Proof.
  intro H. unfold blend. assert (P := exp_pos (-0.005 * x)). split; [apply Rmult_le_pos; lra|]. assert (E := exp_ineq1_le (0.005 * x - 1)).
  assert (M : 0.005 * x * exp (-0.005 * x) <= exp (-1)).
  { assert (Q : exp (-1) = exp (0.005 * x - 1) * exp (-0.005 * x)) by (rewrite <- exp_plus; f_equal; lra). rewrite Q. apply Rmult_le_compat_r; lra. }
  assert (X : exp (-1) <= 37 / 100) by interval with (i_prec 53). lra.
Qed.
Lemma blend_falls x y : 200 <= x -> x <= y -> blend y <= blend x.
Proof.
  intros H L. unfold blend. assert (P := exp_pos (-0.005 * y)). assert (Q : exp (-0.005 * x) = exp (0.005 * (y - x)) * exp (-0.005 * y)) by (rewrite <- exp_plus; f_equal; lra). rewrite Q.
  assert (E := exp_ineq1_le (0.005 * (y - x))). assert (A : y <= x * exp (0.005 * (y - x))).
  { apply Rle_trans with (x * (1 + 0.005 * (y - x))); [nra|]. apply Rmult_le_compat_l; lra. }
  replace (0.0134 * x * (exp (0.005 * (y - x)) * exp (-0.005 * y))) with (0.0134 * (x * exp (0.005 * (y - x))) * exp (-0.005 * y)) by ring. apply Rmult_le_compat_r; lra.
Qed.
Lemma gain_high x y k : 200 <= x -> x <= y -> height_gain x k <= height_gain y k.
Proof.
  intros X L. unfold height_gain. destruct (Rlt_dec x 200); [lra|]. destruct (Rlt_dec y 200); [lra|]. cbv zeta. fold (blend x). fold (blend y).
  assert (F := far_mono x y X L). assert (N := near_mono x y ltac:(lra) L). assert (C := near_below_far x X). assert (B := blend_range x X). assert (B' := blend_range y ltac:(lra)). assert (D := blend_falls x y X L).
  destruct (Rlt_dec x 2000); destruct (Rlt_dec y 2000); try lra; nra.
Qed.
Lemma near_low x y : 1 <= y -> x <= y -> (if Rlt_dec 1 x then gain_near x else -117) <= gain_near y.
Proof.
  intros Y L. destruct (Rlt_dec 1 x) as [C|C]; [apply near_mono; lra|]. unfold gain_near. assert (0 <= ln y) by (rewrite <- ln_1; apply ln_le_mono; lra). lra.
Qed.
Lemma gain_mono x y k : 0 < x -> x <= y -> 0 < k < 1 -> past_threshold x k \/ ~ past_threshold y k -> height_gain x k <= height_gain y k.
Proof.
  intros X L K C. destruct (Rle_dec 200 x) as [H|H]; [apply gain_high; assumption|]. assert (H' : x < 200) by lra.
  set (w3 := (- ln k) ^ 3). assert (W : 0 < w3). { unfold w3. apply pow_lt. assert (ln k < 0) by (rewrite <- ln_1; apply ln_increasing; lra). lra. }
  destruct C as [C|C].
  - assert (T : k < 0.00001 \/ 5495 < x * w3) by (destruct C as [C|C]; [lra | exact C]). clear C.
    assert (V : height_gain x k = if Rlt_dec 1 x then gain_near x else -117).
    { unfold height_gain. fold w3. destruct (Rlt_dec x 200); [|lra]. destruct (Rlt_dec k 0.00001); [reflexivity|]. destruct (Rlt_dec 5495 (x * w3)); [reflexivity | tauto]. }
    destruct (Rlt_dec y 200) as [Y|Y].
    + assert (T' : k < 0.00001 \/ 5495 < y * w3) by (destruct T as [T|T]; [left; exact T | right; apply Rlt_le_trans with (x * w3); [exact T | apply Rmult_le_compat_r; lra]]).
      assert (V' : height_gain y k = if Rlt_dec 1 y then gain_near y else -117).
      { unfold height_gain. fold w3. destruct (Rlt_dec y 200); [|lra]. destruct (Rlt_dec k 0.00001); [reflexivity|]. destruct (Rlt_dec 5495 (y * w3)); [reflexivity | tauto]. }
      rewrite V, V'. destruct (Rlt_dec 1 y) as [Y1|Y1]; [apply near_low; lra|]. destruct (Rlt_dec 1 x); lra.
    + apply Rle_trans with (height_gain 200 k); [|apply gain_high; lra]. rewrite V. apply Rle_trans with (gain_near 200); [apply near_low; lra|].
      unfold height_gain. destruct (Rlt_dec 200 200); [lra|]. destruct (Rlt_dec 200 2000); [|lra]. cbv zeta. fold (blend 200). assert (B := blend_range 200 ltac:(lra)). assert (Q := near_below_far 200 ltac:(lra)). nra.
  - unfold past_threshold in C. fold w3 in C. assert (Y : ~ 200 <= y) by tauto. assert (Kk : ~ k < 0.00001) by tauto. assert (T : ~ 5495 < y * w3) by tauto.
    assert (T' : ~ 5495 < x * w3) by (intro Q; apply T; apply Rlt_le_trans with (x * w3); [exact Q | apply Rmult_le_compat_r; lra]).
    unfold height_gain. fold w3. destruct (Rlt_dec x 200); [|lra]. destruct (Rlt_dec y 200); [|lra]. destruct (Rlt_dec k 0.00001); [lra|]. destruct (Rlt_dec 5495 (x * w3)); [lra|]. destruct (Rlt_dec 5495 (y * w3)); [lra|].
    assert (I : 0 < / k) by (apply Rinv_0_lt_compat; lra). assert (S : x ^ 2 <= y ^ 2) by nra. unfold Rdiv. assert (x ^ 2 * / k <= y ^ 2 * / k) by (apply Rmult_le_compat_r; lra). nra.
Qed.

(** ** A chord of the logarithm moved to the right *)
Lemma sinh_ln u : 1 <= u -> ln u <= (u - / u) / 2.
Proof.
  intro U. destruct (Req_dec u 1) as [->|N]; [rewrite ln_1; lra|]. assert (U' : 1 < u) by lra.
  destruct (MVT_cor2 (fun x => (x - / x) / 2 - ln x) (fun x => (1 + / (x * x)) / 2 - / x) 1 u U') as (c & E & C).
  - intros c C. apply is_derive_Reals. auto_derive; [repeat split; lra|]. field. lra.
  - rewrite ln_1, Rinv_1 in E. assert (0 <= (1 + / (c * c)) / 2 - / c).
    { replace ((1 + / (c * c)) / 2 - / c) with ((1 - / c) ^ 2 / 2) by (field; lra). assert (Q := pow2_ge_0 (1 - / c)). lra. }
    assert (0 <= ((1 + / (c * c)) / 2 - / c) * (u - 1)) by (apply Rmult_le_pos; lra). lra.
Qed.
Definition chord (s y x : R) : R := ln (x + s) + (y - x - s) / (2 * s) * (ln (x + 3 * s) - ln (x + s)).
Lemma chord_moves s y x x' : 0 < s -> 0 < x -> x <= x' -> y <= x + 2 * s -> chord s y x <= chord s y x'.
Proof.
  intros S X L Y. destruct (Req_dec x x') as [<-|N]; [lra|]. assert (L' : x < x') by lra.
  destruct (MVT_cor2 (chord s y) (fun t => / (t + s) + (- / (2 * s) * (ln (t + 3 * s) - ln (t + s)) + (y - t - s) / (2 * s) * (/ (t + 3 * s) - / (t + s)))) x x' L') as (c & E & C).
  - intros c C. apply is_derive_Reals. unfold chord. auto_derive; [repeat split; lra|]. set (l3 := ln (c + 3 * s)). set (l1 := ln (c + s)). field. repeat split; lra.
  - enough (0 <= (/ (c + s) + (- / (2 * s) * (ln (c + 3 * s) - ln (c + s)) + (y - c - s) / (2 * s) * (/ (c + 3 * s) - / (c + s)))) * (x' - x)) by lra.
    apply Rmult_le_pos; [|lra]. set (A := c + s). replace (c + 3 * s) with (A + 2 * s) by (unfold A; ring). assert (AP : 0 < A) by (unfold A; lra).
    assert (U : 1 <= (A + 2 * s) / A) by (apply Rmult_le_reg_r with A; [exact AP|]; unfold Rdiv; rewrite Rmult_assoc, Rinv_l by lra; lra). assert (H := sinh_ln _ U). unfold Rdiv in H at 1. rewrite ln_mult, ln_Rinv in H by (try apply Rinv_0_lt_compat; lra).
    set (l := ln (A + 2 * s) + - ln A) in *. replace (ln (A + 2 * s) - ln A) with l by (unfold l; ring).
    assert (Q : (y - c - s) / (2 * s) * (/ (A + 2 * s) - / A) = - (y - c - s) * / (A * (A + 2 * s))) by (field; lra). rewrite Q.
    assert (IP : 0 < / (A * (A + 2 * s))) by (apply Rinv_0_lt_compat; nra).
    assert (B : - s * / (A * (A + 2 * s)) <= - (y - c - s) * / (A * (A + 2 * s))) by (apply Rmult_le_compat_r; lra).
    assert (I2 : 0 < / (2 * s)) by (apply Rinv_0_lt_compat; lra). assert (D : / (2 * s) * l <= / (2 * s) * (((A + 2 * s) / A - / ((A + 2 * s) / A)) / 2)) by (apply Rmult_le_compat_l; lra).
    assert (Z : / (2 * s) * (((A + 2 * s) / A - / ((A + 2 * s) / A)) / 2) = / A - s * / (A * (A + 2 * s))) by (field; lra). lra.
Qed.
