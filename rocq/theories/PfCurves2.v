(** Further facts about the curves in the form of the property statements. *)
From Verif Require Import RTac Atten Stats SpecCurves PfCurves PfH0f.
From Interval Require Import Tactic.
Open Scope R_scope.

Lemma sq_div_le x d : 1 <= d -> (x / d) ^ 2 <= x ^ 2 / d.
Proof.
  intro H. replace ((x / d) ^ 2) with (x ^ 2 / d * / d) by (field; lra).
  assert (0 <= x ^ 2 / d). { apply Rmult_le_pos; [apply pow2_ge_0 | left; apply Rinv_0_lt_compat; lra]. }
  assert (/ d <= 1). { rewrite <- Rinv_1. apply Rinv_le_contravar; lra. }
  rewrite <- (Rmult_1_r (x ^ 2 / d)) at 2. apply Rmult_le_compat_l; assumption.
Qed.
Lemma curv_limit c1 c2 x1 x2 x3 : x1 <> 0 -> x3 <> 0 -> forall eps, 0 < eps -> exists D, forall de, D <= de ->
  exists y, curv RA c1 c2 x1 x2 x3 de = Ok y /\ Rabs (y - c1) < eps.
Proof.
  intros H1 H3 eps He.
  set (M := (Rabs c1) * x1 ^ 2 + (Rabs c2) * x3 ^ 2 + 1).
  pose proof (Rabs_pos c1) as P1. pose proof (Rabs_pos c2) as P2.
  pose proof (pow2_ge_0 x1) as Q1. pose proof (pow2_ge_0 x3) as Q3.
  assert (PM : 0 < M). { unfold M. pose proof (Rmult_le_pos _ _ P1 Q1). pose proof (Rmult_le_pos _ _ P2 Q3). lra. }
  assert (PD : 0 < M / eps) by (apply Rmult_lt_0_compat; [assumption | apply Rinv_0_lt_compat; assumption]).
  exists (Rabs x2 + 1 + M / eps). intros de Hd.
  pose proof (Rabs_pos x2). pose proof (Rle_abs x2).
  destruct (curv_limit_bound c1 c2 x1 x2 x3 de H1 H3 ltac:(lra) ltac:(lra)) as [y [E B]].
  exists y. split; [assumption|]. eapply Rle_lt_trans; [exact B|].
  set (w := 1 + M / eps).
  assert (W : 0 < w) by (unfold w; lra).
  assert (I1 : / de <= / w) by (apply Rinv_le_contravar; unfold w; lra).
  assert (I2 : / (de - x2) <= / w) by (apply Rinv_le_contravar; unfold w; lra).
  apply Rle_lt_trans with (Rabs c1 * (x1 ^ 2 * / w) + Rabs c2 * (x3 ^ 2 * / w)).
  - apply Rplus_le_compat; (apply Rmult_le_compat_l; [assumption|]); (eapply Rle_trans; [apply sq_div_le; lra|]);
      apply Rmult_le_compat_l; assumption.
  - replace (Rabs c1 * (x1 ^ 2 * / w) + Rabs c2 * (x3 ^ 2 * / w)) with ((M - 1) * / w) by (unfold M; ring).
    apply Rmult_lt_reg_r with w; [assumption|]. rewrite Rmult_assoc, Rinv_l by lra.
    assert (eps * w = eps + M) by (unfold w; field; lra). lra.
Qed.
Lemma curv_spec c1 c2 x1 x2 x3 de : x1 <> 0 -> x3 <> 0 ->
  curv RA c1 c2 x1 x2 x3 de = Ok (climate_curve c1 c2 x1 x2 x3 de).
Proof. exact (curv_eq c1 c2 x1 x2 x3 de). Qed.

Lemma aknfe_spec v : aknfe RA v = Ok (if Rle_dec v 0 then knife_low 0.00001
  else if Rlt_dec v 5.76 then knife_low v else knife_high v).
Proof.
  rewrite aknfe_eq. destruct (Rle_dec v 0), (Rlt_dec v 5.76); try reflexivity. lra.
Qed.
(** One-sided step at 5.76. *)
Lemma aknfe_step v : 5.75 <= v < 5.76 -> exists x y, aknfe RA v = Ok x /\ aknfe RA 5.76 = Ok y /\ Rabs (x - y) <= 0.018.
Proof.
  intros H. rewrite !aknfe_eq. do 2 eexists; repeat split.
  repeat match goal with |- context [Rlt_dec ?u ?v] => destruct (Rlt_dec u v); try lra end.
  repeat match goal with |- context [Rle_dec ?u ?v] => destruct (Rle_dec u v); try lra end.
  unfold kn_low, kn_high. assert (K : 575 / 100 <= v <= 576 / 100) by lra. clear - K. interval with (i_bisect v, i_prec 60).
Qed.

Lemma h0f_rows r : r <> 0 ->
  h0f RA r 1 = Ok (freq_gain 25 24 r) /\ h0f RA r 2 = Ok (freq_gain 80 45 r) /\ h0f RA r 3 = Ok (freq_gain 177 68 r) /\
  h0f RA r 4 = Ok (freq_gain 395 80 r) /\ h0f RA r 5 = Ok (freq_gain 705 105 r).
Proof.
  intro H. rewrite !h0f_eq by assumption. unfold h0f_R.
  repeat rewrite clamp01_0 by lra. repeat rewrite clamp01_1 by lra.
  rewrite ?(clamp01_0 (1 - 1)), ?(clamp01_0 (1-2)), ?(clamp01_0 (1-3)), ?(clamp01_0 (1-4)),
    ?(clamp01_0 (2-2)), ?(clamp01_0 (2-3)), ?(clamp01_0 (2-4)), ?(clamp01_0 (3-3)), ?(clamp01_0 (3-4)), ?(clamp01_0 (4-4)),
    ?(clamp01_1 (2-1)), ?(clamp01_1 (3-1)), ?(clamp01_1 (3-2)), ?(clamp01_1 (4-1)), ?(clamp01_1 (4-2)), ?(clamp01_1 (4-3)),
    ?(clamp01_1 (5-1)), ?(clamp01_1 (5-2)), ?(clamp01_1 (5-3)), ?(clamp01_1 (5-4)) by lra.
  unfold h1, h2, h3, h4, h5. change h_row with freq_gain.
  repeat split; apply f_equal; ring.
Qed.
(** Between two integers the value is the linear interpolation. *)
Lemma h0f_interp (r e : R) (k : nat) : r <> 0 -> (1 <= k < 5)%nat -> INR k <= e <= INR k + 1 ->
  exists x y : R, h0f RA r (INR k) = Ok x /\ h0f RA r (INR k + 1)%R = Ok y /\
    h0f RA r e = Ok (x + (e - INR k) * (y - x))%R.
Proof.
  intros Hr Hk He. rewrite !h0f_eq by assumption. do 2 eexists. split; [reflexivity|]. split; [reflexivity|].
  apply f_equal. unfold h0f_R.
  assert (C : k = 1%nat \/ k = 2%nat \/ k = 3%nat \/ k = 4%nat) by lia.
  destruct C as [-> | [-> | [-> | ->]]]; cbn [INR] in *;
  repeat match goal with |- context [clamp01 ?t] =>
    first [ rewrite (clamp01_0 t) by lra | rewrite (clamp01_1 t) by lra | rewrite (clamp01_id t) by lra ] end; ring.
Qed.

Lemma ahd_spec td : 0 < td ->
  ahd RA td = Ok (if Rle_dec td 10000 then scatter_fn 133.4 0.000332 (-4.343) td
                  else if Rle_dec td 70000 then scatter_fn 104.6 0.000212 (-1.086) td
                  else scatter_fn 71.8 0.000157 2.171 td).
Proof. exact (ahd_eq td). Qed.

(** fht: near branch for good ground and small x. *)
Lemma fht_lower_near x pk : 0 < pk -> x <= 1 -> pk < 0.00001 -> fht RA x pk = Ok (-117).
Proof.
  intros. rewrite fht_near_eq by lra.
  destruct (Rlt_dec pk 0.00001); [|lra]. destruct (Rlt_dec 1 x); [lra|]. reflexivity.
Qed.
