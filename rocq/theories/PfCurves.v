(** Proofs about aknfe, fht, ahd, h0f and curv over the reals. *)
From Verif Require Import RTac Atten Stats.
From Interval Require Import Tactic.
Open Scope R_scope.

(** ** aknfe *)
Definition kn_low (v : R) : R := 6.02 + 9.11 * sqrt v - 1.27 * v.
Definition kn_high (v : R) : R := 12.953 + 4.343 * ln v.

Lemma aknfe_eq v :
  aknfe RA v = Ok (if Rlt_dec v 5.76 then kn_low (if Rle_dec v 0 then 0.00001 else v) else kn_high v).
Proof.
  unfold aknfe. runfold.
  replace (576 / 100) with 5.76 by lra.
  unfold r_ltb. destruct (Rlt_dec v 5.76) as [H|H].
  - unfold r_leb. replace (0:R) with 0 by lra. destruct (Rle_dec v 0) as [K|K].
    + rewrite r_sqrt_ok by lra. cbn [bind]. unfold kn_low. apply f_equal.
      replace (1 / 100000) with 0.00001 by lra. lra.
    + rewrite r_sqrt_ok by lra. cbn [bind]. unfold kn_low. apply f_equal. lra.
  - rewrite r_log_ok by lra. cbn [bind]. unfold kn_high. apply f_equal. lra.
Qed.

Lemma kn_low_mono a b : 0 <= a -> a < b -> b <= 5.76 -> kn_low a < kn_low b.
Proof.
  intros Ha Hab Hb. unfold kn_low.
  assert (H1 : sqrt a < sqrt b) by (apply sqrt_lt_1; lra).
  assert (H0 : 0 <= sqrt a) by apply sqrt_pos.
  assert (H2 : sqrt b <= 2.4).
  { replace 2.4 with (sqrt (2.4 * 2.4)) by (apply sqrt_square; lra). apply sqrt_le_1; lra. }
  assert (E1 : sqrt a * sqrt a = a) by (apply sqrt_sqrt; lra).
  assert (E2 : sqrt b * sqrt b = b) by (apply sqrt_sqrt; lra).
  rewrite <- E1 at 2. rewrite <- E2 at 2.
  assert (0 < (sqrt b - sqrt a) * (9.11 - 1.27 * (sqrt a + sqrt b))) by (apply Rmult_lt_0_compat; lra).
  lra.
Qed.
Lemma kn_high_mono a b : 0 < a -> a < b -> kn_high a < kn_high b.
Proof. intros. unfold kn_high. pose proof (ln_increasing a b). lra. Qed.
Lemma kn_low_0 : 6.02 = kn_low 0.
Proof. unfold kn_low. rewrite sqrt_0. lra. Qed.
Lemma kn_high_lo : 20.557 < kn_high 5.76.
Proof. unfold kn_high. interval with (i_prec 60). Qed.
Lemma kn_high_hi : kn_high 5.76 < 20.558.
Proof. unfold kn_high. interval with (i_prec 60). Qed.
Lemma kn_low_hi : kn_low 5.76 = 20.5688.
Proof.
  unfold kn_low. replace 5.76 with (2.4 * 2.4) at 1 by lra. rewrite sqrt_square by lra. lra.
Qed.
Lemma kn_low_tiny : kn_low 0.00001 < 6.0489.
Proof. unfold kn_low. interval with (i_prec 60). Qed.
Lemma kn_low_tiny2 : kn_low 0.000001 < 6.03.
Proof. unfold kn_low. interval with (i_prec 60). Qed.
Lemma kn_low_tiny3 : 6.04 < kn_low 0.00001.
Proof. unfold kn_low. interval with (i_prec 60). Qed.

Lemma aknfe_lower v : exists y, aknfe RA v = Ok y /\ 6.02 < y.
Proof.
  rewrite aknfe_eq. eexists; split; [reflexivity|].
  destruct (Rlt_dec v 5.76).
  - rewrite kn_low_0. apply kn_low_mono; destruct (Rle_dec v 0); lra.
  - pose proof kn_high_lo. destruct (Req_dec v 5.76) as [->|]; [lra|].
    pose proof (kn_high_mono 5.76 v). lra.
Qed.
Lemma aknfe_increasing_low a b : 0 < a -> a < b -> b < 5.76 ->
  exists x y, aknfe RA a = Ok x /\ aknfe RA b = Ok y /\ x < y.
Proof.
  intros. rewrite !aknfe_eq. do 2 eexists; repeat split.
  repeat match goal with |- context [Rlt_dec ?u ?v] => destruct (Rlt_dec u v); try lra end.
  repeat match goal with |- context [Rle_dec ?u ?v] => destruct (Rle_dec u v); try lra end.
  apply kn_low_mono; lra.
Qed.
Lemma aknfe_increasing_high a b : 5.76 <= a -> a < b ->
  exists x y, aknfe RA a = Ok x /\ aknfe RA b = Ok y /\ x < y.
Proof.
  intros. rewrite !aknfe_eq. do 2 eexists; repeat split.
  repeat match goal with |- context [Rlt_dec ?u ?v] => destruct (Rlt_dec u v); try lra end.
  apply kn_high_mono; lra.
Qed.
Lemma aknfe_const a b : a <= 0 -> b <= 0 -> aknfe RA a = aknfe RA b.
Proof.
  intros. rewrite !aknfe_eq.
  repeat match goal with |- context [Rlt_dec ?u ?v] => destruct (Rlt_dec u v); try lra end.
  repeat match goal with |- context [Rle_dec ?u ?v] => destruct (Rle_dec u v); try lra end.
  reflexivity.
Qed.
(** Globally the curve can only drop by less than 0.029 dB. *)
Lemma aknfe_near_monotone a b : a <= b ->
  exists x y, aknfe RA a = Ok x /\ aknfe RA b = Ok y /\ x < y + 0.029.
Proof.
  intros H. rewrite !aknfe_eq. do 2 eexists; repeat split.
  pose proof kn_high_lo. pose proof kn_low_hi. pose proof kn_low_tiny. pose proof kn_low_0.
  destruct (Rlt_dec a 5.76) as [Ha|Ha]; destruct (Rlt_dec b 5.76) as [Hb|Hb]; try lra.
  - destruct (Rle_dec a 0); destruct (Rle_dec b 0); try lra.
    + pose proof (kn_low_mono 0 b). lra.
    + destruct (Req_dec a b) as [->|]; [lra|]. pose proof (kn_low_mono a b). lra.
  - assert (kn_low (if Rle_dec a 0 then 0.00001 else a) < kn_low 5.76).
    { apply kn_low_mono; destruct (Rle_dec a 0); lra. }
    destruct (Req_dec b 5.76) as [->|]; [lra|].
    pose proof (kn_high_mono 5.76 b). lra.
  - destruct (Req_dec a b) as [->|]; [lra|].
    pose proof (kn_high_mono a b). lra.
Qed.
Lemma aknfe_not_monotone :
  exists a b x y, a < b /\ aknfe RA a = Ok x /\ aknfe RA b = Ok y /\ y < x.
Proof.
  exists 5.7599, 5.76. rewrite !aknfe_eq. do 2 eexists; repeat split; try lra.
  repeat match goal with |- context [Rlt_dec ?u ?v] => destruct (Rlt_dec u v); try lra end.
  repeat match goal with |- context [Rle_dec ?u ?v] => destruct (Rle_dec u v); try lra end.
  pose proof kn_high_hi. unfold kn_low.
  assert (20.56 < 6.02 + 9.11 * sqrt 5.7599 - 1.27 * 5.7599) by (clear; interval with (i_prec 60)).
  lra.
Qed.

(** ** fht *)
Definition fht_f (x : R) : R := 0.05751 * x - 4.343 * ln x.
Definition fht_g (x : R) : R := 17.372 * ln x - 117.
Definition fht_w (x : R) : R := 0.0134 * x * exp (-0.005 * x).

Lemma fht_far x pk : 2000 <= x -> fht RA x pk = Ok (fht_f x).
Proof.
  intros H. unfold fht. runfold.
  unfold r_ltb. destruct (Rlt_dec x 200); [lra|]. rewrite r_log_ok by lra. cbn [bind].
  destruct (Rlt_dec x 2000); [lra|]. unfold fht_f. apply f_equal. lra.
Qed.
Lemma fht_mid x pk : 200 <= x < 2000 ->
  fht RA x pk = Ok ((1 - fht_w x) * fht_f x + fht_w x * fht_g x).
Proof.
  intros H. unfold fht. runfold.
  unfold r_ltb. destruct (Rlt_dec x 200); [lra|]. rewrite r_log_ok by lra. cbn [bind].
  destruct (Rlt_dec x 2000); [|lra]. cbn [bind]. unfold fht_f, fht_g, fht_w. apply f_equal.
  replace (-5 / 1000) with (-0.005) by lra. lra.
Qed.
(** Below 200, for the branch taken when the height-gain is negligible. *)
Lemma fht_near_eq x pk : 0 < pk -> x < 200 ->
  fht RA x pk = Ok
    (if Rlt_dec pk 0.00001 then (if Rlt_dec 1 x then fht_g x else -117)
     else if Rlt_dec 5495 (x * (- ln pk) ^ 3) then (if Rlt_dec 1 x then fht_g x else -117)
     else 0.000025 * x ^ 2 / pk - 8.686 * (- ln pk) - 15).
Proof.
  intros Hp Hx. unfold fht. runfold.
  unfold r_ltb. destruct (Rlt_dec x 200); [|lra]. rewrite r_log_ok by lra. cbn [bind].
  replace (1 / 100000) with 0.00001 by lra.
  destruct (Rlt_dec pk 0.00001); cbn [bind].
  - destruct (Rlt_dec 1 x); [|apply f_equal; lra]. rewrite r_log_ok by lra. cbn [bind].
    apply f_equal. unfold fht_g. lra.
  - rewrite r_powZ_pos. cbn [bind]. change (Pos.to_nat 3) with 3%nat.
    destruct (Rlt_dec 5495 (x * (- ln pk) ^ 3)).
    + destruct (Rlt_dec 1 x); [|apply f_equal; lra]. rewrite r_log_ok by lra. cbn [bind].
      apply f_equal. unfold fht_g. lra.
    + rewrite r_powZ_pos. cbn [bind]. rewrite r_div_ok by lra. cbn [bind].
      change (Pos.to_nat 2) with 2%nat. apply f_equal. reflexivity.
Qed.
Lemma fht_total x pk : 0 < pk -> exists y, fht RA x pk = Ok y.
Proof.
  intros Hp. destruct (Rlt_dec x 200).
  - rewrite fht_near_eq by lra. eauto.
  - destruct (Rlt_dec x 2000); [rewrite fht_mid by lra | rewrite fht_far by lra]; eauto.
Qed.

Lemma fht_w_range x : 200 <= x -> 0 < fht_w x < 1.
Proof.
  intros H. unfold fht_w.
  assert (Hexp : 0 < exp (-0.005 * x)) by apply exp_pos.
  split. { apply Rmult_lt_0_compat; lra. }
  (* 0.005x * exp(-0.005x) <= exp(-1) since exp(u) >= 1+u at u = 0.005x - 1 *)
  assert (H1 : 0.005 * x <= exp (0.005 * x - 1)).
  { pose proof (exp_ineq1_le (0.005 * x - 1)). lra. }
  assert (H2 : exp (0.005 * x - 1) * exp (-0.005 * x) = exp (-1)).
  { rewrite <- exp_plus. apply f_equal. lra. }
  assert (H3 : 0.005 * x * exp (-0.005 * x) <= exp (-1)).
  { rewrite <- H2. apply Rmult_le_compat_r; lra. }
  assert (H4 : 2.68 * exp (-1) < 1) by interval with (i_prec 60).
  lra.
Qed.

Lemma ln_diff a b : 0 < a -> a < b -> ln b - ln a < (b - a) / a.
Proof.
  intros Ha Hb.
  assert (E : ln b - ln a = ln (b / a)).
  { rewrite Rcomplements.ln_div by lra. reflexivity. }
  rewrite E.
  pose proof (exp_ineq1 (ln (b / a))) as K.
  assert (P : 0 < b / a) by (apply Rdiv_lt_0_compat; lra).
  rewrite exp_ln in K by exact P.
  assert (N : ln (b / a) <> 0).
  { intro Z. rewrite <- ln_1 in Z. apply ln_inv in Z; [|exact P|lra].
    assert (b = a) by (apply (Rmult_eq_reg_r (/ a)); [|apply Rinv_neq_0_compat; lra];
                       unfold Rdiv in Z; rewrite Z; field; lra). lra. }
  specialize (K N). replace ((b - a) / a) with (b / a - 1) by (field; lra). lra.
Qed.
Lemma fht_f_mono a b : 100 <= a -> a < b -> fht_f a < fht_f b.
Proof.
  intros. unfold fht_f.
  pose proof (ln_diff a b ltac:(lra) ltac:(lra)).
  assert ((b - a) / a <= (b - a) / 100).
  { unfold Rdiv. apply Rmult_le_compat_l; [lra|]. apply Rinv_le_contravar; lra. }
  lra.
Qed.
Lemma fht_increasing_far a b pk : 2000 <= a -> a < b ->
  exists x y, fht RA a pk = Ok x /\ fht RA b pk = Ok y /\ x < y.
Proof.
  intros. rewrite !fht_far by lra. do 2 eexists; repeat split. apply fht_f_mono; lra.
Qed.
Lemma fht_blend x pk : 200 <= x < 2000 ->
  exists y, fht RA x pk = Ok y /\
    Rmin (fht_f x) (fht_g x) <= y <= Rmax (fht_f x) (fht_g x).
Proof.
  intros H. rewrite fht_mid by lra. eexists; split; [reflexivity|].
  pose proof (fht_w_range x ltac:(lra)) as [W0 W1].
  unfold Rmin, Rmax. set (w := fht_w x) in *. set (f := fht_f x). set (g := fht_g x).
  destruct (Rle_dec f g).
  - assert (0 <= (1 - w) * (g - f)) by (apply Rmult_le_pos; lra).
    assert (0 <= w * (g - f)) by (apply Rmult_le_pos; lra). lra.
  - assert (0 <= (1 - w) * (f - g)) by (apply Rmult_le_pos; lra).
    assert (0 <= w * (f - g)) by (apply Rmult_le_pos; lra). lra.
Qed.
(** The blended and the far branch meet within 0.1 dB at x = 2000. *)
Lemma fht_join_2000 x pk : 1999.9 <= x < 2000 ->
  exists y z, fht RA x pk = Ok y /\ fht RA 2000 pk = Ok z /\ Rabs (y - z) <= 0.1.
Proof.
  intros H. rewrite fht_mid by lra. rewrite fht_far by lra. do 2 eexists; repeat split.
  unfold fht_f, fht_g, fht_w.
  interval with (i_bisect x, i_prec 60).
Qed.
(** The near (negligible height gain) and the blended branch meet within 0.2 dB at x = 200. *)
Lemma fht_join_200 x pk : 0 < pk -> (pk < 0.00001 \/ 5495 < x * (- ln pk) ^ 3) -> 199.9 <= x < 200 ->
  exists y z, fht RA x pk = Ok y /\ fht RA 200 pk = Ok z /\ Rabs (y - z) <= 0.2.
Proof.
  intros Hp Hb H. rewrite fht_near_eq by lra. rewrite fht_mid by lra. do 2 eexists; repeat split.
  destruct (Rlt_dec 1 x); [|lra].
  assert (E : (if Rlt_dec pk 0.00001 then fht_g x
               else if Rlt_dec 5495 (x * (- ln pk) ^ 3) then fht_g x
               else 0.000025 * x ^ 2 / pk - 8.686 * (- ln pk) - 15) = fht_g x).
  { destruct (Rlt_dec pk 0.00001); [reflexivity|].
    destruct (Rlt_dec 5495 (x * (- ln pk) ^ 3)); [reflexivity|]. lra. }
  rewrite E. unfold fht_f, fht_g, fht_w.
  interval with (i_bisect x, i_prec 60).
Qed.

(** ** ahd *)
Definition ahd_val (a b c td : R) : R := a + b * td + c * ln td.
Lemma ahd_eq td : 0 < td ->
  ahd RA td = Ok (if Rle_dec td 10000 then ahd_val 133.4 0.000332 (-4.343) td
                  else if Rle_dec td 70000 then ahd_val 104.6 0.000212 (-1.086) td
                  else ahd_val 71.8 0.000157 2.171 td).
Proof.
  intros H. unfold ahd, ahd_row. runfold. unfold r_leb.
  replace (10000 / 1) with 10000 by lra. replace (70000 / 1) with 70000 by lra.
  destruct (Rle_dec td 10000); [|destruct (Rle_dec td 70000)];
    rewrite r_log_ok by lra; cbn [bind]; unfold ahd_val; apply f_equal; lra.
Qed.
Lemma ahd_fails td : td <= 0 -> ahd RA td = Err NotReal.
Proof.
  intros H. unfold ahd, ahd_row. runfold. unfold r_leb.
  replace (10000 / 1) with 10000 by lra. destruct (Rle_dec td 10000); [|lra].
  unfold r_log. destruct (Rle_dec td 0); [reflexivity | lra].
Qed.
Lemma ahd_decreasing_near a b : 0 < a -> a < b -> b <= 10000 ->
  exists x y, ahd RA a = Ok x /\ ahd RA b = Ok y /\ y < x.
Proof.
  intros. rewrite !ahd_eq by lra. do 2 eexists; repeat split.
  repeat match goal with |- context [Rle_dec ?u ?v] => destruct (Rle_dec u v); try lra end.
  unfold ahd_val.
  (* ln b - ln a > (b-a)/b *)
  pose proof (ln_diff (/ b) (/ a)) as K.
  rewrite !ln_Rinv in K by lra.
  assert (Hb : / b < / a) by (apply Rinv_lt_contravar; [apply Rmult_lt_0_compat; lra | lra]).
  assert (ln a < ln b) by (apply ln_increasing; lra).
  assert (L : (b - a) / b <= ln b - ln a).
  { (* from ln (a/b) <= a/b - 1 *)
    assert (P : 0 < a / b) by (apply Rdiv_lt_0_compat; lra).
    pose proof (exp_ineq1_le (ln (a / b))) as E. rewrite exp_ln in E by exact P.
    rewrite Rcomplements.ln_div in E by lra.
    replace ((b - a) / b) with (1 - a / b) by (field; lra). lra. }
  assert ((b - a) / 10000 <= (b - a) / b).
  { unfold Rdiv. apply Rmult_le_compat_l; [lra|]. apply Rinv_le_contravar; lra. }
  lra.
Qed.
Lemma ahd_increasing_mid a b : 10000 < a -> a < b -> b <= 70000 ->
  exists x y, ahd RA a = Ok x /\ ahd RA b = Ok y /\ x < y.
Proof.
  intros. rewrite !ahd_eq by lra. do 2 eexists; repeat split.
  repeat match goal with |- context [Rle_dec ?u ?v] => destruct (Rle_dec u v); try lra end.
  unfold ahd_val. pose proof (ln_diff a b ltac:(lra) ltac:(lra)).
  assert ((b - a) / a <= (b - a) / 10000).
  { unfold Rdiv. apply Rmult_le_compat_l; [lra|]. apply Rinv_le_contravar; lra. }
  lra.
Qed.
Lemma ahd_increasing_far a b : 70000 < a -> a < b ->
  exists x y, ahd RA a = Ok x /\ ahd RA b = Ok y /\ x < y.
Proof.
  intros. rewrite !ahd_eq by lra. do 2 eexists; repeat split.
  repeat match goal with |- context [Rle_dec ?u ?v] => destruct (Rle_dec u v); try lra end.
  unfold ahd_val. pose proof (ln_increasing a b ltac:(lra) ltac:(lra)). lra.
Qed.
Lemma ahd_join_10k b : 10000 < b <= 10001 ->
  exists x y, ahd RA 10000 = Ok x /\ ahd RA b = Ok y /\ Rabs (x - y) <= 0.01.
Proof.
  intros. rewrite !ahd_eq by lra. do 2 eexists; repeat split.
  repeat match goal with |- context [Rle_dec ?u ?v] => destruct (Rle_dec u v); try lra end.
  unfold ahd_val. interval with (i_bisect b, i_prec 60).
Qed.
Lemma ahd_join_70k b : 70000 < b <= 70001 ->
  exists x y, ahd RA 70000 = Ok x /\ ahd RA b = Ok y /\ Rabs (x - y) <= 0.35.
Proof.
  intros. rewrite !ahd_eq by lra. do 2 eexists; repeat split.
  repeat match goal with |- context [Rle_dec ?u ?v] => destruct (Rle_dec u v); try lra end.
  unfold ahd_val. interval with (i_bisect b, i_prec 60).
Qed.

(** ** curv *)
Definition curv_R (c1 c2 x1 x2 x3 de : R) : R :=
  (c1 + c2 / (1 + ((de - x2) / x3) ^ 2)) * (de / x1) ^ 2 / (1 + (de / x1) ^ 2).
Lemma curv_eq c1 c2 x1 x2 x3 de : x1 <> 0 -> x3 <> 0 ->
  curv RA c1 c2 x1 x2 x3 de = Ok (curv_R c1 c2 x1 x2 x3 de).
Proof.
  intros H1 H3. unfold curv. runfold.
  assert (P1 : forall u : R, 1 + u ^ 2 <> 0).
  { intro u. pose proof (pow2_ge_0 u). lra. }
  rewrite r_div_ok by assumption; cbn [bind]. rewrite r_powZ_pos; cbn [bind].
  change (Pos.to_nat 2) with 2%nat. rewrite r_div_ok by apply P1; cbn [bind].
  rewrite r_div_ok by assumption; cbn [bind]. rewrite r_powZ_pos; cbn [bind].
  change (Pos.to_nat 2) with 2%nat. rewrite r_div_ok by apply P1. reflexivity.
Qed.
Lemma frac_01 s : 0 <= s -> 0 <= s / (1 + s) < 1.
Proof.
  intros H. split.
  - apply Rmult_le_pos; [lra|]. left. apply Rinv_0_lt_compat. lra.
  - apply Rmult_lt_reg_r with (1 + s); [lra|]. unfold Rdiv. rewrite Rmult_assoc, Rinv_l by lra. lra.
Qed.
Lemma inv_01 s : 0 <= s -> 0 < / (1 + s) <= 1.
Proof.
  intros H. split; [apply Rinv_0_lt_compat; lra|].
  rewrite <- Rinv_1 at 2. apply Rinv_le_contravar; lra.
Qed.
Lemma curv_at_0 c1 c2 x1 x2 x3 : x1 <> 0 -> x3 <> 0 -> curv RA c1 c2 x1 x2 x3 0 = Ok 0.
Proof.
  intros. rewrite curv_eq by assumption. f_equal. unfold curv_R.
  assert (1 + (0 / x1) ^ 2 <> 0). { pose proof (pow2_ge_0 (0 / x1)). lra. }
  assert (1 + ((0 - x2) / x3) ^ 2 <> 0). { pose proof (pow2_ge_0 ((0 - x2) / x3)). lra. }
  replace (0 / x1) with 0 by (field; assumption).
  replace (0 ^ 2) with 0 by ring. unfold Rdiv. ring.
Qed.
Lemma curv_bound c1 c2 x1 x2 x3 de : x1 <> 0 -> x3 <> 0 ->
  exists y, curv RA c1 c2 x1 x2 x3 de = Ok y /\ Rabs y <= Rabs c1 + Rabs c2.
Proof.
  intros. rewrite curv_eq by assumption. eexists; split; [reflexivity|]. unfold curv_R.
  set (s := (de / x1) ^ 2). set (t := ((de - x2) / x3) ^ 2).
  assert (Hs : 0 <= s) by apply pow2_ge_0. assert (Ht : 0 <= t) by apply pow2_ge_0.
  pose proof (frac_01 s Hs) as Fs. pose proof (inv_01 t Ht) as It.
  replace ((c1 + c2 / (1 + t)) * s / (1 + s)) with ((c1 + c2 * / (1 + t)) * (s / (1 + s)))
    by (unfold Rdiv; ring).
  rewrite Rabs_mult. rewrite (Rabs_pos_eq (s / (1 + s))) by lra.
  assert (A : Rabs (c1 + c2 * / (1 + t)) <= Rabs c1 + Rabs c2).
  { eapply Rle_trans; [apply Rabs_triang|]. apply Rplus_le_compat_l.
    rewrite Rabs_mult. rewrite (Rabs_pos_eq (/ (1 + t))) by lra.
    rewrite <- (Rmult_1_r (Rabs c2)) at 2. apply Rmult_le_compat_l; [apply Rabs_pos | lra]. }
  rewrite <- (Rmult_1_r (Rabs c1 + Rabs c2)).
  apply Rmult_le_compat; [apply Rabs_pos | lra | assumption | lra].
Qed.
Lemma curv_nonneg c1 c2 x1 x2 x3 de : x1 <> 0 -> x3 <> 0 -> 0 <= c1 -> 0 <= c2 ->
  exists y, curv RA c1 c2 x1 x2 x3 de = Ok y /\ 0 <= y.
Proof.
  intros. rewrite curv_eq by assumption. eexists; split; [reflexivity|]. unfold curv_R.
  set (s := (de / x1) ^ 2). set (t := ((de - x2) / x3) ^ 2).
  assert (Hs : 0 <= s) by apply pow2_ge_0. assert (Ht : 0 <= t) by apply pow2_ge_0.
  pose proof (frac_01 s Hs) as Fs. pose proof (inv_01 t Ht) as It.
  replace ((c1 + c2 / (1 + t)) * s / (1 + s)) with ((c1 + c2 * / (1 + t)) * (s / (1 + s)))
    by (unfold Rdiv; ring).
  apply Rmult_le_pos; [|lra]. assert (0 <= c2 * / (1 + t)) by (apply Rmult_le_pos; lra). lra.
Qed.
Lemma curv_limit_bound c1 c2 x1 x2 x3 de : x1 <> 0 -> x3 <> 0 -> 0 < de -> x2 < de ->
  exists y, curv RA c1 c2 x1 x2 x3 de = Ok y /\
    Rabs (y - c1) <= Rabs c1 * (x1 / de) ^ 2 + Rabs c2 * (x3 / (de - x2)) ^ 2.
Proof.
  intros H1 H3 Hd H2. rewrite curv_eq by assumption. eexists; split; [reflexivity|]. unfold curv_R.
  set (s := (de / x1) ^ 2). set (t := ((de - x2) / x3) ^ 2).
  assert (Ps : 0 < s).
  { unfold s. replace (de / x1) with (de * / x1) by reflexivity.
    assert (de * / x1 <> 0) by (apply Rmult_integral_contrapositive; split; [lra | apply Rinv_neq_0_compat; lra]).
    pose proof (Rsqr_pos_lt _ H). unfold Rsqr in H0. simpl. lra. }
  assert (Pt : 0 < t).
  { unfold t. assert ((de - x2) / x3 <> 0).
    { unfold Rdiv. apply Rmult_integral_contrapositive; split; [lra | apply Rinv_neq_0_compat; lra]. }
    pose proof (Rsqr_pos_lt _ H). unfold Rsqr in H0. simpl. lra. }
  assert (Es : (x1 / de) ^ 2 = / s). { unfold s. field. split; lra. }
  assert (Et : (x3 / (de - x2)) ^ 2 = / t). { unfold t. field. split; lra. }
  rewrite Es, Et.
  pose proof (frac_01 s ltac:(lra)) as Fs.
  replace ((c1 + c2 / (1 + t)) * s / (1 + s) - c1)
    with (- c1 * / (1 + s) + c2 * (/ (1 + t) * (s / (1 + s)))) by (field; split; lra).
  eapply Rle_trans; [apply Rabs_triang|].
  assert (I1 : 0 < / (1 + s) <= / s).
  { split; [apply Rinv_0_lt_compat; lra | apply Rinv_le_contravar; lra]. }
  assert (I2 : 0 < / (1 + t) <= / t).
  { split; [apply Rinv_0_lt_compat; lra | apply Rinv_le_contravar; lra]. }
  apply Rplus_le_compat.
  - rewrite Rabs_mult, Rabs_Ropp, (Rabs_pos_eq (/ (1 + s))) by lra.
    apply Rmult_le_compat_l; [apply Rabs_pos | lra].
  - rewrite Rabs_mult. apply Rmult_le_compat_l; [apply Rabs_pos|].
    rewrite Rabs_pos_eq by (apply Rmult_le_pos; lra).
    rewrite <- (Rmult_1_r (/ t)). apply Rmult_le_compat; lra.
Qed.
