(** Real inequalities behind the monotonicity of avar. *)
From Coquelicot Require Import Coquelicot.
From Verif Require Import RTac SpecQuant.
Open Scope R_scope.

(** ** Compression *)
Lemma squash_neg a : a < 0 -> squash a = a * (29 - a) / (29 - 10 * a).
Proof. intro H. unfold squash. destruct (Rlt_dec a 0); [reflexivity | lra]. Qed.
Lemma squash_pos a : 0 <= a -> squash a = a.
Proof. intro H. unfold squash. destruct (Rlt_dec a 0); [lra | reflexivity]. Qed.
Lemma squash_between a : a < 0 -> a < squash a < 0.
Proof.
  intro H. rewrite squash_neg by exact H. assert (P : 0 < 29 - 10 * a) by lra. split.
  - apply (Rmult_lt_reg_r (29 - 10 * a)); [exact P|]. unfold Rdiv. rewrite Rmult_assoc, Rinv_l by lra. nra.
  - apply (Rmult_lt_reg_r (29 - 10 * a)); [exact P|]. unfold Rdiv. rewrite Rmult_assoc, Rinv_l by lra. nra.
Qed.
Lemma squash_lt a b : a < b -> squash a < squash b.
Proof.
  intro H. destruct (Rlt_dec a 0) as [Ha|Ha].
  - destruct (Rlt_dec b 0) as [Hb|Hb].
    + rewrite !squash_neg by assumption. assert (0 < 29 - 10 * a) by lra. assert (0 < 29 - 10 * b) by lra.
      apply Rminus_lt. replace (a * (29 - a) / (29 - 10 * a) - b * (29 - b) / (29 - 10 * b))
        with (- ((b - a) * (841 - 29 * (a + b) + 10 * (a * b))) / ((29 - 10 * a) * (29 - 10 * b))) by (field; lra).
      apply Ropp_lt_cancel. rewrite Ropp_0. unfold Rdiv. rewrite Ropp_mult_distr_l, Ropp_involutive.
      apply Rdiv_lt_0_compat; [|nra]. apply Rmult_lt_0_compat; nra.
    + pose proof (squash_between a Ha). rewrite (squash_pos b) by lra. lra.
  - rewrite !squash_pos by lra. exact H.
Qed.
Lemma squash_le a b : a <= b -> squash a <= squash b.
Proof. intros [H| ->]; [left; apply squash_lt; exact H | right; reflexivity]. Qed.

(** ** Monotone pieces *)
Lemma frac_le k s t : 0 < k -> 0 <= s -> s <= t -> s / (k + s) <= t / (k + t).
Proof.
  intros K S T. apply Rminus_le. replace (s / (k + s) - t / (k + t)) with (- (k * (t - s) / ((k + s) * (k + t)))) by (field; lra).
  assert (0 <= k * (t - s) / ((k + s) * (k + t))); [|lra].
  apply Rmult_le_pos; [nra | left; apply Rinv_0_lt_compat; nra].
Qed.
Lemma frac_nonneg k s : 0 < k -> 0 <= s -> 0 <= s / (k + s).
Proof. intros K S. apply Rmult_le_pos; [exact S | left; apply Rinv_0_lt_compat; lra]. Qed.

(** z * sqrt (F z) is monotone if z^2 * F z grows with |z|. *)
Lemma zroot x f : 0 <= f -> x * sqrt f = if Rle_dec 0 x then sqrt (x ^ 2 * f) else - sqrt (x ^ 2 * f).
Proof.
  intro F. rewrite sqrt_mult by (auto; apply pow2_ge_0). destruct (Rle_dec 0 x) as [P|P].
  - rewrite sqrt_pow2 by exact P. reflexivity.
  - replace (x ^ 2) with ((- x) ^ 2) by ring. rewrite sqrt_pow2 by lra. ring.
Qed.
Lemma zroot_mono x y f g : 0 <= f -> 0 <= g -> x <= y ->
  (0 <= x -> x ^ 2 * f <= y ^ 2 * g) -> (y <= 0 -> y ^ 2 * g <= x ^ 2 * f) -> x * sqrt f <= y * sqrt g.
Proof.
  intros F G H P N. rewrite !zroot by assumption.
  assert (S1 := sqrt_pos (x ^ 2 * f)). assert (S2 := sqrt_pos (y ^ 2 * g)).
  destruct (Rle_dec 0 x) as [X|X], (Rle_dec 0 y) as [Y|Y]; try lra.
  - apply sqrt_le_1_alt. auto.
  - assert (K : sqrt (y ^ 2 * g) <= sqrt (x ^ 2 * f)) by (apply sqrt_le_1_alt; apply N; lra). lra.
Qed.
(** t*r + z*sqrt(K + k*t^2) grows with t when z^2*k <= r^2. *)
Lemma lip z K k r t u : 0 <= K -> 0 <= k -> 0 <= r -> z ^ 2 * k <= r ^ 2 -> t <= u ->
  t * r + z * sqrt (K + k * t ^ 2) <= u * r + z * sqrt (K + k * u ^ 2).
Proof.
  intros HK Hk Hr Hz H. set (a := sqrt (K + k * t ^ 2)). set (b := sqrt (K + k * u ^ 2)).
  assert (Pt : 0 <= k * t ^ 2) by (apply Rmult_le_pos; [exact Hk | apply pow2_ge_0]).
  assert (Pu : 0 <= k * u ^ 2) by (apply Rmult_le_pos; [exact Hk | apply pow2_ge_0]).
  assert (A2 : a * a = K + k * t ^ 2) by (unfold a; apply sqrt_sqrt; lra).
  assert (B2 : b * b = K + k * u ^ 2) by (unfold b; apply sqrt_sqrt; lra).
  assert (Pa : 0 <= a) by (apply sqrt_pos). assert (Pb : 0 <= b) by (apply sqrt_pos).
  cut (Rabs (z * (a - b)) <= r * (u - t)). { intro C. pose proof (Rle_abs (z * (a - b))). lra. }
  assert (Zk : Rabs z * sqrt k <= r).
  { apply Rsqr_incr_0_var; [|exact Hr]. unfold Rsqr. replace (Rabs z * sqrt k * (Rabs z * sqrt k)) with ((Rabs z * Rabs z) * (sqrt k * sqrt k)) by ring.
    rewrite sqrt_sqrt by exact Hk. rewrite <- Rabs_mult, Rabs_right by (apply Rle_ge; nra). simpl in Hz. lra. }
  assert (At : sqrt k * Rabs t <= a).
  { unfold a. rewrite <- (sqrt_Rsqr_abs t), <- sqrt_mult by (try exact Hk; apply Rle_0_sqr). apply sqrt_le_1_alt. unfold Rsqr. lra. }
  assert (Bu : sqrt k * Rabs u <= b).
  { unfold b. rewrite <- (sqrt_Rsqr_abs u), <- sqrt_mult by (try exact Hk; apply Rle_0_sqr). apply sqrt_le_1_alt. unfold Rsqr. lra. }
  assert (D : Rabs (a - b) <= sqrt k * (u - t)).
  { destruct (Req_dec (a + b) 0) as [Z|Z].
    - assert (a = 0) by lra. assert (b = 0) by lra. replace (a - b) with 0 by lra. rewrite Rabs_R0.
      apply Rmult_le_pos; [apply sqrt_pos | lra].
    - apply (Rmult_le_reg_r (a + b)); [lra|].
      replace (Rabs (a - b) * (a + b)) with (k * (Rabs (t + u) * (u - t))).
      + rewrite <- (sqrt_sqrt k Hk) at 1. assert (T := Rabs_triang t u). assert (0 <= sqrt k * (u - t)) by (apply Rmult_le_pos; [apply sqrt_pos | lra]).
        replace (sqrt k * sqrt k * (Rabs (t + u) * (u - t))) with (sqrt k * (u - t) * (sqrt k * Rabs (t + u))) by ring.
        apply Rmult_le_compat_l; [assumption|]. apply Rle_trans with (sqrt k * (Rabs t + Rabs u)); [|lra].
        apply Rmult_le_compat_l; [apply sqrt_pos | exact T].
      + assert (E : (a - b) * (a + b) = k * ((t - u) * (t + u))) by nra.
        rewrite <- (Rabs_pos_eq (a + b)) by lra. rewrite <- Rabs_mult, E, !Rabs_mult, (Rabs_pos_eq k) by exact Hk.
        rewrite (Rabs_minus_sym t u), (Rabs_pos_eq (u - t)) by lra. ring. }
  rewrite Rabs_mult. apply Rle_trans with (Rabs z * (sqrt k * (u - t))).
  - apply Rmult_le_compat_l; [apply Rabs_pos | exact D].
  - rewrite <- Rmult_assoc. apply Rmult_le_compat_r; [lra | exact Zk].
Qed.

Lemma sqle_pos x y : 0 <= x -> x <= y -> x ^ 2 <= y ^ 2.
Proof. intros. nra. Qed.
Lemma sqle_neg x y : y <= 0 -> x <= y -> y ^ 2 <= x ^ 2.
Proof. intros. nra. Qed.

(** ** The deviate-weighted time variability u(z) = z * time_dev z *)
Section dev.
  Variables m p d zd tg : R.
  Hypotheses (Hm : 0 <= m) (Hp : 0 <= p) (Hd : 0 <= d) (Hz : 0 < zd) (Ht : tg = (p - d) * zd).
  Definition dv (z : R) : R := if Rlt_dec z 0 then m else if Rle_dec z zd then p else d + tg / z.
  Lemma dv_neg z : z < 0 -> dv z = m.
  Proof. intro H. unfold dv. destruct (Rlt_dec z 0); [reflexivity | lra]. Qed.
  Lemma dv_mid z : 0 <= z -> z <= zd -> dv z = p.
  Proof. intros H K. unfold dv. destruct (Rlt_dec z 0); [lra|]. destruct (Rle_dec z zd); [reflexivity | lra]. Qed.
  Lemma dv_high z : zd < z -> dv z = d + tg / z.
  Proof. intros H. unfold dv. destruct (Rlt_dec z 0); [lra|]. destruct (Rle_dec z zd); [lra | reflexivity]. Qed.
  (** u on the three pieces (closed intervals) *)
  Lemma u_low z : z <= 0 -> dv z * z = m * z.
  Proof. intros [H| ->]; [rewrite dv_neg by exact H; reflexivity | ring]. Qed.
  Lemma u_mid z : 0 <= z -> z <= zd -> dv z * z = p * z.
  Proof. intros H K. rewrite dv_mid by assumption. reflexivity. Qed.
  Lemma u_high z : zd <= z -> dv z * z = d * z + tg.
  Proof.
    intros [H| <-]; [rewrite dv_high by exact H; field; lra|]. rewrite dv_mid by lra. rewrite Ht. ring.
  Qed.
  Lemma u_mono x y : x <= y -> dv x * x <= dv y * y.
  Proof.
    intro H. destruct (Rle_dec y 0) as [Y|Y].
    - rewrite !u_low by lra. nra.
    - apply Rnot_le_lt in Y. destruct (Rle_dec y zd) as [Y2|Y2].
      + destruct (Rle_dec x 0) as [X|X].
        * rewrite (u_low x), (u_mid y) by lra. nra.
        * rewrite (u_mid x), (u_mid y) by lra. nra.
      + rewrite (u_high y) by lra. destruct (Rle_dec x 0) as [X|X].
        * rewrite (u_low x) by lra. nra.
        * destruct (Rle_dec x zd) as [X2|X2]; [rewrite (u_mid x) by lra; nra | rewrite (u_high x) by lra; nra].
  Qed.
  Lemma u_zero : dv 0 * 0 = 0. Proof. ring. Qed.
  Lemma u_pos z : 0 <= z -> 0 <= dv z * z.
  Proof. intro H. rewrite <- u_zero. apply u_mono; exact H. Qed.
  Lemma u_neg z : z <= 0 -> dv z * z <= 0.
  Proof. intro H. pose proof (u_mono z 0 H). rewrite u_zero in *. lra. Qed.

  Variables L vs : R.
  Hypothesis Hv : 0 <= vs.
  Definition sv (t l c : R) : R := vs + (dv t * t) ^ 2 / (7.8 + c ^ 2) + (L * l) ^ 2 / (24 + c ^ 2).
  Lemma sq_div_nonneg a k c : 0 < k -> 0 <= a ^ 2 / (k + c ^ 2).
  Proof.
    intro K. apply Rmult_le_pos; [apply pow2_ge_0|]. left. apply Rinv_0_lt_compat. pose proof (pow2_ge_0 c). lra.
  Qed.
  Lemma sv_nonneg t l c : 0 <= sv t l c.
  Proof.
    unfold sv. pose proof (sq_div_nonneg (dv t * t) 7.8 c ltac:(lra)). pose proof (sq_div_nonneg (L * l) 24 c ltac:(lra)). lra.
  Qed.
  Lemma sq_le x y : Rabs x <= Rabs y -> x ^ 2 <= y ^ 2.
  Proof. intro H. apply Rsqr_le_abs_1 in H. unfold Rsqr in H. lra. Qed.
  Lemma pow2_frac a k c : 0 < k -> c ^ 2 * (a ^ 2 / (k + c ^ 2)) = a ^ 2 * (c ^ 2 / (k + c ^ 2)).
  Proof. intro K. field. pose proof (pow2_ge_0 c). nra. Qed.

  (** monotonicity in the confidence deviate *)
  Lemma conf_const K a b x y : 0 <= K -> x <= y ->
    x * sqrt (K + a ^ 2 / (7.8 + x ^ 2) + b ^ 2 / (24 + x ^ 2)) <= y * sqrt (K + a ^ 2 / (7.8 + y ^ 2) + b ^ 2 / (24 + y ^ 2)).
  Proof.
    intros HK H.
    assert (G : forall s t, s ^ 2 <= t ^ 2 -> s ^ 2 * (K + a ^ 2 / (7.8 + s ^ 2) + b ^ 2 / (24 + s ^ 2)) <= t ^ 2 * (K + a ^ 2 / (7.8 + t ^ 2) + b ^ 2 / (24 + t ^ 2))).
    { intros s t E. rewrite !Rmult_plus_distr_l, !pow2_frac by lra.
      pose proof (pow2_ge_0 s). pose proof (pow2_ge_0 a). pose proof (pow2_ge_0 b).
      pose proof (frac_le 7.8 _ _ ltac:(lra) H0 E). pose proof (frac_le 24 _ _ ltac:(lra) H0 E).
      apply Rplus_le_compat; [apply Rplus_le_compat|]; [nra | apply Rmult_le_compat_l; assumption | apply Rmult_le_compat_l; assumption]. }
    pose proof (sq_div_nonneg a 7.8 x ltac:(lra)). pose proof (sq_div_nonneg b 24 x ltac:(lra)).
    pose proof (sq_div_nonneg a 7.8 y ltac:(lra)). pose proof (sq_div_nonneg b 24 y ltac:(lra)).
    apply zroot_mono; try lra; intro P; apply G; [apply sqle_pos | apply sqle_neg]; assumption.
  Qed.
  Lemma conf3 t l x y : x <= y -> x * sqrt (sv t l x) <= y * sqrt (sv t l y).
  Proof. intro H. apply conf_const; assumption. Qed.
  (** location deviate equal to the confidence deviate (mode 1) *)
  Lemma conf1 t x y : x <= y -> x * sqrt (L ^ 2 + sv t x x) <= y * sqrt (L ^ 2 + sv t y y).
  Proof.
    intro H. unfold sv. set (u := dv t * t).
    assert (G : forall s t, s ^ 2 <= t ^ 2 -> s ^ 2 * (L ^ 2 + (vs + u ^ 2 / (7.8 + s ^ 2) + (L * s) ^ 2 / (24 + s ^ 2)))
                                  <= t ^ 2 * (L ^ 2 + (vs + u ^ 2 / (7.8 + t ^ 2) + (L * t) ^ 2 / (24 + t ^ 2)))).
    { intros a b E. rewrite !Rmult_plus_distr_l, !pow2_frac by lra. rewrite !Rpow_mult_distr.
      pose proof (pow2_ge_0 a). pose proof (pow2_ge_0 u). pose proof (pow2_ge_0 L).
      pose proof (frac_le 7.8 _ _ ltac:(lra) H0 E). pose proof (frac_le 24 _ _ ltac:(lra) H0 E).
      pose proof (frac_nonneg 24 (a ^ 2) ltac:(lra) H0).
      assert (L ^ 2 * a ^ 2 * (a ^ 2 / (24 + a ^ 2)) <= L ^ 2 * b ^ 2 * (b ^ 2 / (24 + b ^ 2))) by (apply Rmult_le_compat; nra).
      assert (u ^ 2 * (a ^ 2 / (7.8 + a ^ 2)) <= u ^ 2 * (b ^ 2 / (7.8 + b ^ 2))) by (apply Rmult_le_compat_l; assumption).
      nra. }
    pose proof (sv_nonneg t x x) as A. pose proof (sv_nonneg t y y) as B. unfold sv in A, B. fold u in A, B. pose proof (pow2_ge_0 L).
    apply zroot_mono; try lra; intro P; apply G; [apply sqle_pos | apply sqle_neg]; assumption.
  Qed.
  (** all deviates equal (mode 0) *)
  Lemma conf0 x y : x <= y -> x * sqrt (dv x ^ 2 + L ^ 2 + sv x x x) <= y * sqrt (dv y ^ 2 + L ^ 2 + sv y y y).
  Proof.
    intro H.
    assert (G : forall s t, s ^ 2 <= t ^ 2 -> (dv s * s) ^ 2 <= (dv t * t) ^ 2 ->
       s ^ 2 * (dv s ^ 2 + L ^ 2 + sv s s s) <= t ^ 2 * (dv t ^ 2 + L ^ 2 + sv t t t)).
    { intros a b E U. unfold sv. rewrite !Rmult_plus_distr_l, !pow2_frac by lra. rewrite !(Rpow_mult_distr L).
      replace (a ^ 2 * dv a ^ 2) with ((dv a * a) ^ 2) by ring. replace (b ^ 2 * dv b ^ 2) with ((dv b * b) ^ 2) by ring.
      pose proof (pow2_ge_0 a). pose proof (pow2_ge_0 (dv a * a)). pose proof (pow2_ge_0 L).
      pose proof (frac_le 7.8 _ _ ltac:(lra) H0 E). pose proof (frac_le 24 _ _ ltac:(lra) H0 E).
      pose proof (frac_nonneg 24 (a ^ 2) ltac:(lra) H0). pose proof (frac_nonneg 7.8 (a ^ 2) ltac:(lra) H0).
      assert (L ^ 2 * a ^ 2 * (a ^ 2 / (24 + a ^ 2)) <= L ^ 2 * b ^ 2 * (b ^ 2 / (24 + b ^ 2))) by (apply Rmult_le_compat; nra).
      assert ((dv a * a) ^ 2 * (a ^ 2 / (7.8 + a ^ 2)) <= (dv b * b) ^ 2 * (b ^ 2 / (7.8 + b ^ 2))) by (apply Rmult_le_compat; assumption).
      nra. }
    pose proof (sv_nonneg x x x). pose proof (sv_nonneg y y y). pose proof (pow2_ge_0 L). pose proof (pow2_ge_0 (dv x)). pose proof (pow2_ge_0 (dv y)).
    pose proof (u_mono x y H).
    apply zroot_mono; try lra; intro P; apply G; try (apply sqle_pos; assumption); try (apply sqle_neg; assumption).
    - apply sqle_pos; [apply u_pos; exact P | assumption].
    - apply sqle_neg; [apply u_neg; exact P | assumption].
  Qed.
  (** monotonicity in the time deviate *)
  Lemma z_frac c : c ^ 2 * (/ (7.8 + c ^ 2)) <= 1.
  Proof.
    pose proof (pow2_ge_0 c). apply (Rmult_le_reg_r (7.8 + c ^ 2)); [lra|]. rewrite Rmult_assoc, Rinv_l by lra. lra.
  Qed.
  Lemma time13 K c x y : 0 <= K -> x <= y ->
    dv x * x + c * sqrt (K + (dv x * x) ^ 2 / (7.8 + c ^ 2)) <= dv y * y + c * sqrt (K + (dv y * y) ^ 2 / (7.8 + c ^ 2)).
  Proof.
    intros HK H. pose proof (pow2_ge_0 c).
    assert (P : 0 <= / (7.8 + c ^ 2)) by (left; apply Rinv_0_lt_compat; lra).
    pose proof (lip c K (/ (7.8 + c ^ 2)) 1 _ _ HK P Rle_0_1 ltac:(rewrite pow1; apply z_frac) (u_mono x y H)) as E.
    rewrite !Rmult_1_r in E. unfold Rdiv. rewrite (Rmult_comm ((dv x * x) ^ 2)), (Rmult_comm ((dv y * y) ^ 2)). exact E.
  Qed.
  Definition mob (c t : R) : R := t * sqrt (dv t ^ 2 + L ^ 2) + c * sqrt (sv t t c).
  Lemma mob_const s c x y : x <= y ->
    x * sqrt (s ^ 2 + L ^ 2) + c * sqrt (vs + (s * x) ^ 2 / (7.8 + c ^ 2) + (L * x) ^ 2 / (24 + c ^ 2))
    <= y * sqrt (s ^ 2 + L ^ 2) + c * sqrt (vs + (s * y) ^ 2 / (7.8 + c ^ 2) + (L * y) ^ 2 / (24 + c ^ 2)).
  Proof.
    intros H. pose proof (pow2_ge_0 c) as C2. set (k := s ^ 2 / (7.8 + c ^ 2) + L ^ 2 / (24 + c ^ 2)).
    pose proof (sq_div_nonneg s 7.8 c ltac:(lra)) as A. pose proof (sq_div_nonneg L 24 c ltac:(lra)) as B.
    pose proof (pow2_ge_0 s). pose proof (pow2_ge_0 L).
    assert (E : c ^ 2 * k <= sqrt (s ^ 2 + L ^ 2) ^ 2).
    { rewrite pow2_sqrt by lra. unfold k. rewrite Rmult_plus_distr_l, !pow2_frac by lra.
      assert (F : forall q, 0 < q -> c ^ 2 / (q + c ^ 2) <= 1).
      { intros q Q. apply (Rmult_le_reg_r (q + c ^ 2)); [lra|]. unfold Rdiv. rewrite Rmult_assoc, Rinv_l by lra. lra. }
      pose proof (F 7.8 ltac:(lra)). pose proof (F 24 ltac:(lra)). nra. }
    pose proof (lip c vs k _ x y Hv ltac:(unfold k; lra) (sqrt_pos _) E H) as G.
    replace (vs + (s * x) ^ 2 / (7.8 + c ^ 2) + (L * x) ^ 2 / (24 + c ^ 2)) with (vs + k * x ^ 2) by (unfold k; field; lra).
    replace (vs + (s * y) ^ 2 / (7.8 + c ^ 2) + (L * y) ^ 2 / (24 + c ^ 2)) with (vs + k * y ^ 2) by (unfold k; field; lra).
    exact G.
  Qed.

  (** beyond the knee: u = d*t + tg is affine; derivative argument *)
  Lemma mob_poly s X Y Z : 0 <= s -> 0 <= X -> 0 <= Y -> 0 <= Z -> Z <= 4.7 * X ->
    s * (X + Y) * ((s + 24) * Z + (s + 7.8) * Y) ^ 2 <= (Z + Y) ^ 2 * ((s + 24) * X + (s + 7.8) * Y) * ((s + 7.8) * (s + 24)).
  Proof.
    intros Hs HX HY HZ H. apply Rminus_le.
    assert (A : 0 <= Z * X) by (apply Rmult_le_pos; assumption). assert (B : 0 <= X * Y) by (apply Rmult_le_pos; assumption).
    assert (C : 0 <= Y * Y) by (apply Rmult_le_pos; assumption). assert (D : 0 <= Z * Y) by (apply Rmult_le_pos; assumption).
    assert (E : Z * Y <= 4.7 * (X * Y)) by nra.
    set (Q2 := 7.8 * (Z * X) - 8.4 * (Z * Y) + 40.2 * (X * Y) + 24 * (Y * Y)). assert (P2 : 0 <= Q2) by (unfold Q2; lra).
    set (Q1 := 374.4 * (Z * (Z * X)) - 140.76 * (Z * (Z * Y)) + 1526.4 * (Z * (X * Y)) + 496.08 * (Z * (Y * Y)) + 889.56 * (X * (Y * Y)) + 374.4 * (Y * (Y * Y))).
    assert (P1 : 0 <= Q1).
    { assert (0 <= Z * (Z * X)) by (apply Rmult_le_pos; assumption). assert (0 <= Z * (X * Y)) by (apply Rmult_le_pos; assumption).
      assert (0 <= Z * (Y * Y)) by (apply Rmult_le_pos; assumption). assert (0 <= X * (Y * Y)) by (apply Rmult_le_pos; assumption).
      assert (0 <= Y * (Y * Y)) by (apply Rmult_le_pos; assumption).
      assert (Z * (Z * Y) <= Z * (4.7 * (X * Y))) by (apply Rmult_le_compat_l; assumption). unfold Q1. lra. }
    set (Q0 := 187.2 * ((Z + Y) ^ 2 * (24 * X + 7.8 * Y))).
    assert (P0 : 0 <= Q0) by (unfold Q0; pose proof (pow2_ge_0 (Z + Y)); nra).
    assert (S2 : 0 <= s ^ 2 * ((Z + Y) * Q2)) by (apply Rmult_le_pos; [apply pow2_ge_0 | apply Rmult_le_pos; lra]).
    assert (S1 : 0 <= s * Q1) by (apply Rmult_le_pos; assumption).
    match goal with |- ?l <= 0 => replace l with (- (s ^ 2 * ((Z + Y) * Q2) + s * Q1 + Q0)) by (unfold Q0, Q1, Q2; lra) end. lra.
  Qed.
  Lemma root_cmp a b x y : 0 <= a -> 0 <= x -> 0 <= y -> b ^ 2 * x <= a ^ 2 * y -> b * sqrt x <= a * sqrt y.
  Proof.
    intros A X Y H. destruct (Rle_dec b 0) as [B|B].
    - pose proof (sqrt_pos x). pose proof (sqrt_pos y). apply Rle_trans with 0; nra.
    - apply Rnot_le_lt in B. rewrite <- (sqrt_pow2 a A), <- (sqrt_pow2 b) by lra.
      rewrite <- !sqrt_mult by (try assumption; apply pow2_ge_0). apply sqrt_le_1_alt. exact H.
  Qed.
  Definition hi (c t : R) : R :=
    sqrt ((d * t + tg) ^ 2 + (L * t) ^ 2) + c * sqrt (vs + (d * t + tg) ^ 2 / (7.8 + c ^ 2) + (L * t) ^ 2 / (24 + c ^ 2)).
  Hypothesis Hr : d <= 4.7 * p.
  Lemma hi_mono c x y : zd <= x -> x <= y -> hi c x <= hi c y.
  Proof.
    intros Hx H. destruct (Req_dec L 0) as [L0|L0].
    - unfold hi. rewrite L0. pose proof (pow2_ge_0 c) as C2.
      assert (U : forall t, zd <= t -> 0 <= d * t + tg) by (intros t T; rewrite Ht; nra).
      assert (R1 : forall t, zd <= t -> sqrt ((d * t + tg) ^ 2 + (0 * t) ^ 2) = d * t + tg).
      { intros t T. replace ((d * t + tg) ^ 2 + (0 * t) ^ 2) with ((d * t + tg) ^ 2) by ring. apply sqrt_pow2. auto. }
      rewrite !R1 by lra.
      assert (P : 0 <= / (7.8 + c ^ 2)) by (left; apply Rinv_0_lt_compat; lra).
      pose proof (lip c vs (/ (7.8 + c ^ 2)) 1 (d * x + tg) (d * y + tg) Hv P Rle_0_1 ltac:(rewrite pow1; apply z_frac) ltac:(nra)) as E.
      rewrite !Rmult_1_r in E.
      replace (vs + (d * x + tg) ^ 2 / (7.8 + c ^ 2) + (0 * x) ^ 2 / (24 + c ^ 2)) with (vs + / (7.8 + c ^ 2) * (d * x + tg) ^ 2) by (field; lra).
      replace (vs + (d * y + tg) ^ 2 / (7.8 + c ^ 2) + (0 * y) ^ 2 / (24 + c ^ 2)) with (vs + / (7.8 + c ^ 2) * (d * y + tg) ^ 2) by (field; lra).
      exact E.
    - destruct H as [H| ->]; [|right; reflexivity]. pose proof (pow2_ge_0 c) as C2.
      set (r := fun t => (d * t + tg) ^ 2 + (L * t) ^ 2).
      set (w := fun t => vs + (d * t + tg) ^ 2 / (7.8 + c ^ 2) + (L * t) ^ 2 / (24 + c ^ 2)).
      assert (Lp : forall t, zd <= t -> 0 < (L * t) ^ 2).
      { intros t T. rewrite Rpow_mult_distr. apply Rmult_lt_0_compat; apply pow_lt_0_2 || idtac; nra. }
      assert (Rp : forall t, zd <= t -> 0 < r t) by (intros t T; unfold r; pose proof (Lp t T); pose proof (pow2_ge_0 (d * t + tg)); lra).
      assert (Wp : forall t, zd <= t -> 0 < w t).
      { intros t T. unfold w. pose proof (sq_div_nonneg (d * t + tg) 7.8 c ltac:(lra)).
        assert (0 < (L * t) ^ 2 / (24 + c ^ 2)) by (apply Rdiv_lt_0_compat; [apply Lp; exact T | lra]). lra. }
      set (f' := fun t => ((d * t + tg) * d + L * t * L) / sqrt (r t) + c * ((d * t + tg) * d / (7.8 + c ^ 2) + L * t * L / (24 + c ^ 2)) / sqrt (w t)).
      destruct (MVT_cor2 (hi c) f' x y H) as (t & E & T).
      { intros t T. apply is_derive_Reals. unfold hi. pose proof (Rp t ltac:(lra)) as A. pose proof (Wp t ltac:(lra)) as B.
        assert (sqrt (r t) <> 0) by (apply Rgt_not_eq, sqrt_lt_R0; exact A). assert (sqrt (w t) <> 0) by (apply Rgt_not_eq, sqrt_lt_R0; exact B).
        unfold f'. auto_derive.
        - repeat split; try exact A; exact B.
        - change (sqrt ((d * t + tg) * ((d * t + tg) * 1) + L * t * (L * t * 1))) with (sqrt (r t)).
          change (sqrt (vs + (d * t + tg) * ((d * t + tg) * 1) * / (7.8 + c * (c * 1)) + L * t * (L * t * 1) * / (24 + c * (c * 1)))) with (sqrt (w t)).
          set (sr := sqrt (r t)) in *. set (sw := sqrt (w t)) in *. clearbody sr sw. field. repeat split; try assumption; simpl in C2; lra. }
      assert (0 <= f' t); [|nra]. pose proof (Rp t ltac:(lra)) as A. pose proof (Wp t ltac:(lra)) as B.
      assert (A' : 0 < sqrt (r t)) by (apply sqrt_lt_R0; exact A). assert (B' : 0 < sqrt (w t)) by (apply sqrt_lt_R0; exact B).
      assert (Tp : 0 < t) by lra.
      apply (Rmult_le_reg_r (t * (sqrt (r t) * sqrt (w t)))); [apply Rmult_lt_0_compat; [|apply Rmult_lt_0_compat]; assumption|].
      rewrite Rmult_0_l.
      set (X := (d * t + tg) ^ 2). set (Y := (L * t) ^ 2). set (Z := (d * t + tg) * (d * t)).
      replace (f' t * (t * (sqrt (r t) * sqrt (w t)))) with
        ((Z + Y) * sqrt (w t) - (- c * (Z / (7.8 + c ^ 2) + Y / (24 + c ^ 2))) * sqrt (r t))
        by (unfold f', X, Y, Z; field; repeat split; lra).
      assert (U : 0 <= d * t + tg) by (rewrite Ht; nra).
      assert (HZ : 0 <= Z) by (unfold Z; apply Rmult_le_pos; [exact U | apply Rmult_le_pos; lra]). assert (HY : 0 <= Y) by apply pow2_ge_0. assert (HX : 0 <= X) by apply pow2_ge_0.
      assert (ZX : Z <= 4.7 * X). { unfold Z, X. assert (K : d * t <= 4.7 * (d * t + tg)) by (rewrite Ht; clear - Hp Hd Hz Hr T Hx; nra).
        replace (4.7 * (d * t + tg) ^ 2) with ((d * t + tg) * (4.7 * (d * t + tg))) by (simpl; lra). apply Rmult_le_compat_l; assumption. }
      apply Rge_le, Rge_minus, Rle_ge. apply root_cmp; try lra.
      apply Rle_trans with ((Z + Y) ^ 2 * (X / (7.8 + c ^ 2) + Y / (24 + c ^ 2))).
      + replace (r t) with (X + Y) by reflexivity.
        apply Rminus_le. pose proof (mob_poly (c ^ 2) X Y Z C2 HX HY HZ ZX) as Q.
        set (N := ((c ^ 2 + 7.8) * (c ^ 2 + 24)) ^ 2). assert (0 < N) by (unfold N; apply pow_lt; nra).
        match goal with |- ?l <= 0 => replace l with ((c ^ 2 * (X + Y) * ((c ^ 2 + 24) * Z + (c ^ 2 + 7.8) * Y) ^ 2 - (Z + Y) ^ 2 * ((c ^ 2 + 24) * X + (c ^ 2 + 7.8) * Y) * ((c ^ 2 + 7.8) * (c ^ 2 + 24))) / N) by (unfold N; field; lra) end.
        apply Rmult_le_reg_r with N; [assumption|]. unfold Rdiv. rewrite Rmult_assoc, Rinv_l by lra. lra.
      + apply Rmult_le_compat_l; [apply pow2_ge_0|]. unfold w. fold X Y. lra.
  Qed.
  Lemma mob_low c t : t <= 0 -> mob c t = t * sqrt (m ^ 2 + L ^ 2) + c * sqrt (vs + (m * t) ^ 2 / (7.8 + c ^ 2) + (L * t) ^ 2 / (24 + c ^ 2)).
  Proof.
    intro T. unfold mob, sv. rewrite u_low by exact T. destruct T as [T| ->]; [rewrite dv_neg by exact T; reflexivity | rewrite !Rmult_0_l; reflexivity].
  Qed.
  Lemma mob_mid c t : 0 <= t -> t <= zd -> mob c t = t * sqrt (p ^ 2 + L ^ 2) + c * sqrt (vs + (p * t) ^ 2 / (7.8 + c ^ 2) + (L * t) ^ 2 / (24 + c ^ 2)).
  Proof. intros T S. unfold mob, sv. rewrite !dv_mid by assumption. reflexivity. Qed.
  Lemma mob_high c t : zd <= t -> mob c t = hi c t.
  Proof.
    intros T. unfold mob, sv, hi. rewrite u_high by exact T. f_equal. rewrite zroot by (pose proof (pow2_ge_0 (dv t)); pose proof (pow2_ge_0 L); lra).
    destruct (Rle_dec 0 t); [|lra]. f_equal. rewrite <- (u_high t T). ring.
  Qed.
  Lemma mob_mono c x y : x <= y -> mob c x <= mob c y.
  Proof.
    intro H.
    assert (M1 : forall x y, x <= y -> y <= 0 -> mob c x <= mob c y) by (intros a b P Q; rewrite !mob_low by lra; apply mob_const; exact P).
    assert (M2 : forall x y, 0 <= x -> x <= y -> y <= zd -> mob c x <= mob c y) by (intros a b O P Q; rewrite !mob_mid by lra; apply mob_const; exact P).
    assert (M3 : forall x y, zd <= x -> x <= y -> mob c x <= mob c y) by (intros a b O P; rewrite !mob_high by lra; apply hi_mono; assumption).
    destruct (Rle_dec y 0) as [Y|Y]; [apply M1; lra|]. destruct (Rle_dec y zd) as [Y2|Y2].
    - destruct (Rle_dec x 0) as [X|X]; [|apply M2; lra]. apply Rle_trans with (mob c 0); [apply M1 | apply M2]; lra.
    - destruct (Rle_dec x 0) as [X|X].
      + apply Rle_trans with (mob c 0); [apply M1; lra|]. apply Rle_trans with (mob c zd); [apply M2 | apply M3]; lra.
      + destruct (Rle_dec x zd) as [X2|X2]; [|apply M3; lra]. apply Rle_trans with (mob c zd); [apply M2 | apply M3]; lra.
  Qed.
End dev.
