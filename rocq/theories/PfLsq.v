(** zlsq1 over the reals. *)
From Verif Require Import RTac Prep SpecTerrain PfSort PfMisc PfHzns PfRegime.
Open Scope R_scope.

(** ** Trapezoid sums *)
Lemma sum_ext (g h : nat -> R) l : (forall k, In k l -> g k = h k) -> fold_right Rplus 0 (map g l) = fold_right Rplus 0 (map h l).
Proof. intro E. rewrite (map_ext_in _ _ _ E). reflexivity. Qed.
Lemma sum_plus (g h : nat -> R) l : fold_right Rplus 0 (map (fun k => g k + h k) l) = fold_right Rplus 0 (map g l) + fold_right Rplus 0 (map h l).
Proof. induction l; cbn [map fold_right]; [ring | rewrite IHl; ring]. Qed.
Lemma sum_scal c (g : nat -> R) l : fold_right Rplus 0 (map (fun k => c * g k) l) = c * fold_right Rplus 0 (map g l).
Proof. induction l; cbn [map fold_right]; [ring | rewrite IHl; ring]. Qed.
Lemma trap_ext lo hi g h : (lo < hi)%nat -> (forall k, (lo <= k <= hi)%nat -> g k = h k) -> trapezoid lo hi g = trapezoid lo hi h.
Proof.
  intros L E. unfold trapezoid. rewrite (E lo), (E hi) by lia. rewrite (sum_ext g h); [reflexivity|]. intros k I. apply in_seq in I. apply E. lia.
Qed.
Lemma trap_plus lo hi g h : trapezoid lo hi (fun k => g k + h k) = trapezoid lo hi g + trapezoid lo hi h.
Proof. unfold trapezoid. rewrite sum_plus. lra. Qed.
Lemma trap_scal lo hi c g : trapezoid lo hi (fun k => c * g k) = c * trapezoid lo hi g.
Proof. unfold trapezoid. rewrite sum_scal. lra. Qed.
Lemma sum_1 s c : fold_right Rplus 0 (map (fun _ => 1) (seq s c)) = INR c.
Proof. revert s; induction c; intro s; cbn [seq map fold_right]; [reflexivity | rewrite IHc, S_INR; ring]. Qed.
(** moments about a centre *)
Lemma sum_x m s c : fold_right Rplus 0 (map (fun k => INR k - m) (seq s c)) = INR c * (INR s - m) + INR c * (INR c - 1) / 2.
Proof. revert s; induction c; intro s; cbn [seq map fold_right]; [cbn; lra | rewrite IHc, !S_INR; field]. Qed.
Lemma sum_xx m s c : fold_right Rplus 0 (map (fun k => (INR k - m) ^ 2) (seq s c)) =
  INR c * (INR s - m) ^ 2 + (INR s - m) * INR c * (INR c - 1) + INR c * (INR c - 1) * (2 * INR c - 1) / 6.
Proof. revert s; induction c; intro s; cbn [seq map fold_right]; [cbn; lra | rewrite IHc, !S_INR; field]. Qed.
Section moments.
Context (lo hi : nat) (L : (lo < hi)%nat).
Let n := INR (hi - lo).
Let xc := INR hi - n / 2.
Lemma hi_n : INR hi = INR lo + n.
Proof. unfold n. rewrite minus_INR by lia. ring. Qed.
Lemma cnt : INR (hi - lo - 1) = n - 1.
Proof. unfold n. rewrite (minus_INR (hi - lo) 1) by lia. reflexivity. Qed.
Lemma n_ge1 : 1 <= n.
Proof. unfold n. change 1 with (INR 1). apply le_INR. lia. Qed.
Lemma trap_1 : trapezoid lo hi (fun _ => 1) = n.
Proof. unfold trapezoid. rewrite sum_1, cnt. lra. Qed.
Lemma trap_x : trapezoid lo hi (fun k => INR k - xc) = 0.
Proof. unfold trapezoid. rewrite sum_x, cnt, S_INR. unfold xc. rewrite hi_n. field. Qed.
Lemma trap_xx : trapezoid lo hi (fun k => (INR k - xc) ^ 2) = n * (n ^ 2 + 2) / 12.
Proof. unfold trapezoid. rewrite sum_xx, cnt, S_INR. unfold xc. rewrite hi_n. field. Qed.
Lemma nn_pos : 0 < n * (n ^ 2 + 2) / 12.
Proof. pose proof n_ge1. pose proof (pow2_ge_0 n). apply Rdiv_lt_0_compat; [apply Rmult_lt_0_compat|]; lra. Qed.

(** The fitted line: mean m, slope s about xc. *)
Definition fit_mean (g : nat -> R) : R := trapezoid lo hi g / n.
Definition fit_slope (g : nat -> R) : R := trapezoid lo hi (fun k => g k * (INR k - xc)) * 12 / (n * (n ^ 2 + 2)).
Lemma fit_best (f : profile RA) : best_line f lo hi (fit_mean (ground f) - fit_slope (ground f) * xc) (fit_slope (ground f)).
Proof.
  intros a' b'. unfold misfit. set (g := ground f). set (m := fit_mean g). set (s := fit_slope g). pose proof n_ge1 as N. pose proof nn_pos as V.
  set (r := fun k => g k + (- m * 1 + - s * (INR k - xc))).
  assert (R1 : trapezoid lo hi r = 0).
  { unfold r. rewrite trap_plus, (trap_plus lo hi (fun _ => - m * 1)), (trap_scal lo hi (- m) (fun _ => 1)), (trap_scal lo hi (- s) (fun k => INR k - xc)), trap_1, trap_x.
    unfold m, fit_mean. field. lra. }
  assert (R2 : trapezoid lo hi (fun k => r k * (INR k - xc)) = 0).
  { unfold r. rewrite (trap_ext lo hi _ (fun k => g k * (INR k - xc) + (- m * (INR k - xc) + - s * (INR k - xc) ^ 2))) by (assumption || (intros; ring)).
    rewrite trap_plus, (trap_plus lo hi (fun k => - m * (INR k - xc))), (trap_scal lo hi (- m) (fun k => INR k - xc)), (trap_scal lo hi (- s) (fun k => (INR k - xc) ^ 2)), trap_x, trap_xx.
    unfold s, fit_slope. assert (n ^ 2 + 2 <> 0) by (pose proof (pow2_ge_0 n); lra). field. split; lra. }
  set (dm := m - (a' + b' * xc)). set (ds := s - b').
  assert (E : trapezoid lo hi (fun k => (g k - (a' + b' * INR k)) ^ 2) = trapezoid lo hi (fun k => (g k - (m - s * xc + s * INR k)) ^ 2) + (dm ^ 2 * n + ds ^ 2 * (n * (n ^ 2 + 2) / 12))).
  { rewrite (trap_ext lo hi _ (fun k => (g k - (m - s * xc + s * INR k)) ^ 2 + (2 * dm * r k + (2 * ds * (r k * (INR k - xc)) + (dm ^ 2 * 1 + (2 * dm * ds * (INR k - xc) + ds ^ 2 * (INR k - xc) ^ 2))))) L).
    2:{ intros k _. unfold dm, ds, r. ring. }
    rewrite trap_plus. f_equal. rewrite trap_plus, (trap_scal lo hi (2 * dm) r), R1.
    rewrite trap_plus, (trap_scal lo hi (2 * ds) (fun k => r k * (INR k - xc))), R2.
    rewrite trap_plus, (trap_scal lo hi (dm ^ 2) (fun _ => 1)), trap_1.
    rewrite trap_plus, (trap_scal lo hi (2 * dm * ds) (fun k => INR k - xc)), trap_x, (trap_scal lo hi (ds ^ 2) (fun k => (INR k - xc) ^ 2)), trap_xx. ring. }
  rewrite E. set (M := trapezoid lo hi _). pose proof (pow2_ge_0 dm) as P1. pose proof (pow2_ge_0 ds) as P2.
  assert (Q1 : 0 <= dm ^ 2 * n) by (apply Rmult_le_pos; lra). assert (Q2 : 0 <= ds ^ 2 * (n * (n ^ 2 + 2) / 12)) by (apply Rmult_le_pos; lra).
  split; [lra|]. intro H. assert (Z1 : dm ^ 2 * n = 0) by lra. assert (Z2 : ds ^ 2 * (n * (n ^ 2 + 2) / 12) = 0) by lra.
  apply Rmult_integral in Z1 as [Z1|Z1]; [|lra]. apply Rmult_integral in Z2 as [Z2|Z2]; [|lra].
  assert (D1 : dm = 0) by (destruct (Req_dec dm 0); [assumption | exfalso; apply (pow_nonzero dm 2); assumption]).
  assert (D2 : ds = 0) by (destruct (Req_dec ds 0); [assumption | exfalso; apply (pow_nonzero ds 2); assumption]).
  unfold dm, ds in D1, D2. assert (b' = s) by lra. subst b'. split; [lra | reflexivity].
Qed.
End moments.
Lemma best_unique f lo hi a b a' b' : best_line f lo hi a b -> best_line f lo hi a' b' -> a = a' /\ b = b'.
Proof. intros H H'. destruct (H a' b') as [L E]. destruct (H' a b) as [L' _]. destruct E as [-> ->]; [lra|]. auto. Qed.

(** ** The model *)
Lemma sum_shift (g : nat -> R) s c : fold_right Rplus 0 (map g (seq (S s) c)) = fold_right Rplus 0 (map (fun k => g (S k)) (seq s c)).
Proof. rewrite <- seq_shift, map_map. reflexivity. Qed.
Lemma loop_sum (f : profile RA) c j (x a b : R) : (j + c < length (pf_z f))%nat ->
  zlsq1_loop RA f c (Z.of_nat j) x a b = Ok ((a + fold_right Rplus 0 (map (ground f) (seq (S j) c)))%R,
    (b + fold_right Rplus 0 (map (fun k => ground f k * (x + (INR k - INR j))) (seq (S j) c)))%R).
Proof.
  revert j x a b; induction c as [|c IH]; intros j x a b H; cbn [zlsq1_loop].
  - cbn. rewrite !Rplus_0_r. reflexivity.
  - replace (Z.of_nat j + 1 + 2)%Z with (Z.of_nat (S j) + 2)%Z by lia. replace (Z.of_nat j + 1)%Z with (Z.of_nat (S j)) by lia. rewrite pfl_height by lia. cbn [bind].
    rewrite IH by lia. cbn [seq map fold_right]. cbn [n_add n_mul n_Z RA]. f_equal. f_equal.
    + ring.
    + rewrite !S_INR. replace (x + (INR j + 1 - INR j)) with (x + 1) by ring. rewrite (sum_ext (fun k => ground f k * (x + 1 + (INR k - (INR j + 1)))) (fun k => ground f k * (x + (INR k - INR j)))); [ring|].
      intros k _. ring.
Qed.
Lemma trunc_floor (x : R) : 0 <= x -> rtrunc x = rfloor x.
Proof. intro. unfold rtrunc. destruct (Rlt_dec x 0); [lra | reflexivity]. Qed.
Lemma floor_nat (x : R) : 0 <= x -> exists k : nat, rfloor x = Z.of_nat k /\ INR k <= x < INR k + 1.
Proof.
  intro H. pose proof (rfloor_spec x) as S. assert (P : (0 <= rfloor x)%Z).
  { assert (IZR (-1) < IZR (rfloor x)) by lra. apply lt_IZR in H0. lia. }
  exists (Z.to_nat (rfloor x)). rewrite INR_IZR_INZ, Z2Nat.id by lia. split; [reflexivity | exact S].
Qed.
Lemma window_run (f : profile RA) (x1 x2 : R) : well_formed f -> proper f x1 x2 ->
  exists lo hi, window f x1 x2 lo hi /\ (lo < hi <= intervals f)%nat /\ zlsq1_window RA f x1 x2 = Ok (Z.of_nat lo, Z.of_nat hi).
Proof.
  intros W (P1 & P2 & P3). destruct (wf_len f W) as (L & N & N1). pose proof W as (_ & X & _). set (xi := pf_xi f : R) in *. change (pf_xi f : R) with xi in X.
  assert (NP : 0 < INR (intervals f)) by (apply lt_0_INR; lia).
  assert (E1 : x1 / xi < x2 / xi) by (apply Rmult_lt_compat_r; [apply Rinv_0_lt_compat; exact X | exact P1]).
  assert (E2 : 0 < x2 / xi) by (apply Rdiv_lt_0_compat; assumption).
  assert (E3 : x1 / xi < INR (intervals f)). { apply Rmult_lt_reg_r with (1 := X). unfold path_length in P3. fold xi in P3. unfold Rdiv. rewrite Rmult_assoc, Rinv_l by lra. lra. }
  destruct (floor_nat (Rmax (x1 / xi) 0) (Rmax_r _ _)) as [lo [F1 B1]].
  destruct (floor_nat (Rmax (INR (intervals f) - x2 / xi) 0) (Rmax_r _ _)) as [u [F2 B2]].
  assert (Un : (u < intervals f)%nat). { apply INR_lt. assert (Rmax (INR (intervals f) - x2 / xi) 0 < INR (intervals f)) by (apply Rmax_lub_lt; lra). lra. }
  assert (Hi : INR (intervals f - u) = INR (intervals f) - INR u) by (apply minus_INR; lia).
  assert (Mn : Rmin (x2 / xi) (INR (intervals f)) = INR (intervals f) - Rmax (INR (intervals f) - x2 / xi) 0).
  { unfold Rmin, Rmax. destruct (Rle_dec (x2 / xi) _), (Rle_dec (INR _ - x2 / xi) _); lra. }
  assert (Wd : window f x1 x2 lo (intervals f - u)). { unfold window. fold xi. rewrite Hi, Mn. split; lra. }
  assert (Lt : (lo < intervals f - u)%nat).
  { apply INR_lt. assert (Rmax (x1 / xi) 0 < Rmin (x2 / xi) (INR (intervals f))) by (apply Rmax_lub_lt; apply Rmin_glb_lt; lra). destruct Wd as [? ?]. fold xi in H0, H1. lra. }
  exists lo, (intervals f - u)%nat. split; [exact Wd|]. split; [lia|].
  assert (X0 : xi <> 0) by lra.
  unfold zlsq1_window. cbn [n_div n_sub n_Z n_trunc RA]. change (pf_xi f) with xi. rewrite !r_div_ok by exact X0. cbn [bind].
  rewrite !pymax_R. change (num RA) with R in *. rewrite <- N, <- INR_IZR_INZ. rewrite !trunc_floor by apply Rmax_r. rewrite F1, F2. cbn [bind].
  replace (Z.of_nat (intervals f) - Z.of_nat u)%Z with (Z.of_nat (intervals f - u)) by lia. destruct (Z.leb_spec (Z.of_nat (intervals f - u)) (Z.of_nat lo)); [lia | reflexivity].
Qed.
Lemma zlsq1_run (f : profile RA) (x1 x2 : R) lo hi : well_formed f -> (lo < hi <= intervals f)%nat -> zlsq1_window RA f x1 x2 = Ok (Z.of_nat lo, Z.of_nat hi) ->
  let m := fit_mean lo hi (ground f) in let s := fit_slope lo hi (ground f) in let xc := INR hi - INR (hi - lo) / 2 in
  zlsq1 RA f x1 x2 = Ok ((m - s * xc)%R, (m + s * (INR (intervals f) - xc))%R).
Proof.
  intros W H Ew. cbv zeta. destruct (wf_len f W) as (L & N & N1). unfold zlsq1. rewrite Ew. cbn [bind].
  rewrite !pfl_height by lia. cbn [bind]. replace (Z.of_nat hi - Z.of_nat lo)%Z with (Z.of_nat (hi - lo)) by lia.
  replace (Z.to_nat (Z.of_nat (hi - lo) - 1)) with (hi - lo - 1)%nat by lia. rewrite loop_sum by (rewrite L; lia). cbn [bind].
  unfold avoid_zero_division. destruct (Z.eqb_spec (Z.of_nat (hi - lo)) 0) as [Z0|_]; [lia|].
  cbn [n_div n_mul n_add n_sub n_Z n_lit RA]. rewrite <- N. rewrite mult_IZR, plus_IZR, mult_IZR. rewrite <- !INR_IZR_INZ.
  pose proof (n_ge1 lo hi ltac:(lia)) as G1. assert (Hn : INR hi = INR lo + INR (hi - lo)) by (apply hi_n; lia).
  set (n := INR (hi - lo)) in *. assert (n * n + 2 <> 0) by nra. rewrite r_div_ok by lra. cbn [bind]. rewrite r_div_ok by (apply Rmult_integral_contrapositive_currified; [assumption | lra]). cbn [bind].
  match goal with |- Ok ((?A - ?B * ?X)%R, _) = Ok ((?M - ?S * ?Y)%R, _) => assert (EA : A = M); [|assert (EB : B = S); [|assert (EX : X = Y)]] end.
  - unfold fit_mean, trapezoid. fold n. unfold Rdiv. f_equal. lra.
  - unfold fit_slope. fold n. unfold trapezoid.
    rewrite (sum_ext (fun k => ground f k * (-5 / 10 * n + (INR k - INR lo))) (fun k => ground f k * (INR k - (INR hi - n / 2)))) by (intros; rewrite Hn; field).
    replace (INR lo - (INR hi - n / 2)) with (- n / 2) by (rewrite Hn; field). replace (INR hi - (INR hi - n / 2)) with (n / 2) by field.
    set (T := fold_right _ _ _). simpl (n ^ 2). field. split; [|lra]. replace (n * (n * 1)) with (n * n) by ring. assumption.
  - lra.
  - rewrite EA, EB, EX. reflexivity.
Qed.
Lemma zlsq1_spec (f : profile RA) (x1 x2 : R) : well_formed f -> proper f x1 x2 ->
  exists lo hi (a b : R), window f x1 x2 lo hi /\ (lo < hi <= intervals f)%nat /\ best_line f lo hi a b /\
    zlsq1 RA f x1 x2 = Ok (a, (a + b * INR (intervals f))%R).
Proof.
  intros W P. destruct (window_run f x1 x2 W P) as (lo & hi & Wd & H & E). pose proof (zlsq1_run f x1 x2 lo hi W H E) as Z0. cbv zeta in Z0.
  do 4 eexists. split; [exact Wd|]. split; [exact H|]. split; [apply fit_best; lia|]. rewrite Z0. f_equal. f_equal. ring.
Qed.
Lemma window_unique f x1 x2 lo hi lo' hi' : window f x1 x2 lo hi -> window f x1 x2 lo' hi' -> lo = lo' /\ hi = hi'.
Proof.
  intros [A B] [A' B']. split.
  - assert (INR lo < INR (S lo')) by (rewrite S_INR; lra). assert (INR lo' < INR (S lo)) by (rewrite S_INR; lra). apply INR_lt in H, H0. lia.
  - assert (INR hi < INR (S hi')) by (rewrite S_INR; lra). assert (INR hi' < INR (S hi)) by (rewrite S_INR; lra). apply INR_lt in H, H0. lia.
Qed.
(** Straight terrain, and adding a line *)
Lemma best_add f g lo hi a b c d : (lo < hi)%nat -> (forall k, (lo <= k <= hi)%nat -> ground g k = ground f k + (c + d * INR k)) -> best_line f lo hi a b -> best_line g lo hi (a + c) (b + d).
Proof.
  intros L G B a' b'. assert (E : forall u v, misfit g lo hi u v = misfit f lo hi (u - c) (v - d)).
  { intros u v. unfold misfit. apply trap_ext; [exact L|]. intros k K. rewrite (G k K). ring. }
  rewrite !E. replace (a + c - c) with a by ring. replace (b + d - d) with b by ring. destruct (B (a' - c) (b' - d)) as [B1 B2]. split; [exact B1|].
  intro H. destruct (B2 H). lra.
Qed.
Lemma best_straight f lo hi c d : (lo < hi)%nat -> (forall k, (lo <= k <= hi)%nat -> ground f k = c + d * INR k) -> best_line f lo hi c d.
Proof.
  intros L G. pose proof (fit_best lo hi L (Profile (pf_np f) (pf_xi f) [])) as B. set (a0 := fit_mean _ _ _ - _) in B. set (b0 := fit_slope _ _ _) in B.
  assert (Z0 : forall k, ground (Profile (pf_np f) (pf_xi f) []) k = 0) by (intro k; unfold ground; cbn; destruct k; reflexivity).
  assert (Z1 : best_line (Profile (pf_np f) (pf_xi f) []) lo hi 0 0).
  { intros a' b'. destruct (B 0 0) as [B1 _].
    assert (M0 : misfit (Profile (pf_np f) (pf_xi f) []) lo hi 0 0 = 0).
    { unfold misfit. rewrite (trap_ext lo hi _ (fun _ => 0 * 1) L) by (intros; rewrite Z0; ring). rewrite (trap_scal lo hi 0 (fun _ => 1)). ring. }
    assert (Pos : forall u v, 0 <= misfit (Profile (pf_np f) (pf_xi f) []) lo hi u v).
    { intros u v. unfold misfit, trapezoid. assert (S : forall l, 0 <= fold_right Rplus 0 (map (fun k => (ground (Profile (pf_np f) (pf_xi f) []) k - (u + v * INR k)) ^ 2) l)).
      { induction l; cbn [map fold_right]; [lra|]. match goal with |- 0 <= ?x ^ 2 + _ => pose proof (pow2_ge_0 x) end. lra. }
      match goal with |- 0 <= ?x ^ 2 / 2 + _ + ?y ^ 2 / 2 => pose proof (pow2_ge_0 x); pose proof (pow2_ge_0 y) end. specialize (S (seq (Datatypes.S lo) (hi - lo - 1))). lra. }
    split; [rewrite M0; apply Pos|]. intro H. destruct (B 0 0) as [Q1 Q2]. destruct Q2 as [<- <-]; [pose proof (Pos a0 b0); lra|].
    destruct (B a' b') as [_ Q]. apply Q. exact H. }
  pose proof (best_add (Profile (pf_np f) (pf_xi f) []) f lo hi 0 0 c d L) as A. rewrite !Rplus_0_l in A. apply A; [|exact Z1]. intros k K. rewrite (G k K), Z0. ring.
Qed.
Lemma best_scale f g lo hi a b c : (lo < hi)%nat -> (forall k, (lo <= k <= hi)%nat -> ground g k = c * ground f k) -> best_line f lo hi a b -> best_line g lo hi (c * a) (c * b).
Proof.
  intros L G B. destruct (Req_dec c 0) as [->|C].
  - rewrite !Rmult_0_l. apply best_straight; [exact L|]. intros k K. rewrite (G k K). ring.
  - intros a' b'. assert (E : forall u v, misfit g lo hi u v = c ^ 2 * misfit f lo hi (u / c) (v / c)).
    { intros u v. unfold misfit. rewrite <- trap_scal. apply trap_ext; [exact L|]. intros k K. rewrite (G k K). field. exact C. }
    assert (C2 : 0 < c ^ 2) by (rewrite <- Rsqr_pow2; apply Rsqr_pos_lt; exact C).
    rewrite !E. replace (c * a / c) with a by (field; exact C). replace (c * b / c) with b by (field; exact C). destruct (B (a' / c) (b' / c)) as [B1 B2]. split; [apply Rmult_le_compat_l; lra|].
    intro H. apply Rmult_eq_reg_l in H; [|lra]. destruct (B2 H) as [<- <-]. split; field; exact C.
Qed.

(** ** Consequences *)
Lemma zlsq1_straight (f : profile RA) (x1 x2 : R) lo hi (c d : R) : well_formed f -> proper f x1 x2 -> window f x1 x2 lo hi ->
  (forall k, (lo <= k <= hi)%nat -> ground f k = c + d * INR k) -> zlsq1 RA f x1 x2 = Ok (c, (c + d * INR (intervals f))%R).
Proof.
  intros W P Wd G. destruct (zlsq1_spec f x1 x2 W P) as (lo' & hi' & a & b & Wd' & H & B & ->). destruct (window_unique _ _ _ _ _ _ _ Wd Wd') as [<- <-].
  destruct (best_unique _ _ _ _ _ _ _ (best_straight f lo hi c d ltac:(lia) G) B) as [<- <-]. reflexivity.
Qed.
Lemma ground_map_seq np xi g n k : (k < n)%nat -> ground (Profile np xi (map g (seq 0 n))) k = g k.
Proof.
  intro H. unfold ground. cbn [pf_z]. change (num RA) with R in *. rewrite (nth_indep _ 0 (g 0%nat)) by (rewrite map_length, seq_length; exact H).
  rewrite map_nth. rewrite seq_nth by exact H. reflexivity.
Qed.
Lemma add_line_wf f a b : well_formed f -> well_formed (add_line f a b).
Proof. intros (A & B & C). unfold add_line, well_formed. cbn [pf_np pf_xi pf_z]. rewrite map_length, seq_length. auto. Qed.
Lemma add_line_ground f a b k : (k < length (pf_z f))%nat -> ground (add_line f a b) k = ground f k + (a + b * INR k).
Proof. intro H. unfold add_line. rewrite ground_map_seq by exact H. reflexivity. Qed.
Lemma scale_wf f c : well_formed f -> well_formed (scale f c).
Proof. intros (A & B & C). unfold scale, well_formed. cbn [pf_np pf_xi pf_z]. rewrite map_length. auto. Qed.
Lemma scale_ground f c k : (k < length (pf_z f))%nat -> ground (scale f c) k = c * ground f k.
Proof.
  intro H. unfold scale, ground. cbn [pf_z]. change (num RA) with R in *. rewrite (nth_indep _ 0 (c * 0)) by (rewrite map_length; exact H). rewrite map_nth. reflexivity.
Qed.
Lemma same_window f g x1 x2 lo hi : pf_np g = pf_np f -> pf_xi g = pf_xi f -> window g x1 x2 lo hi <-> window f x1 x2 lo hi.
Proof. intros E1 E2. unfold window, intervals. rewrite E1, E2. tauto. Qed.
Lemma same_proper f g x1 x2 : pf_np g = pf_np f -> pf_xi g = pf_xi f -> proper f x1 x2 -> proper g x1 x2.
Proof. intros E1 E2. unfold proper, path_length, intervals. rewrite E1, E2. tauto. Qed.
Lemma zlsq1_add_line (f : profile RA) (x1 x2 a b u v : R) : well_formed f -> proper f x1 x2 -> zlsq1 RA f x1 x2 = Ok (u, v) ->
  zlsq1 RA (add_line f a b) x1 x2 = Ok ((u + a)%R, (v + (a + b * INR (intervals f)))%R).
Proof.
  intros W P E. destruct (zlsq1_spec f x1 x2 W P) as (lo & hi & c & d & Wd & H & B & E'). rewrite E in E'. injection E' as -> ->.
  destruct (zlsq1_spec (add_line f a b) x1 x2 (add_line_wf f a b W) P) as (lo' & hi' & c' & d' & Wd' & H' & B' & ->).
  apply (same_window f (add_line f a b)) in Wd'; try reflexivity. destruct (window_unique _ _ _ _ _ _ _ Wd Wd') as [<- <-]. destruct (wf_len f W) as (L & _ & _).
  destruct (best_unique _ _ _ _ _ _ _ (best_add f (add_line f a b) lo hi c d a b ltac:(lia) (fun k K => add_line_ground f a b k ltac:(lia)) B) B') as [<- <-].
  change (intervals (add_line f a b)) with (intervals f). f_equal. f_equal. ring.
Qed.
Lemma zlsq1_scale (f : profile RA) (x1 x2 c u v : R) : well_formed f -> proper f x1 x2 -> zlsq1 RA f x1 x2 = Ok (u, v) ->
  zlsq1 RA (scale f c) x1 x2 = Ok ((c * u)%R, (c * v)%R).
Proof.
  intros W P E. destruct (zlsq1_spec f x1 x2 W P) as (lo & hi & a & d & Wd & H & B & E'). rewrite E in E'. injection E' as -> ->.
  destruct (zlsq1_spec (scale f c) x1 x2 (scale_wf f c W) P) as (lo' & hi' & c' & d' & Wd' & H' & B' & ->).
  apply (same_window f (scale f c)) in Wd'; try reflexivity. destruct (window_unique _ _ _ _ _ _ _ Wd Wd') as [<- <-]. destruct (wf_len f W) as (L & _ & _).
  destruct (best_unique _ _ _ _ _ _ _ (best_scale f (scale f c) lo hi a d c ltac:(lia) (fun k K => scale_ground f c k ltac:(lia)) B) B') as [<- <-].
  change (intervals (scale f c)) with (intervals f). f_equal. f_equal. ring.
Qed.
Lemma zlsq1_local (f g : profile RA) (x1 x2 : R) lo hi : well_formed f -> well_formed g -> pf_np g = pf_np f -> pf_xi g = pf_xi f -> proper f x1 x2 -> window f x1 x2 lo hi ->
  (forall k, (lo <= k <= hi)%nat -> ground g k = ground f k) -> zlsq1 RA g x1 x2 = zlsq1 RA f x1 x2.
Proof.
  intros Wf Wg E1 E2 P Wd G. destruct (zlsq1_spec f x1 x2 Wf P) as (lo' & hi' & c & d & Wd' & H & B & ->). destruct (window_unique _ _ _ _ _ _ _ Wd Wd') as [<- <-].
  destruct (zlsq1_spec g x1 x2 Wg (same_proper f g x1 x2 E1 E2 P)) as (lo' & hi' & c' & d' & Wd2 & H' & B' & ->).
  apply (same_window f g) in Wd2; try assumption. destruct (window_unique _ _ _ _ _ _ _ Wd Wd2) as [<- <-].
  destruct (best_unique _ _ _ _ _ _ _ (best_add f g lo hi c d 0 0 ltac:(lia) (fun k K => ltac:(rewrite (G k K); ring)) B) B') as [<- <-].
  unfold intervals. rewrite E1. f_equal. f_equal; ring.
Qed.
(** Degenerate windows *)
Lemma trunc_Z k : (0 <= k)%Z -> rtrunc (IZR k) = k.
Proof. intro H. rewrite trunc_floor by (apply IZR_le; exact H). apply rfloor_eq. lra. Qed.
Lemma window_degenerate (f : profile RA) k : well_formed f -> (0 <= k <= pf_np f)%Z ->
  zlsq1_window RA f (IZR k * (pf_xi f : R))%R (IZR k * (pf_xi f : R))%R = Ok (Z.max (k - 1) 0, (k - 1)%Z).
Proof.
  intros (N & X & _) K. set (xi := pf_xi f : R) in *. change (pf_xi f : R) with xi in X. assert (X0 : xi <> 0) by lra. unfold zlsq1_window. cbn [n_div n_sub n_Z n_trunc RA]. change (pf_xi f) with xi. rewrite !r_div_ok by exact X0. cbn [bind].
  rewrite !pymax_R. change (num RA) with R in *. replace (IZR k * xi / xi) with (IZR k) by (field; exact X0).
  rewrite <- minus_IZR. rewrite !Rmax_left by (apply IZR_le; lia). rewrite !trunc_Z by lia. cbn [bind].
  destruct (Z.leb_spec (pf_np f - (pf_np f - k)) k); [|lia]. f_equal. f_equal. lia.
Qed.
Lemma zlsq1_degenerate (f : profile RA) k : well_formed f -> (1 <= k <= pf_np f)%Z ->
  zlsq1 RA f (IZR k * (pf_xi f : R))%R (IZR k * (pf_xi f : R))%R = Err ZeroDivisionError.
Proof.
  intros W K. destruct (wf_len f W) as (L & N & N1). unfold zlsq1. rewrite window_degenerate by (assumption || lia). cbn [bind]. rewrite Z.max_l by lia.
  replace (k - 1)%Z with (Z.of_nat (Z.to_nat (k - 1))) by lia. rewrite pfl_height by lia. cbn [bind]. rewrite Z.sub_diag. cbn [zlsq1_loop Z.to_nat Z.sub Z.opp Z.add bind].
  unfold avoid_zero_division. cbn [Z.eqb bind]. cbn [n_div n_Z RA]. change ((0 * 0 + 2) * 0)%Z with 0%Z. unfold r_div. destruct (Req_EM_T 0 0) as [_|Q]; [reflexivity | elim Q; reflexivity].
Qed.
Lemma pfl_xi (f : profile RA) : pflget f 1 = Ok (pf_xi f).
Proof.
  unfold pflget, pyget, pfl_list. cbn [length]. rewrite !Nat2Z.inj_succ. cbn [Z.ltb Z.compare orb].
  destruct (Z.leb_spec (Z.succ (Z.succ (Z.of_nat (length (pf_z f))))) 1); [lia|]. reflexivity.
Qed.
Lemma zlsq1_origin (f : profile RA) : well_formed f -> exists v : R, zlsq1 RA f 0 0 = Ok ((- ground f 0)%R, v).
Proof.
  intros W. destruct (wf_len f W) as (L & N & N1). pose proof (window_degenerate f 0 W ltac:(lia)) as E. cbn [Z.sub Z.max Z.opp Z.add] in E.
  change (IZR 0 * (pf_xi f : R)) with (0 * (pf_xi f : R)) in E. rewrite Rmult_0_l in E.
  unfold zlsq1. rewrite E. cbn [bind]. change (Z.max (-1) 0) with 0%Z. change (0 + 2)%Z with (Z.of_nat 0 + 2)%Z. rewrite pfl_height by lia. cbn [bind]. change (0 - 1)%Z with (-1)%Z.
  change (-1 + 2)%Z with 1%Z. rewrite pfl_xi. cbn [bind]. change (-1 - 0)%Z with (-1)%Z. cbn [zlsq1_loop Z.to_nat Z.sub Z.opp Z.add bind].
  unfold avoid_zero_division. cbn [Z.eqb]. cbn [n_div n_mul n_add n_sub n_Z n_lit RA]. change ((-1 * -1 + 2) * -1)%Z with (-3)%Z. rewrite !r_div_ok by lra. cbn [bind].
  eexists. f_equal. f_equal. change (num RA) with R in *. field.
Qed.
