(** qerf and qerfi over the reals. *)
From Verif Require Import RTac Misc PfRealRun.
From Interval Require Import Tactic.
Open Scope R_scope.

(** ** qerf *)
Definition qg (s : R) : R := (((1330274429/1000000000 * s + (-1821255987)/1000000000) * s + 1781477937/1000000000) * s + (-356563782)/1000000000) * s + 319381530/1000000000.
Definition qs (t : R) : R := 4317008/1000000 / (t + 4317008/1000000).
Definition qu (t : R) : R := exp ((-5)/10 * t ^ 2) * (398942280/1000000000) * qg (qs t) * qs t.

Lemma qerf_run z : qerf RA z = Ok (if Rle_dec 10 (Rabs z) then if Rlt_dec z 0 then 1 - 0 else 0
                                   else if Rlt_dec z 0 then 1 - qu (Rabs z) else qu (Rabs z)).
Proof.
  unfold qerf, qerf_b1, qerf_b2, qerf_b3, qerf_b4, qerf_b5, qerf_rp, qerf_rrt2pi. runfold.
  unfold r_leb, r_ltb. destruct (Rle_dec 10 (Rabs z)) as [H|H].
  - cbn [bind]. destruct (Rlt_dec z 0); reflexivity.
  - rewrite r_div_ok by (pose proof (Rabs_pos z); lra). cbn [bind]. rewrite r_powZ_2. cbn [bind].
    assert (E : z ^ 2 = Rabs z ^ 2) by (rewrite <- !Rsqr_pow2; apply Rsqr_abs).
    unfold qu, qg, qs. rewrite <- E. destruct (Rlt_dec z 0); reflexivity.
Qed.

Lemma qg_pos s : 0 <= s <= 1 -> 1 / 4 < qg s.
Proof. intro. unfold qg. interval with (i_bisect s, i_prec 53). Qed.
(** s·g(s) is increasing on [0,1]. *)
Lemma sqg_mono s s' : 0 <= s -> s <= s' -> s' <= 1 -> qg s * s <= qg s' * s'.
Proof.
  intros A B C. unfold qg.
  enough (0 <= (s' - s) * (319381530/1000000000 + (-356563782)/1000000000 * (s + s') + 1781477937/1000000000 * (s^2 + s*s' + s'^2)
      + (-1821255987)/1000000000 * (s^3 + s^2*s' + s*s'^2 + s'^3) + 1330274429/1000000000 * (s^4 + s^3*s' + s^2*s'^2 + s*s'^3 + s'^4))) by lra.
  apply Rmult_le_pos; [lra|]. assert (0 <= s <= 1) by lra. assert (0 <= s' <= 1) by lra.
  interval with (i_bisect s, i_bisect s', i_depth 20, i_prec 53).
Qed.
Lemma qs_bounds t : 0 <= t -> 0 < qs t <= 1.
Proof.
  intro. unfold qs. assert (D : 0 < t + 4317008/1000000) by lra. split; [apply Rdiv_lt_0_compat; lra|].
  apply Rmult_le_reg_r with (1 := D). unfold Rdiv at 1. rewrite Rmult_assoc, Rinv_l by lra. lra.
Qed.
Lemma qs_mono t t' : 0 <= t -> t <= t' -> qs t' <= qs t.
Proof. intros. unfold qs, Rdiv at 1 3. apply Rmult_le_compat_l; [lra|]. apply Rinv_le_contravar; lra. Qed.
Lemma qu_pos t : 0 <= t -> 0 < qu t.
Proof.
  intro T. unfold qu. pose proof (qs_bounds t T). pose proof (qg_pos (qs t) ltac:(lra)).
  apply Rmult_lt_0_compat; [|lra]. apply Rmult_lt_0_compat; [|lra]. apply Rmult_lt_0_compat; [apply exp_pos | lra].
Qed.
Lemma exp_le x y : x <= y -> exp x <= exp y.
Proof. intros [H| ->]; [left; apply exp_increasing; exact H | right; reflexivity]. Qed.
Lemma qu_anti t t' : 0 <= t -> t <= t' -> qu t' <= qu t.
Proof.
  intros A B. unfold qu. rewrite !Rmult_assoc.
  pose proof (qs_bounds t A). pose proof (qs_bounds t' ltac:(lra)). pose proof (qs_mono t t' A B).
  pose proof (sqg_mono (qs t') (qs t) ltac:(lra) ltac:(lra) ltac:(lra)). pose proof (qg_pos (qs t') ltac:(lra)).
  assert (0 <= qg (qs t') * qs t') by (apply Rmult_le_pos; lra).
  apply Rmult_le_compat; [left; apply exp_pos | apply Rmult_le_pos; lra | | apply Rmult_le_compat_l; lra].
  apply exp_le. assert (t ^ 2 <= t' ^ 2) by (apply pow_incr; lra). lra.
Qed.
Lemma qu_0 : qu 0 < 1 / 2.
Proof. unfold qu, qs, qg. interval with (i_prec 60). Qed.
Lemma qu_half t : 0 <= t -> 0 < qu t < 1 / 2.
Proof. intro T. pose proof (qu_pos t T). pose proof (qu_anti 0 t ltac:(lra) T). pose proof qu_0. lra. Qed.

Lemma qerf_total z : exists v : R, qerf RA z = Ok v /\ 0 <= v <= 1.
Proof.
  rewrite qerf_run. eexists. split; [reflexivity|]. pose proof (qu_half (Rabs z) (Rabs_pos z)).
  destruct (Rle_dec _ _), (Rlt_dec _ _); lra.
Qed.
Lemma qerf_refl (z v w : R) : z <> 0 -> qerf RA z = Ok v -> qerf RA (- z)%R = Ok w -> w = 1 - v.
Proof.
  intros N. rewrite !qerf_run, Rabs_Ropp. intros V W.
  assert (V' := f_equal (fun r => match r with Ok a => a | Err _ => 0 end) V). cbn in V'.
  assert (W' := f_equal (fun r => match r with Ok a => a | Err _ => 0 end) W). cbn in W'. subst.
  destruct (Rle_dec _ _), (Rlt_dec z 0), (Rlt_dec (- z) 0); lra.
Qed.
Lemma qerf_zero : exists v : R, qerf RA 0 = Ok v /\ 1 / 2 - 1 / 10 ^ 8 < v < 1 / 2.
Proof.
  rewrite qerf_run, Rabs_R0. destruct (Rle_dec _ _); [lra|]. destruct (Rlt_dec _ _); [lra|]. eexists. split; [reflexivity|].
  split; [unfold qu, qs, qg; interval with (i_prec 60) | apply qu_0].
Qed.
Lemma qerf_anti (z z' v v' : R) : z <= z' -> qerf RA z = Ok v -> qerf RA z' = Ok v' -> v' <= v.
Proof.
  intros L. rewrite !qerf_run. intros V W.
  assert (V' := f_equal (fun r => match r with Ok a => a | Err _ => 0 end) V). cbn in V'.
  assert (W' := f_equal (fun r => match r with Ok a => a | Err _ => 0 end) W). cbn in W'. subst.
  pose proof (qu_half (Rabs z) (Rabs_pos z)). pose proof (qu_half (Rabs z') (Rabs_pos z')).
  destruct (Rlt_dec z 0) as [A|A], (Rlt_dec z' 0) as [B|B].
  - assert (L' : Rabs z' <= Rabs z) by (rewrite !Rabs_left by lra; lra). pose proof (qu_anti _ _ (Rabs_pos z') L').
    destruct (Rle_dec _ _), (Rle_dec _ _); lra.
  - destruct (Rle_dec _ _), (Rle_dec _ _); lra.
  - lra.
  - assert (L' : Rabs z <= Rabs z') by (rewrite !Rabs_right by lra; lra). pose proof (qu_anti _ _ (Rabs_pos z) L').
    destruct (Rle_dec _ _), (Rle_dec _ _); lra.
Qed.
Lemma qerf_far (z : R) : 10 <= z -> qerf RA z = Ok 0 /\ qerf RA (- z)%R = Ok 1.
Proof.
  intro H. rewrite !qerf_run, Rabs_Ropp, Rabs_right by lra. destruct (Rle_dec 10 z); [|lra].
  destruct (Rlt_dec z 0); [lra|]. destruct (Rlt_dec (- z) 0); [|lra]. split; f_equal; lra.
Qed.

(** ** qerfi *)
(** Rounding to the nearest integer (ties to even) is odd and monotone. *)
Lemma rfloor_spec x : IZR (rfloor x) <= x < IZR (rfloor x) + 1.
Proof. unfold rfloor. pose proof (base_Int_part x). lra. Qed.
Lemma rfloor_eq x k : IZR k <= x < IZR k + 1 -> rfloor x = k.
Proof.
  intro H. pose proof (rfloor_spec x) as F. assert (IZR (rfloor x) < IZR (k + 1)) by (rewrite plus_IZR; lra).
  assert (IZR k < IZR (rfloor x + 1)) by (rewrite plus_IZR; lra). apply lt_IZR in H0, H1. lia.
Qed.
Lemma rrint_spec x : Rabs (x - IZR (rrint x)) <= 1 / 2 /\ (Rabs (x - IZR (rrint x)) = 1 / 2 -> Z.even (rrint x) = true).
Proof.
  unfold rrint. pose proof (rfloor_spec x) as F. set (f := rfloor x) in *. clearbody f.
  destruct (Rlt_dec _ _) as [A|A]; [|destruct (Rlt_dec _ _) as [B|B]].
  - rewrite Rabs_right by lra. split; [lra|]. intro. lra.
  - rewrite plus_IZR. rewrite Rabs_left by lra. split; [lra|]. intro; lra.
  - destruct (Z.even f) eqn:E.
    + rewrite Rabs_right by lra. split; [lra | auto].
    + rewrite plus_IZR. rewrite Rabs_left by lra. split; [lra|]. intros _. rewrite Z.even_add, E. reflexivity.
Qed.
Lemma rrint_unique x k : Rabs (x - IZR k) <= 1 / 2 -> (Rabs (x - IZR k) = 1 / 2 -> Z.even k = true) -> rrint x = k.
Proof.
  intros A B. destruct (rrint_spec x) as [C D]. set (m := rrint x) in *. clearbody m.
  destruct (Z.eq_dec m k) as [|N]; [assumption|exfalso].
  assert (E : Rabs (IZR m - IZR k) <= 1).
  { replace (IZR m - IZR k) with ((x - IZR k) - (x - IZR m)) by ring.
    unfold Rminus at 1. eapply Rle_trans; [apply Rabs_triang|]. rewrite Rabs_Ropp. lra. }
  rewrite <- minus_IZR, <- abs_IZR in E. apply le_IZR in E.
  assert (m = k + 1 \/ m = k - 1)%Z as [-> | ->] by lia.
  - rewrite plus_IZR in *. assert (x - IZR k = 1 / 2) by (unfold Rabs in A, C; destruct (Rcase_abs _), (Rcase_abs _); lra).
    assert (X : Z.even k = true) by (apply B; rewrite H; apply Rabs_right; lra).
    assert (Y : Z.even (k + 1) = true) by (apply D; replace (x - (IZR k + 1)) with (- (1 / 2)) by lra; rewrite Rabs_Ropp; apply Rabs_right; lra).
    rewrite Z.even_add, X in Y. discriminate.
  - rewrite minus_IZR in *. assert (x - IZR k = - (1 / 2)) by (unfold Rabs in A, C; destruct (Rcase_abs _), (Rcase_abs _); lra).
    assert (X : Z.even k = true) by (apply B; rewrite H, Rabs_Ropp; apply Rabs_right; lra).
    assert (Y : Z.even (k - 1) = true) by (apply D; replace (x - (IZR k - 1)) with (1 / 2) by lra; apply Rabs_right; lra).
    rewrite Z.even_sub, X in Y. discriminate.
Qed.
Lemma rrint_opp x : rrint (- x) = (- rrint x)%Z.
Proof.
  destruct (rrint_spec x) as [A B]. assert (E : - x - IZR (- rrint x) = - (x - IZR (rrint x))) by (rewrite opp_IZR; ring).
  apply rrint_unique; rewrite E, Rabs_Ropp; [exact A|]. intro. rewrite Z.even_opp. auto.
Qed.
Lemma rrint_mono x y : x <= y -> (rrint x <= rrint y)%Z.
Proof.
  intro L. destruct (rrint_spec x) as [A A'], (rrint_spec y) as [B B']. set (m := rrint x) in *. set (n := rrint y) in *. clearbody m n.
  destruct (Z_le_gt_dec m n) as [|G]; [assumption|exfalso]. assert (G1 : (n + 1 <= m)%Z) by lia. apply IZR_le in G1. rewrite plus_IZR in G1.
  assert (x = y /\ x - IZR m = - (1/2) /\ IZR m = IZR n + 1) as [-> [X E]] by (unfold Rabs in A, B; destruct (Rcase_abs _), (Rcase_abs _); lra).
  assert (m = n + 1)%Z by (apply eq_IZR; rewrite plus_IZR; exact E). subst m.
  assert (Z.even (n + 1) = true) by (apply A'; rewrite X, Rabs_Ropp; apply Rabs_right; lra).
  assert (Z.even n = true) by (apply B'; replace (y - IZR n) with (1 / 2) by lra; apply Rabs_right; lra).
  rewrite Z.even_add, H0 in H. discriminate.
Qed.
Lemma rrint_Z k : rrint (IZR k) = k.
Proof. apply rrint_unique; rewrite Rminus_diag_eq, ?Rabs_R0 by reflexivity; lra. Qed.

(** The tail approximation before rounding. *)
Definition iN (i : R) : R := (10328/1000000 * i + 802853/1000000) * i + 2515516698/1000000000.
Definition iD (i : R) : R := ((1308/1000000 * i + 189269/1000000) * i + 1432788/1000000) * i + 1.
Definition ih (i : R) : R := i - iN i / iD i.
Definition it (q : R) : R := Rmax (5/10 - Rabs (5/10 - q)) (1/1000000).
Definition iy (t : R) : R := ih (sqrt (-2 * ln t)).

Lemma it_bounds q : 1/1000000 <= it q <= 5/10.
Proof. unfold it. split; [apply Rmax_r|]. apply Rmax_lub; [pose proof (Rabs_pos (5/10 - q)); lra | lra]. Qed.
Lemma iD_pos i : 0 <= i -> 1 <= iD i.
Proof.
  intro. unfold iD. enough (0 <= ((1308/1000000 * i + 189269/1000000) * i + 1432788/1000000) * i) by lra.
  apply Rmult_le_pos; [|lra]. enough (0 <= (1308/1000000 * i + 189269/1000000) * i) by lra. apply Rmult_le_pos; lra.
Qed.
Lemma ih_mono i j : 0 <= i -> i <= j -> ih i <= ih j.
Proof.
  intros A B. unfold ih. enough (iN j / iD j <= iN i / iD i) by lra.
  pose proof (iD_pos i A). pose proof (iD_pos j ltac:(lra)).
  apply Rmult_le_reg_r with (iD i * iD j); [apply Rmult_lt_0_compat; lra|].
  replace (iN j / iD j * (iD i * iD j)) with (iN j * iD i) by (field; lra).
  replace (iN i / iD i * (iD i * iD j)) with (iN i * iD j) by (field; lra).
  clear H H0. unfold iN, iD.
  set (n0 := 2515516698/1000000000). set (n1 := 802853/1000000). set (n2 := 10328/1000000).
  set (d1 := 1432788/1000000). set (d2 := 189269/1000000). set (d3 := 1308/1000000).
  enough (0 <= (j - i) * ((n0 * d1 - n1) + (n0 * d2 - n2) * (i + j) + n0 * d3 * (i^2 + i*j + j^2)
     + (n1 * d2 - n2 * d1) * (i * j) + n1 * d3 * (i * j * (i + j)) + n2 * d3 * (i^2 * j^2))) by lra.
  apply Rmult_le_pos; [lra|]. assert (0 <= i * j) by (apply Rmult_le_pos; lra).
  assert (0 <= i^2) by apply pow2_ge_0. assert (0 <= j^2) by apply pow2_ge_0.
  assert (0 <= n0 * d1 - n1) by (unfold n0, n1, d1; lra). assert (0 <= n0 * d2 - n2) by (unfold n0, n2, d2; lra).
  assert (0 <= n1 * d2 - n2 * d1) by (unfold n1, n2, d1, d2; lra).
  assert (0 <= n0 * d3) by (unfold n0, d3; lra). assert (0 <= n1 * d3) by (unfold n1, d3; lra). assert (0 <= n2 * d3) by (unfold n2, d3; lra).
  clearbody n0 n1 n2 d1 d2 d3. assert (0 <= i * j * (i + j)) by (apply Rmult_le_pos; lra). assert (0 <= i^2 * j^2) by (apply Rmult_le_pos; lra).
  do 5 (apply Rplus_le_le_0_compat; [|apply Rmult_le_pos; lra]). lra.
Qed.
Lemma iy_anti t t' : 0 < t -> t <= t' -> t' <= 1 -> iy t' <= iy t.
Proof.
  intros A B C. unfold iy. apply ih_mono; [apply sqrt_pos|]. pose proof (ln_le_mono t t' A B).
  assert (ln t' <= 0) by (rewrite <- ln_1; apply ln_le_mono; lra). apply sqrt_le_1_alt. lra.
Qed.
Lemma iy_half : Rabs (iy (5/10)) < 1 / 100000.
Proof. unfold iy, ih, iN, iD. interval with (i_prec 60). Qed.

Lemma qerfi1_run (q : R) : qerfi1 RA q = Ok (IZR (rrint ((if Rlt_dec (5/10 - q) 0 then - iy (it q) else iy (it q)) * 10000)) / 10000).
Proof.
  unfold qerfi1, qerfi_c0, qerfi_c1, qerfi_c2, qerfi_d1, qerfi_d2, qerfi_d3. pose proof (it_bounds q) as T.
  assert (M : pymax (A:=RA) (n_sub (a:=RA) (n_lit (a:=RA) 5 10) (n_abs (a:=RA) (n_sub (a:=RA) (n_lit (a:=RA) 5 10) q))) (n_lit (a:=RA) 1 1000000) = it q).
  { unfold pymax. cbn [n_ltb RA n_sub n_lit n_abs]. unfold it, r_ltb, Rmax. destruct (Rlt_dec _ _), (Rle_dec _ _); lra. }
  rewrite M. runfold. rewrite r_log_ok by lra. cbn [bind].
  assert (ln (it q) <= 0) by (rewrite <- ln_1; apply ln_le_mono; lra).
  rewrite r_sqrt_ok by lra. cbn [bind]. set (i := sqrt _). assert (0 <= i) by apply sqrt_pos.
  pose proof (iD_pos i H0). rewrite r_div_ok by (unfold iD in H1; lra). cbn [bind]. unfold r_round.
  change (IZR (10 ^ 4)) with 10000. unfold iy, ih, iN, iD, r_ltb. fold i. destruct (Rlt_dec _ _); reflexivity.
Qed.
Lemma it_refl q : it (1 - q) = it q.
Proof. unfold it. replace (5/10 - (1 - q)) with (- (5/10 - q)) by lra. rewrite Rabs_Ropp. reflexivity. Qed.
Lemma rr_half : rrint (iy (5/10) * 10000) = 0%Z.
Proof.
  pose proof iy_half as H. assert (K : Rabs (iy (5/10) * 10000 - IZR 0) < 1 / 2).
  { rewrite Rminus_0_r, Rabs_mult, (Rabs_right 10000) by lra. lra. }
  apply rrint_unique; lra.
Qed.
Lemma it_half : it (5/10) = 5/10.
Proof. unfold it. replace (5/10 - 5/10) with 0 by lra. rewrite Rabs_R0. unfold Rmax; destruct (Rle_dec _ _); lra. Qed.
Lemma qerfi1_half : qerfi1 RA (1/2)%R = Ok 0.
Proof.
  rewrite qerfi1_run. replace (1/2) with (5/10) by lra. rewrite it_half. destruct (Rlt_dec _ _); [lra|]. rewrite rr_half. f_equal. lra.
Qed.
Lemma qerfi1_odd (q v w : R) : qerfi1 RA q = Ok v -> qerfi1 RA (1 - q)%R = Ok w -> w = - v.
Proof.
  rewrite !qerfi1_run, it_refl. intros V W.
  assert (V' := f_equal (fun r => match r with Ok a => a | Err _ => 0 end) V). cbn in V'.
  assert (W' := f_equal (fun r => match r with Ok a => a | Err _ => 0 end) W). cbn in W'. subst.
  clear V W. destruct (Rlt_dec (5/10 - (1 - q)) 0) as [A|A], (Rlt_dec (5/10 - q) 0) as [B|B]; try lra.
  - rewrite <- (Ropp_mult_distr_l (iy _)), rrint_opp, opp_IZR. lra.
  - rewrite <- (Ropp_mult_distr_l (iy _)), rrint_opp, opp_IZR. lra.
  - assert (q = 5/10) by lra. subst q. rewrite it_half, rr_half. lra.
Qed.
Lemma qerfi1_anti (q q' v v' : R) : q <= q' -> qerfi1 RA q = Ok v -> qerfi1 RA q' = Ok v' -> v' <= v.
Proof.
  intro L. rewrite !qerfi1_run. intros V W.
  assert (V' := f_equal (fun r => match r with Ok a => a | Err _ => 0 end) V). cbn in V'.
  assert (W' := f_equal (fun r => match r with Ok a => a | Err _ => 0 end) W). cbn in W'. subst.
  apply Rmult_le_compat_r; [lra|]. apply IZR_le.
  pose proof (it_bounds q). pose proof (it_bounds q').
  assert (Z0 : forall t, 1/1000000 <= t <= 5/10 -> (0 <= rrint (iy t * 10000))%Z).
  { intros t T. rewrite <- rr_half. apply rrint_mono. apply Rmult_le_compat_r; [lra|]. apply iy_anti; lra. }
  assert (Z1 : forall t, 1/1000000 <= t <= 5/10 -> (rrint (- iy t * 10000) <= 0)%Z).
  { intros t T. rewrite <- Ropp_mult_distr_l, rrint_opp. pose proof (Z0 t T). lia. }
  clear V W. destruct (Rlt_dec (5/10 - q') 0) as [A|A], (Rlt_dec (5/10 - q) 0) as [B|B]; try lra.
  - apply rrint_mono. apply Rmult_le_compat_r; [lra|]. apply Ropp_le_contravar. apply iy_anti; try lra.
    unfold it. apply Rle_max_compat_r. rewrite !Rabs_left by lra. lra.
  - etransitivity; [apply Z1 | apply Z0]; assumption.
  - apply rrint_mono. apply Rmult_le_compat_r; [lra|]. apply iy_anti; try lra.
    unfold it. apply Rle_max_compat_r. rewrite !Rabs_right by lra. lra.
Qed.
Lemma qerfi1_sat (q q' : R) : q <= 1/1000000 -> q' <= 1/1000000 -> qerfi1 RA q = qerfi1 RA q'.
Proof.
  assert (G : forall q, q <= 1/1000000 -> it q = 1/1000000).
  { intros r R0. unfold it. apply Rmax_right. rewrite Rabs_right by lra. lra. }
  intros A B. rewrite !qerfi1_run, !G by assumption. destruct (Rlt_dec _ _), (Rlt_dec _ _); try lra; reflexivity.
Qed.
Lemma qerfi1_total (q : R) : exists v : R, qerfi1 RA q = Ok v.
Proof. rewrite qerfi1_run. eauto. Qed.
Lemma qerfi_total (q : list R) : exists v : list R, qerfi RA q = Ok v /\ length v = length q /\
  forall k x y, nth_error q k = Some x -> nth_error v k = Some y -> qerfi1 RA x = Ok y.
Proof.
  unfold qerfi. induction q as [|x q [v [E [N G]]]].
  - exists []. repeat split; auto. intros [|k]; discriminate.
  - destruct (qerfi1_total x) as [y Y]. exists (y :: v). cbn [mapM]. change (fun x => qerfi1 RA x) with (qerfi1 RA). rewrite Y. cbn [bind]. rewrite E. cbn [bind length].
    repeat split; [congruence|]. intros [|k] a b; cbn [nth_error]; [congruence | apply G].
Qed.
(** The saturated value. *)
Lemma qerfi1_max : qerfi1 RA (1/1000000)%R = Ok (47533/10000).
Proof.
  rewrite qerfi1_run. destruct (Rlt_dec _ _); [lra|]. replace (it (1/1000000)) with (1/1000000).
  2:{ unfold it. symmetry. apply Rmax_right. rewrite Rabs_right by lra. lra. }
  rewrite (rrint_unique _ 47533); [reflexivity| |].
  - unfold iy, ih, iN, iD. interval with (i_prec 60).
  - intro H. exfalso. revert H. apply Rlt_not_eq. unfold iy, ih, iN, iD. interval with (i_prec 60).
Qed.

(** On lists *)
Lemma qerfi_one (q : R) : qerfi RA [q] = (let! v := qerfi1 RA q in Ok [v]).
Proof. unfold qerfi. cbn [mapM]. destruct (qerfi1 RA q); reflexivity. Qed.
Lemma qerfi_one_inv (q v : R) : qerfi RA [q] = Ok [v] -> qerfi1 RA q = Ok v.
Proof. rewrite qerfi_one. destruct (qerfi1 RA q); cbn; congruence. Qed.
Lemma qerfi_pointwise (q : list R) : exists v : list R, qerfi RA q = Ok v /\ length v = length q /\
  forall k x y, nth_error q k = Some x -> nth_error v k = Some y -> qerfi RA [x] = Ok [y].
Proof.
  destruct (qerfi_total q) as [v [E [N G]]]. exists v. repeat split; auto. intros k x y X Y. rewrite qerfi_one.
  rewrite (G k x y X Y). reflexivity.
Qed.
Lemma qerfi_odd (q v w : R) : qerfi RA [q] = Ok [v] -> qerfi RA [(1 - q)%R] = Ok [w] -> w = - v.
Proof. intros V W. apply qerfi_one_inv in V, W. eapply qerfi1_odd; eassumption. Qed.
Lemma qerfi_anti (q q' v v' : R) : q <= q' -> qerfi RA [q; q'] = Ok [v; v'] -> v' <= v.
Proof.
  intros L V. unfold qerfi in V. cbn [mapM] in V. destruct (qerfi1 RA q) eqn:A; [|discriminate]. destruct (qerfi1 RA q') eqn:B; [|discriminate].
  cbn [bind] in V. assert (a = v /\ a0 = v') as [-> ->] by (split; congruence). eapply qerfi1_anti; eassumption.
Qed.
Lemma qerfi_sat (q : R) : q <= 1 / 1000000 -> qerfi RA [q] = Ok [(47533 / 10000)%R].
Proof. intro H. rewrite qerfi_one, (qerfi1_sat q (1 / 1000000)), qerfi1_max by lra. reflexivity. Qed.
Lemma qerfi_half : qerfi RA [(1 / 2)%R] = Ok [0].
Proof. rewrite qerfi_one, qerfi1_half. reflexivity. Qed.
Lemma qerfi_tenth : exists v w : R, qerfi RA [(1/10)%R] = Ok [v] /\ qerfi RA [(1 - 1/10)%R] = Ok [w] /\ 128/100 < v < 129/100 /\ w = - v.
Proof.
  destruct (qerfi1_total (1/10)) as [v V]. destruct (qerfi1_total (1 - 1/10)) as [w W]. exists v, w. rewrite !qerfi_one, V, W.
  split; [reflexivity|]. split; [reflexivity|]. split; [|eapply qerfi1_odd; eassumption].
  rewrite qerfi1_run in V. assert (V' := f_equal (fun r => match r with Ok a => a | Err _ => 0 end) V). cbn in V'. subst v.
  destruct (Rlt_dec _ _); [lra|]. replace (it (1/10)) with (1/10).
  2:{ unfold it. rewrite Rabs_right by lra. rewrite Rmax_left; lra. }
  destruct (rrint_spec (iy (1/10) * 10000)) as [B _]. assert (12805 <= iy (1/10) * 10000 <= 12895).
  { unfold iy, ih, iN, iD. split; interval with (i_prec 60). }
  unfold Rabs in B. destruct (Rcase_abs _); lra.
Qed.
