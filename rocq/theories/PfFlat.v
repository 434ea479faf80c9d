(** qlrpfl over straight ground against qlra over smooth ground. *)
From Coq Require Import Lra Lia.
From Verif Require Import RTac Frame SpecFlat Stats Prep PfFrame PfRegime PfLrGen PfTerminal PfHzns PfLsq PfDlthx PfPfl PfAvarReal PfTilt PfTilt2 PfTilt3.
Open Scope R_scope.
Implicit Types p q : prop RA.

Lemma clear_ground (h0 h1 g s t : R) : 0 < h0 -> 0 < h1 -> 0 < g -> 0 < s -> 0 < t -> s + t <= smooth_horizon h0 g + smooth_horizon h1 g ->
  g / 2 * s * t <= (h0 * t + h1 * s) / (s + t).
Proof.
  intros H0 H1 G S T L. unfold smooth_horizon in L. set (a := sqrt (2 * h0 / g)) in *. set (b := sqrt (2 * h1 / g)) in *.
  assert (P0 : 0 < 2 * h0 / g) by (apply Rdiv_lt_0_compat; lra). assert (P1 : 0 < 2 * h1 / g) by (apply Rdiv_lt_0_compat; lra).
  assert (A : a * a = 2 * h0 / g) by (apply sqrt_sqrt; lra). assert (B : b * b = 2 * h1 / g) by (apply sqrt_sqrt; lra).
  assert (PA : 0 < a) by (apply sqrt_lt_R0; exact P0). assert (PB : 0 < b) by (apply sqrt_lt_R0; exact P1).
  assert (E0 : h0 = g / 2 * (a * a)) by (rewrite A; field; lra). assert (E1 : h1 = g / 2 * (b * b)) by (rewrite B; field; lra).
  clearbody a b. subst h0 h1. clear A B P0 P1 H0 H1.
  assert (ST : 0 < s * t) by (apply Rmult_lt_0_compat; assumption).
  assert (K : s * t * ((s + t) * (s + t)) <= (a * a * t + b * b * s) * (s + t)).
  { assert (s * t * ((s + t) * (s + t)) <= s * t * ((a + b) * (a + b))) by (apply Rmult_le_compat_l; [lra|]; apply Rmult_le_compat; lra).
    assert (0 <= (a * t - b * s) * (a * t - b * s)) by apply Rle_0_sqr. assert ((a * a * t + b * b * s) * (s + t) = s * t * ((a + b) * (a + b)) + (a * t - b * s) * (a * t - b * s)) by ring. lra. }
  apply Rmult_le_reg_r with (s + t); [lra|].
  replace ((g / 2 * (a * a) * t + g / 2 * (b * b) * s) / (s + t) * (s + t)) with (g / 2 * (a * a * t + b * b * s)) by (field; lra).
  replace (g / 2 * s * t * (s + t)) with (g / 2 * (s * t * (s + t))) by ring. apply Rmult_le_compat_l; [lra|].
  apply Rmult_le_reg_r with (s + t); [lra|]. lra.
Qed.
Lemma straight_clear f c b (h0 h1 g : R) : well_formed f -> 0 < h0 -> 0 < h1 -> 0 < g -> straight f c b -> within_horizons f h0 h1 g -> unobstructed f h0 h1 g.
Proof.
  intros W H0 H1 G S L d a I. apply in_sights in I as [[-> ->]|[j [J [-> ->]]]]; [lra|]. destruct (wf_len f W) as (_ & _ & N1). pose proof (inner f W j J) as [P Q]. pose proof (len_pos f W) as DP.
  rewrite (S 0%nat), (S (intervals f)), (S j) by lia. pose proof W as (_ & X & _). change (num RA) with R in *. set (xi := pf_xi f : R) in *. set (s := INR j * xi) in *. set (t := path_length f - s).
  assert (K := clear_ground h0 h1 g s t H0 H1 G P ltac:(unfold t; lra)). unfold within_horizons in L. replace (s + t) with (path_length f) in K by (unfold t; ring). specialize (K L).
  unfold sight_angle. cbn [INR]. apply Rminus_le.
  assert (E : (c + b * INR j - (c + b * 0 + h0)) / s - g / 2 * s - ((c + b * INR (intervals f) + h1 - (c + b * 0 + h0)) / path_length f - g / 2 * path_length f)
    = (g / 2 * s * t - (h0 * t + h1 * s) / path_length f) / s).
  { unfold t, s, path_length. fold xi. field. repeat split; [lra | | ]; intro Z; revert P DP; unfold s, path_length; fold xi; rewrite Z; lra. }
  rewrite E. unfold Rdiv at 1. assert (0 < / s) by (apply Rinv_0_lt_compat; lra). apply mul_np; lra.
Qed.
Lemma window_ex f x1 x2 : well_formed f -> proper f x1 x2 -> exists lo hi, window f x1 x2 lo hi /\ (lo < hi <= intervals f)%nat.
Proof. intros W P. destruct (zlsq1_spec f x1 x2 W P) as (lo & hi & a & b & Wi & H & _). exists lo, hi. split; assumption. Qed.
Lemma rough_zero (h g : R) : rough_horizon h g 0 = smooth_horizon h g.
Proof. unfold rough_horizon. replace (0 / Rmax h 5) with 0 by (unfold Rdiv; ring). rewrite sqrt_0, Rmult_0_r, exp_0. ring. Qed.
(** The receiver over ground rising b per sample: raised by the drop of one sample. *)
Definition raised (h b : R) : R := h + Rmax (- b) 0.
Lemma smooth_le (h h' g : R) : 0 < h -> 0 < g -> h <= h' -> smooth_horizon h g <= smooth_horizon h' g.
Proof. intros H G L. unfold smooth_horizon. apply sqrt_le_1_alt. unfold Rdiv. apply Rmult_le_compat_r; [left; apply Rinv_0_lt_compat; exact G | lra]. Qed.
(** The geometry over straight ground. *)
Definition geom_entries (p p' : prop RA) (D h0 h1 g : R) : Prop :=
  p' = setn (setn (setn (setn (setn (setn (setn (setn p DIST D) DH 0) HE0 h0) HE1 h1) DL0 (smooth_horizon h0 g)) DL1 (smooth_horizon h1 g)) THE0 (takeoff_angle h0 g 0)) THE1 (takeoff_angle h1 g 0).
Lemma straight_geom p f v c b : path_entries p f v -> straight f c b -> within_horizons f (v HG0) (v HG1) (v GME) ->
  exists p', qlrpfl_geom RA p = Ok p' /\ geom_entries p p' (path_length f) (v HG0) (raised (v HG1) b) (v GME).
Proof.
  intros P S L. pose proof P as (Pp & W & V & H0 & H1 & G). pose proof (len_pos f W) as DP. destruct (wf_len f W) as (Ln & N & N1).
  destruct (hzns_spec f (v HG0) (v HG1) (v GME) W) as (t0 & t1 & d0 & d1 & Eh & I0 & I1 & L0 & L1 & U).
  destruct (U (straight_clear f c b _ _ _ W H0 H1 G S L)) as [-> ->]. set (D := path_length f) in *.
  set (x0 := setback (v HG0) D). set (x1 := D - setback (v HG1) D).
  assert (X0 : 0 < x0 <= D / 10) by (split; [apply Rmin_glb_lt; lra | apply Rmin_r]). assert (X1 : 0 < setback (v HG1) D <= D / 10) by (split; [apply Rmin_glb_lt; lra | apply Rmin_r]).
  assert (PR : proper f x0 x1) by (unfold proper, x1; fold D; lra). destruct (window_ex f x0 x1 W PR) as (lo & hi & Wi & Hi).
  pose proof (zlsq1_straight f x0 x1 lo hi c b W PR Wi (fun k K => S k ltac:(lia))) as Ez.
  pose proof (dlthx_straight f c b x0 x1 W ltac:(lra) ltac:(unfold x1; fold D; lra) S) as Ed.
  destruct (los_run f (v HG0) (v HG1) (v GME) 0 x0 x1 W H0 H1 G ltac:(lra) PR) as (za & zb & s & Ez' & S1 & El & _ & Sv).
  assert (Q := eq_trans (eq_sym Ez) Ez'). apply ok_inj in Q. injection Q as -> ->. clear Ez'. cbv zeta in El.
  assert (A0 : above_trend (v HG0) (ground f 0) c = v HG0). { unfold above_trend. rewrite (S 0%nat) by lia. cbn [INR]. rewrite Rmax_right by lra. ring. }
  assert (A1 : above_trend (v HG1) (ground f (intervals f - 1)) (c + b * INR (intervals f)) = raised (v HG1) b).
  { unfold above_trend. rewrite (S (intervals f - 1)%nat) by lia. rewrite minus_INR by lia. cbn [INR]. unfold raised. do 2 f_equal. ring. }
  rewrite A0, A1 in *. rewrite !rough_zero in Sv. fold D in Sv. unfold within_horizons in L. fold D in L.
  assert (LE : v HG1 <= raised (v HG1) b) by (unfold raised; pose proof (Rmax_r (- b) 0); lra). assert (SE := smooth_le (v HG1) (raised (v HG1) b) (v GME) H1 G LE).
  assert (s = 1) as ->. { destruct Sv as [Sv|Sv]; [exact Sv|]. assert (Dq : 0 < D / (smooth_horizon (v HG0) (v GME) + smooth_horizon (raised (v HG1) b) (v GME)) <= 1).
    { assert (0 < smooth_horizon (v HG0) (v GME) + smooth_horizon (raised (v HG1) b) (v GME)) by lra. split; [apply Rdiv_lt_0_compat; lra|]. apply Rmult_le_reg_r with (1 := H). unfold Rdiv. rewrite Rmult_assoc, Rinv_l by lra. lra. }
    rewrite Sv. set (y := D / _) in *. nra. }
  rewrite !Rmult_1_r, !rough_zero in El. unfold geom_entries. eexists. split; [|reflexivity].
  unfold qlrpfl_geom. unfold getpfl. rewrite Pp. cbn [opt_res bind]. cbn [n_mul n_Z RA]. change (num RA) with R. rewrite path_length_Z by exact W. fold D. cbv zeta.
  dsimp. unfold getn. rewrite (V HG0), (V HG1), (V GME) by (cbn; tauto). cbn [opt_res]. cbn [bind]. cbn [num RA] in Eh |- *. rewrite Eh. cbn [bind]. rewrite !pymin_R. cbn [n_mul n_lit n_sub n_add n_leb RA].
  replace (1 / 10 * D) with (D / 10) by lra. fold (setback (v HG0) D) (setback (v HG1) D). fold x0 x1. cbn [num RA] in Ed, El |- *. rewrite Ed. cbn [bind].
  destruct (r_leb (15 / 10 * D) (D + D)) eqn:Bo; rbool; [|lra]. fold D in El. rewrite El. reflexivity.
Qed.
