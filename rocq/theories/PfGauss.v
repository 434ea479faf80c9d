(** The Gaussian integral, and the normal tail as 1/2 minus an integral from 0. *)
From Coq Require Import Reals Lra.
From Coquelicot Require Import Coquelicot.
From Verif Require Import SpecNormal.
Open Scope R_scope.

Definition g0 (t : R) : R := exp (- (t ^ 2)).
Lemma g0_derive t : is_derive g0 t (- (2 * t) * g0 t).
Proof. unfold g0. auto_derive; [exact Logic.I|]. cbn [pow]. ring. Qed.
Lemma g0_cont t : continuous g0 t.
Proof. apply (ex_derive_continuous g0). eexists. apply g0_derive. Qed.
Lemma g0_int a b : ex_RInt g0 a b.
Proof. apply (ex_RInt_continuous (V := R_CompleteNormedModule)). intros; apply g0_cont. Qed.
Definition G (x : R) : R := RInt g0 0 x.
Lemma G_derive x : is_derive G x (g0 x).
Proof.
  unfold G. apply (is_derive_RInt g0 _ 0 x); [|apply g0_cont].
  exists (mkposreal 1 Rlt_0_1). intros y _. apply (RInt_correct (V := R_CompleteNormedModule)). apply g0_int.
Qed.
Definition jf (x t : R) : R := exp (- (x ^ 2 * (1 + t ^ 2))) / (1 + t ^ 2).
Definition J (x : R) : R := RInt (jf x) 0 1.
Lemma one_sq t : 0 < 1 + t ^ 2. Proof. pose proof (pow2_ge_0 t). lra. Qed.
Lemma jf_dx x t : is_derive (fun u => jf u t) x (- (2 * x) * exp (- (x ^ 2 * (1 + t ^ 2)))).
Proof. unfold jf. pose proof (one_sq t). auto_derive; [cbn [pow] in *; lra|]. cbn [pow] in *. field. lra. Qed.
Lemma jf_cont x t : continuous (jf x) t.
Proof.
  apply (ex_derive_continuous (jf x)). unfold jf. pose proof (one_sq t). auto_derive. lra.
Qed.
Lemma jf_int x a b : ex_RInt (jf x) a b.
Proof. apply (ex_RInt_continuous (V := R_CompleteNormedModule)). intros; apply jf_cont. Qed.
Lemma J_derive x : is_derive J x (RInt (fun t => - (2 * x) * exp (- (x ^ 2 * (1 + t ^ 2)))) 0 1).
Proof.
  unfold J.
  rewrite (RInt_ext _ (fun t => Derive (fun u => jf u t) x)).
  2:{ intros t _. symmetry. apply is_derive_unique, jf_dx. }
  apply is_derive_RInt_param.
  - exists (mkposreal 1 Rlt_0_1). intros y _ t _. eexists. apply jf_dx.
  - intros t _. apply (continuity_2d_pt_ext (fun u v => - (2 * u) * exp (- (u ^ 2 * (1 + v ^ 2))))).
    { intros u v. symmetry. apply is_derive_unique, jf_dx. }
    apply continuity_2d_pt_mult.
    + apply continuity_2d_pt_opp, continuity_2d_pt_mult; [apply continuity_2d_pt_const | apply continuity_2d_pt_id1].
    + apply (continuity_1d_2d_pt_comp exp).
      * apply derivable_continuous_pt, derivable_pt_exp.
      * apply continuity_2d_pt_opp, continuity_2d_pt_mult; cbn [pow].
        -- repeat apply continuity_2d_pt_mult; try apply continuity_2d_pt_id1; apply continuity_2d_pt_const.
        -- apply continuity_2d_pt_plus; [apply continuity_2d_pt_const|].
           repeat apply continuity_2d_pt_mult; try apply continuity_2d_pt_id2; apply continuity_2d_pt_const.
  - exists (mkposreal 1 Rlt_0_1). intros y _. apply jf_int.
Qed.
Lemma J_derive' x : is_derive J x (- (2 * (g0 x * G x))).
Proof.
  evar_last; [apply J_derive|].
  assert (E : RInt (fun t => x * g0 (x * t + 0)) 0 1 = G x).
  { transitivity (RInt g0 (x * 0 + 0) (x * 1 + 0)); [apply (RInt_comp_lin g0 x 0 0 1), g0_int|]. unfold G. f_equal; ring. }
  rewrite <- E. rewrite (RInt_ext _ (fun t => scal (- (2 * g0 x)) (x * g0 (x * t + 0)))).
  - rewrite (RInt_scal (V := R_CompleteNormedModule) (fun t => x * g0 (x * t + 0))). { unfold scal; cbn; unfold mult; cbn. ring. }
    apply (ex_RInt_continuous (V := R_CompleteNormedModule)). intros z _.
    apply (ex_derive_continuous (fun t => x * g0 (x * t + 0))). unfold g0. auto_derive. exact Logic.I.
  - intros t _. unfold scal; cbn -[pow]; unfold mult; cbn -[pow]. unfold g0.
    replace (- (x ^ 2 * (1 + t ^ 2))) with (- (x ^ 2) + - ((x * t + 0) ^ 2)) by ring. rewrite exp_plus. ring.
Qed.
Lemma GJ x : (G x) ^ 2 + J x = PI / 4.
Proof.
  assert (D : forall y, is_derive (fun y => (G y) ^ 2 + J y) y 0).
  { intro y. evar_last.
    - apply (is_derive_plus (fun y => G y ^ 2) J); [apply (is_derive_pow G 2); apply G_derive | apply J_derive'].
    - unfold plus; cbn. ring. }
  assert (C : G x ^ 2 + J x = G 0 ^ 2 + J 0).
  { destruct (MVT_gen (fun y => G y ^ 2 + J y) 0 x (fun _ => 0)) as [c [_ E]].
    - intros y _. apply D.
    - intros y _. apply (derivable_continuous_pt _ y). exists 0. apply is_derive_Reals, D.
    - lra. }
  assert (G0 : G 0 = 0) by (unfold G; rewrite RInt_point; reflexivity). rewrite C, G0.
  unfold J. rewrite (RInt_ext _ (fun t => / (1 + t ^ 2))).
  2:{ intros t _. unfold jf. replace (- (0 ^ 2 * (1 + t ^ 2))) with 0 by ring. rewrite exp_0. apply Rmult_1_l. }
  assert (I : is_RInt (fun t => / (1 + t ^ 2)) 0 1 (minus (atan 1) (atan 0))).
  { apply (is_RInt_derive atan).
    - intros t _. apply is_derive_Reals. evar_last; [apply derivable_pt_lim_atan|]. unfold Rsqr. field_simplify; [reflexivity| |]; pose proof (one_sq t); lra.
    - intros t _. pose proof (one_sq t). apply (ex_derive_continuous (fun t => / (1 + t ^ 2))). auto_derive. lra. }
  apply (is_RInt_unique (V := R_CompleteNormedModule)) in I. rewrite I, atan_0, atan_1. unfold minus, plus, opp; cbn. ring.
Qed.
Lemma J_bound x : 0 <= J x <= g0 x.
Proof.
  unfold J. split.
  - apply RInt_ge_0; [lra | apply jf_int|]. intros t _. unfold jf. pose proof (one_sq t). pose proof (exp_pos (- (x ^ 2 * (1 + t ^ 2)))).
    apply Rlt_le, Rdiv_lt_0_compat; assumption.
  - replace (g0 x) with (RInt (fun _ => g0 x) 0 1) by (rewrite RInt_const; unfold scal; cbn; unfold mult; cbn; ring).
    apply RInt_le; [lra | apply jf_int | apply ex_RInt_const|]. intros t _. unfold jf, g0. pose proof (one_sq t) as P. pose proof (pow2_ge_0 t).
    assert (exp (- (x ^ 2 * (1 + t ^ 2))) <= exp (- x ^ 2)).
    { assert (H0 : - (x ^ 2 * (1 + t ^ 2)) <= - x ^ 2) by (pose proof (pow2_ge_0 x); assert (0 <= x ^ 2 * t ^ 2) by (apply Rmult_le_pos; assumption); lra).
      destruct H0 as [H0| ->]; [left; apply exp_increasing; exact H0 | right; reflexivity]. }
    pose proof (exp_pos (- (x ^ 2))). apply Rmult_le_reg_r with (1 := P). unfold Rdiv. rewrite Rmult_assoc, Rinv_l by lra.
    assert (0 <= exp (- x ^ 2) * t ^ 2) by (apply Rmult_le_pos; lra). lra.
Qed.
Lemma g0_lim : is_lim g0 p_infty 0.
Proof.
  apply (is_lim_le_le_loc (fun _ => 0) (fun x => exp (- x))).
  - exists 1. intros x X. unfold g0. split; [left; apply exp_pos|]. left. apply exp_increasing. assert (x * 1 < x * x) by (apply Rmult_lt_compat_l; lra). cbn [pow]. lra.
  - apply is_lim_const.
  - apply (is_lim_comp exp Ropp p_infty 0 m_infty).
    + apply is_lim_exp_m.
    + apply (is_lim_opp (fun x => x) p_infty p_infty), is_lim_id.
    + exists 0. intros y _. discriminate.
Qed.
Lemma G_nonneg x : 0 <= x -> 0 <= G x.
Proof. intro. unfold G. apply RInt_ge_0; [lra | apply g0_int|]. intros; unfold g0. left; apply exp_pos. Qed.
Lemma G_lim : is_lim G p_infty (sqrt PI / 2).
Proof.
  assert (S : sqrt PI / 2 = sqrt (PI / 4)).
  { rewrite sqrt_div_alt by lra. replace 4 with (2 * 2) by ring. rewrite sqrt_square by lra. reflexivity. }
  rewrite S. apply (is_lim_ext_loc (fun x => sqrt (PI / 4 - J x))).
  - exists 0. intros x X. rewrite <- (GJ x). replace (G x ^ 2 + J x - J x) with (G x * G x) by ring. apply sqrt_square, G_nonneg. lra.
  - apply (is_lim_comp_continuous (fun x => PI / 4 - J x) sqrt p_infty (PI / 4)).
    + replace (PI / 4) with (PI / 4 - 0) by ring. apply (is_lim_minus' (fun _ => PI / 4 - 0) J).
      * replace (PI / 4 - 0) with (PI / 4) by ring. apply is_lim_const.
      * apply (is_lim_le_le_loc (fun _ => 0) g0); [|apply is_lim_const | apply g0_lim].
        exists 0. intros x _. apply J_bound.
    + apply continuous_sqrt.
Qed.

Lemma sqrt2 : 0 < sqrt 2. Proof. apply sqrt_lt_R0. lra. Qed.
Lemma sqrtPI : 0 < sqrt PI. Proof. apply sqrt_lt_R0, PI_RGT_0. Qed.
Lemma dens_cont t : continuous normal_density t.
Proof. apply (ex_derive_continuous normal_density). unfold normal_density. auto_derive. exact Logic.I. Qed.
Lemma dens_int a b : ex_RInt normal_density a b.
Proof. apply (ex_RInt_continuous (V := R_CompleteNormedModule)). intros; apply dens_cont. Qed.
Lemma dens_pos t : 0 < normal_density t.
Proof. unfold normal_density. apply Rdiv_lt_0_compat; [apply exp_pos|]. apply sqrt_lt_R0. pose proof PI_RGT_0. lra. Qed.
Lemma dens_RInt x : RInt normal_density 0 x = G (x / sqrt 2) / sqrt PI.
Proof.
  pose proof sqrt2. pose proof sqrtPI. pose proof PI_RGT_0.
  assert (E : RInt (fun t => scal (/ sqrt 2) (g0 (/ sqrt 2 * t + 0))) 0 x = G (x / sqrt 2)).
  { transitivity (RInt g0 (/ sqrt 2 * 0 + 0) (/ sqrt 2 * x + 0)); [apply (RInt_comp_lin g0 (/ sqrt 2) 0 0 x), g0_int|].
    unfold G. f_equal; field; lra. }
  rewrite <- E. rewrite (RInt_ext _ (fun t => scal (/ sqrt PI) (scal (/ sqrt 2) (g0 (/ sqrt 2 * t + 0))))).
  - rewrite (RInt_scal (V := R_CompleteNormedModule) (fun t => scal (/ sqrt 2) (g0 (/ sqrt 2 * t + 0)))). { unfold scal; cbn; unfold mult; cbn. field. lra. }
    apply (ex_RInt_continuous (V := R_CompleteNormedModule)). intros z _.
    apply (ex_derive_continuous (fun t => scal (/ sqrt 2) (g0 (/ sqrt 2 * t + 0)))). unfold scal; cbn; unfold mult; cbn. unfold g0. auto_derive. exact Logic.I.
  - intros t _. unfold normal_density, g0, scal; cbn -[pow]; unfold mult; cbn -[pow].
    replace (- (/ sqrt 2 * t + 0) ^ 2) with (- t ^ 2 / 2).
    + rewrite sqrt_mult by lra. field. lra.
    + rewrite Rplus_0_r, Rpow_mult_distr, pow_inv. replace (sqrt 2 ^ 2) with 2 by (rewrite <- Rsqr_pow2, Rsqr_sqrt; lra). field.
Qed.
Lemma dens_lim : is_lim (RInt normal_density 0) p_infty (1 / 2).
Proof.
  pose proof sqrt2. pose proof sqrtPI.
  apply (is_lim_ext (fun x => / sqrt PI * G (x / sqrt 2))). { intro x. rewrite dens_RInt. unfold Rdiv. ring. }
  replace (1 / 2) with (/ sqrt PI * (sqrt PI / 2)) by (field; lra).
  apply (is_lim_scal_l (fun x => G (x / sqrt 2)) (/ sqrt PI) p_infty (sqrt PI / 2)).
  apply (is_lim_comp G (fun x => x / sqrt 2) p_infty (sqrt PI / 2) p_infty).
  - apply G_lim.
  - unfold Rdiv. assert (R : Rbar_mult p_infty (/ sqrt 2) = p_infty).
    { apply is_Rbar_mult_unique. apply (is_Rbar_mult_p_infty_pos (/ sqrt 2)). cbn. apply Rinv_0_lt_compat. assumption. }
    pose proof (is_lim_scal_r (fun x => x) (/ sqrt 2) p_infty p_infty (is_lim_id _)) as L. rewrite R in L. exact L.
  - exists 0. intros y _. discriminate.
Qed.
Lemma RInt_split z b : RInt normal_density z b = RInt normal_density 0 b - RInt normal_density 0 z.
Proof.
  rewrite <- (RInt_Chasles normal_density 0 z b) by apply dens_int. unfold plus; cbn. ring.
Qed.
Lemma tail_value z : normal_tail z (1 / 2 - RInt normal_density 0 z).
Proof.
  unfold normal_tail. apply (is_lim_ext (fun b => RInt normal_density 0 b - RInt normal_density 0 z)).
  { intro b. symmetry. apply RInt_split. }
  apply (is_lim_minus' (RInt normal_density 0) (fun _ => RInt normal_density 0 z)); [apply dens_lim | apply is_lim_const].
Qed.
Lemma tail_unique z q : normal_tail z q -> q = 1 / 2 - RInt normal_density 0 z.
Proof. intro H. apply is_lim_unique in H. pose proof (is_lim_unique _ _ _ (tail_value z)) as E. rewrite E in H. congruence. Qed.
