(** Totality of alos, of the line-of-sight coefficients and of the scatter line over the exact reals. *)
From Verif Require Import Frame SpecLr PfFrame PfLrGen PfRegime PfCurves PfCurves2 PfH0f PfAtten PfAvarReal PfStats PfSetup PfScat PfLos PfLosRef PfRealRun SpecTotal PfTotal Arith.
Open Scope R_scope.

Lemma c_div_ok (x y : R * R) : cnorm2 y <> 0 -> @c_div RA x y = Ok (cquot x y).
Proof.
  intro N. assert (exists z, @c_div RA x y = Ok z) as [z E].
  { destruct x as [ar ai], y as [br bi]. unfold cnorm2 in N. cbn [fst snd] in N. unfold c_div. cbn [n_leb n_eqb n_abs n_Z RA n_div n_mul n_add n_sub].
    destruct (r_leb (Rabs bi) (Rabs br)) eqn:B; rbool.
    - assert (Nb : br <> 0). { intros ->. rewrite Rabs_R0 in B. assert (bi = 0) by (destruct (Req_dec bi 0); [assumption|]; pose proof (Rabs_pos_lt bi H); lra). subst. lra. }
      rewrite (proj2 (r_eqb_false (Rabs br) 0)) by (apply Rabs_no_R0; exact Nb). rewrite r_div_ok by exact Nb. cbn [bind].
      assert (br + bi * (bi / br) <> 0). { intro Z. apply N. replace (br * br + bi * bi) with (br * (br + bi * (bi / br))) by (field; exact Nb). rewrite Z. ring. }
      rewrite !r_div_ok by assumption. cbn [bind]. eauto.
    - assert (Nb : bi <> 0). { intros ->. rewrite Rabs_R0 in B. pose proof (Rabs_pos br). lra. }
      rewrite r_div_ok by exact Nb. cbn [bind].
      assert (br * (br / bi) + bi <> 0). { intro Z. apply N. replace (br * br + bi * bi) with (bi * (br * (br / bi) + bi)) by (field; exact Nb). rewrite Z. ring. }
      rewrite !r_div_ok by assumption. cbn [bind]. eauto. }
  destruct (c_div_inv x y z E) as [_ ->]. exact E.
Qed.

Lemma sq_sum_0 a b : a ^ 2 + b ^ 2 = 0 -> a = 0 /\ b = 0.
Proof. intro H. apply Rplus_sqr_eq_0. unfold Rsqr. lra. Qed.
Section Alos.
Context (p : prop RA) (v : nkey -> R) (d : R).
Hypothesis V : values p alos_keys v.
Hypothesis W : 0 < v WN. Hypothesis D : 0 <= v DH. Hypothesis H0 : 0 < v HE0. Hypothesis H1 : 0 < v HE1. Hypothesis Z : 0 < v ZGR. Hypothesis D0 : 0 < d.

Lemma graze_pos : 0 < graze v d < 1.
Proof using H0 H1 D0.
  unfold graze. assert (0 < v HE0 + v HE1) by lra. set (h := v HE0 + v HE1) in *.
  assert (P : 0 < sqrt (d ^ 2 + h ^ 2)) by (apply sqrt_lt_R0; nra). split; [apply Rdiv_pos; assumption|].
  apply (Rmult_lt_reg_r (sqrt (d ^ 2 + h ^ 2))); [exact P|]. unfold Rdiv. rewrite Rmult_assoc, Rinv_l, Rmult_1_r, Rmult_1_l by lra.
  rewrite <- (sqrt_pow2 h) at 1 by lra. apply sqrt_lt_1_alt. split; nra.
Qed.
Lemma rough_nonneg : 0 <= roughness v d.
Proof using D D0.
  unfold roughness. apply Rmult_le_pos; [|left; apply exp_pos]. pose proof (irregularity_pos v d D ltac:(lra)). lra.
Qed.
Lemma dh_value : dh_at RA d (v DH) = Ok (irregularity_at v d).
Proof using.
  unfold dh_at. runfold. rewrite r_div_ok by lra. cbn [bind]. f_equal. unfold irregularity_at. replace (8 / 10) with 0.8 by lra. replace (50000 / 1) with 50000 by lra. reflexivity.
Qed.
Lemma rough_value : rough RA (irregularity_at v d) = Ok (roughness v d).
Proof using D D0.
  assert (P := irregularity_pos v d D ltac:(lra)). destruct (runs_rough (irregularity_at v d) (fun _ => True) P (fun _ _ => I)) as (s & E & _).
  rewrite E. f_equal. apply rough_inv in E as [_ E]. exact E.
Qed.
Definition quot_v : R * R := cquot (graze v d - v ZGR, - v ZGI) (graze v d + v ZGR, v ZGI).
Lemma quot_zero : cnorm2 (rough_reflection v d) = 0 <-> ~ reflects v d.
Proof using H0 H1 D0 Z.
  pose proof graze_pos as [G _]. unfold rough_reflection. rewrite cnorm2_scale.
  assert (N : cnorm2 (graze v d + v ZGR, v ZGI) <> 0) by (unfold cnorm2; cbn [fst snd]; nra).
  rewrite cnorm2_quot by exact N. set (e := exp _). assert (E : 0 < e) by apply exp_pos. unfold reflects.
  assert (X : cnorm2 (graze v d - v ZGR, - v ZGI) = (graze v d - v ZGR) ^ 2 + v ZGI ^ 2) by (unfold cnorm2; cbn [fst snd]; ring). rewrite X. split.
  - intro Q. assert (Q2 : (graze v d - v ZGR) ^ 2 + v ZGI ^ 2 = 0).
    { destruct (Req_dec ((graze v d - v ZGR) ^ 2 + v ZGI ^ 2) 0); [assumption|]. exfalso. revert Q. apply Rmult_integral_contrapositive_currified; [nra|].
      apply Rmult_integral_contrapositive_currified; [assumption | apply Rinv_neq_0_compat; exact N]. }
    apply sq_sum_0 in Q2 as [Q2 Q3]. intros [A|A]; apply A; lra.
  - intro Q. assert (A : v ZGI = 0) by (destruct (Req_dec (v ZGI) 0); tauto). assert (B : v ZGR = graze v d) by (destruct (Req_dec (v ZGR) (graze v d)); tauto).
    rewrite A, B. unfold Rdiv. ring.
Qed.
Lemma refl_norm : reflects v d -> cnorm2 (reflection v d) < 1.
Proof using H0 H1 D0 Z W D.
  intro RF. pose proof graze_pos as [G G1].
  assert (NZ : cnorm2 (rough_reflection v d) <> 0) by (rewrite quot_zero; tauto).
  unfold reflection. cbv zeta. destruct (Rlt_dec (cnorm2 (rough_reflection v d)) (Rmax 0.25 (graze v d))).
  - pose proof (cnorm2_pos (rough_reflection v d)). rewrite cnorm2_scale, pow2_sqrt by (apply Rdiv_nonneg; lra). unfold Rdiv. rewrite Rmult_assoc, Rinv_l, Rmult_1_r by exact NZ. exact G1.
  - unfold rough_reflection. rewrite cnorm2_scale.
    assert (N : 0 < cnorm2 (graze v d + v ZGR, v ZGI)) by (unfold cnorm2; cbn [fst snd]; nra). rewrite cnorm2_quot by lra.
    assert (Pe : 0 < exp (- Rmin 10 (v WN * roughness v d * graze v d)) <= 1).
    { split; [apply exp_pos|]. rewrite <- exp_0. pose proof rough_nonneg. assert (0 <= Rmin 10 (v WN * roughness v d * graze v d)).
      { apply Rmin_glb; [lra|]. apply Rmult_le_pos; [apply Rmult_le_pos|]; lra. }
      destruct (Req_dec (Rmin 10 (v WN * roughness v d * graze v d)) 0) as [E|E]; [rewrite E, Ropp_0; lra|]. left. apply exp_increasing. lra. }
    set (e := exp _) in *. assert (e ^ 2 <= 1) by nra.
    assert (Q : 0 <= cnorm2 (graze v d - v ZGR, - v ZGI) / cnorm2 (graze v d + v ZGR, v ZGI) < 1).
    { split; [apply Rdiv_nonneg; [apply cnorm2_pos | exact N]|]. apply (Rmult_lt_reg_r (cnorm2 (graze v d + v ZGR, v ZGI))); [exact N|].
      unfold Rdiv. rewrite Rmult_assoc, Rinv_l, Rmult_1_r, Rmult_1_l by lra. unfold cnorm2. cbn [fst snd]. nra. }
    nra.
Qed.
Lemma alos_refl_runs : alos_refl RA d p = if Req_EM_T (cnorm2 (rough_reflection v d)) 0 then Err ZeroDivisionError else Ok (graze v d, reflection v d).
Proof using H0 H1 D0 Z W D V.
  pose proof graze_pos as [G G1].
  match goal with |- _ = ?r => set (T := fun m : res (R * (R * R)) => m = r); change (T (alos_refl RA d p)) end.
  unfold alos_refl. sr V. se dh_value. se rough_value. sr V. sr V. runfold. se (r_powZ_2 d). se (r_powZ_2 (v HE0 + v HE1)).
  se (r_sqrt_ok ValueError (d ^ 2 + (v HE0 + v HE1) ^ 2) ltac:(nra)).
  sd ltac:(apply Rgt_not_eq; apply sqrt_lt_R0; nra). 
  match goal with |- context [c_div] => idtac end. change ((v HE0 + v HE1) / sqrt (d ^ 2 + (v HE0 + v HE1) ^ 2)) with (graze v d).
  sr V. sr V.
  match goal with |- T (bind (@c_div RA ?x ?y) _) => assert (EC : @c_div RA x y = Ok quot_v) end.
  { rewrite c_div_ok by (unfold cnorm2; cbn [fst snd]; nra). unfold quot_v. do 2 f_equal; f_equal; ring. }
  se EC. clear EC. sr V.
  match goal with |- context [exp ?a] => set (e := exp a); assert (EE : e = exp (- Rmin 10 (v WN * roughness v d * graze v d))) end.
  { unfold e. do 2 f_equal. exact (pymin_R 10 (v WN * roughness v d * graze v d)). }
  clearbody e. cbn [bind].
  set (rr := rough_reflection v d) in *. match goal with |- context [sqrt (?a * ?a + ?b * ?b)] =>
    assert (R1 : a = fst rr) by (unfold rr, rough_reflection; cbn [cscale fst snd]; rewrite <- EE; unfold quot_v; ring);
    assert (R2 : b = snd rr) by (unfold rr, rough_reflection; cbn [cscale fst snd]; rewrite <- EE; unfold quot_v; ring) end.
  rewrite R1, R2. clear R1 R2. se (r_powZ_2 (sqrt (fst rr * fst rr + snd rr * snd rr))).
  rewrite (pow2_sqrt (fst rr * fst rr + snd rr * snd rr)) by exact (cnorm2_pos rr). fold (cnorm2 rr).
  pose proof (cnorm2_pos rr) as NN. unfold T. unfold reflection. fold rr. cbv zeta. replace (25 / 100) with 0.25 by lra.
  destruct (Rlt_dec (cnorm2 rr) (Rmax 0.25 (graze v d))) as [L|L].
  - assert (B : (r_ltb (cnorm2 rr) 0.25 || r_ltb (cnorm2 rr) (graze v d))%bool = true).
    { apply orb_true_iff. unfold Rmax in L. destruct (Rle_dec 0.25 (graze v d)); [right | left]; apply r_ltb_true; exact L. }
    rewrite B. destruct (Req_EM_T (cnorm2 rr) 0) as [Q|Q].
    + rewrite Q. unfold r_div at 1. destruct (Req_EM_T 0 0); [reflexivity | congruence].
    + rewrite r_div_ok by exact Q. cbn [bind]. rewrite r_sqrt_ok by (apply Rdiv_nonneg; lra). cbn [bind]. f_equal. f_equal. unfold cscale. f_equal; ring.
  - assert (B : (r_ltb (cnorm2 rr) 0.25 || r_ltb (cnorm2 rr) (graze v d))%bool = false).
    { apply orb_false_iff. pose proof (Rmax_l 0.25 (graze v d)). pose proof (Rmax_r 0.25 (graze v d)). split; apply r_ltb_false; lra. }
    rewrite B. pose proof (Rmax_l 0.25 (graze v d)). destruct (Req_EM_T (cnorm2 rr) 0); [lra|]. reflexivity.
Qed.
Lemma field_runs (r : R * R) : cnorm2 r < 1 -> exists f, alos_field RA d r p = Ok f.
Proof using V D0 W H0 H1.
  intro L. set (T := fun m : res R => exists f, m = Ok f). change (T (alos_field RA d r p)). unfold alos_field.
  sr V. sr V. sr V. runfold. sd lra.
  set (q := _ / d). assert (exists q', (if r_ltb (157 / 100) q then let! t := r_div (24649 / 10000) q in Ok (314 / 100 - t) else Ok q) = Ok q') as [q' E].
  { destruct (r_ltb (157 / 100) q) eqn:B; [|eauto]. rbool. rewrite r_div_ok by lra. cbn [bind]. eauto. }
  se E. clear E. cbn [bind]. se (r_powZ_2 (sqrt ((cos q' + fst r) * (cos q' + fst r) + (- sin q' + snd r) * (- sin q' + snd r)))).
  assert (P : 0 < (cos q' + fst r) * (cos q' + fst r) + (- sin q' + snd r) * (- sin q' + snd r)).
  { destruct r as [a b]. unfold cnorm2 in L. cbn [fst snd] in *. pose proof (sin2_cos2 q') as S. unfold Rsqr in S. set (c := cos q') in *. set (s := sin q') in *.
    destruct (Rlt_dec 0 ((c + a) * (c + a) + (- s + b) * (- s + b))); [assumption|]. exfalso. clear - n L S.
    pose proof (Rle_0_sqr (c + a)) as Q1. pose proof (Rle_0_sqr (- s + b)) as Q2. unfold Rsqr in Q1, Q2.
    assert (Q : (c + a) ^ 2 + (- s + b) ^ 2 = 0) by lra. apply sq_sum_0 in Q as [Q3 Q4].
    assert (a = - c) by lra. assert (b = s) by lra. subst a b. lra. }
  rewrite pow2_sqrt by lra. se (r_log_ok _ P). eexists. reflexivity.
Qed.
Lemma alos_total : reflects v d -> alos RA d p = Ok (los_at v d).
Proof using V W D H0 H1 Z D0.
  intro RF. assert (exists a, alos RA d p = Ok a) as [a E].
  { set (T := fun m : res R => exists f, m = Ok f). change (T (alos RA d p)). unfold alos.
    assert (E : alos_refl RA d p = Ok (graze v d, reflection v d)).
    { rewrite alos_refl_runs. destruct (Req_EM_T (cnorm2 (rough_reflection v d)) 0) as [Q|Q]; [rewrite quot_zero in Q; tauto | reflexivity]. }
    se E. cbv beta iota. sr V. sr V. destruct (field_runs (reflection v d) (refl_norm RF)) as [f F]. se F. sr V. eexists. reflexivity. }
  rewrite E. f_equal. destruct (alos_vals d a p E) as [-> _]. apply los_at_ext. intros k I. apply vals_some. apply V. exact I.
Qed.
Lemma alos_absorbed : ~ reflects v d -> alos RA d p = Err ZeroDivisionError.
Proof using V W D H0 H1 Z D0.
  intro RF. unfold alos. rewrite alos_refl_runs. destruct (Req_EM_T (cnorm2 (rough_reflection v d)) 0) as [Q|Q]; [reflexivity | rewrite quot_zero in Q; tauto].
Qed.
End Alos.

(** ** The line-of-sight coefficients *)
Lemma ln_chord a b c : 0 < a -> a < b -> b < c -> (b - a) * (ln c - ln b) < (c - b) * (ln b - ln a).
Proof.
  intros A B C. pose proof (ln_diff b c ltac:(lra) C) as U. pose proof (ln_diff (/ b) (/ a) ltac:(apply Rinv_0_lt_compat; lra) ltac:(apply Rinv_lt_contravar; nra)) as L.
  rewrite !ln_Rinv in L by lra. replace ((/ a - / b) / / b) with ((b - a) / a) in L by (field; lra).
  assert (L' : (b - a) / b < ln b - ln a).
  { pose proof (exp_ineq1 (ln a - ln b)) as X. assert (N : ln a - ln b <> 0) by (pose proof (ln_increasing a b A B); lra). specialize (X N).
    unfold Rminus in X. rewrite exp_plus, exp_Ropp, !exp_ln in X by lra. replace ((b - a) / b) with (1 - a * / b) by (field; lra). lra. }
  apply Rlt_trans with ((b - a) * ((c - b) / b)); [apply Rmult_lt_compat_l; lra|].
  replace ((b - a) * ((c - b) / b)) with ((c - b) * ((b - a) / b)) by (field; lra). apply Rmult_lt_compat_l; lra.
Qed.
Lemma fit_den d0 d1 d2 : 0 < d0 -> d0 < d1 -> 0 < d2 -> d2 <> d0 -> d2 <> d1 -> (d2 - d0) * ln (d1 / d0) - (d1 - d0) * ln (d2 / d0) <> 0.
Proof.
  intros A B C N0 N1. rewrite !ln_over by lra. destruct (Rlt_dec d2 d0) as [L|L].
  - pose proof (ln_chord d2 d0 d1 C L B). lra.
  - destruct (Rlt_dec d2 d1) as [M|M].
    + pose proof (ln_chord d0 d2 d1 A ltac:(lra) M). lra.
    + pose proof (ln_chord d0 d1 d2 A B ltac:(lra)). lra.
Qed.
Definition los_in : list nkey := [DLSA; AED; EMD; WN; HE0; HE1; DLA; DH; ZGR; ZGI; WIS].
Section Los.
Context (p : prop RA) (v : nkey -> R).
Hypothesis V : values p los_in v.
Hypothesis W : 0 < v WN. Hypothesis D : 0 <= v DH. Hypothesis H0 : 0 < v HE0. Hypothesis H1 : 0 < v HE1. Hypothesis Z : 0 < v ZGR.
Hypothesis S : 0 < v DLSA. Hypothesis LA : 0 < v DLA.
Lemma alos_in : values p alos_keys v.
Proof using V. intros k I. apply V. cbn in I |- *. repeat (destruct I as [<-|I]; [inks|]). destruct I. Qed.
Lemma d0_pos : 0 < fit_d0 v.
Proof using W H0 H1 LA.
  unfold fit_d0, los_d0. assert (0 < 1.908 * v WN * v HE0 * v HE1) by (do 3 (apply Rmult_lt_0_compat; [|assumption]); lra).
  destruct (Rle_dec 0 (v AED)); [apply Rmin_glb_lt; lra | assumption].
Qed.
Lemma d1_pos : 0 < fit_d1 v.
Proof using W H0 H1 LA.
  pose proof d0_pos as P. unfold fit_d0 in P. unfold fit_d1, los_d1. destruct (Rle_dec 0 (v AED)).
  - cbv zeta. set (d0 := los_d0 _ _ _ _ _) in *. assert (d0 <= 0.5 * v DLA). { unfold d0, los_d0. destruct (Rle_dec 0 (v AED)); [apply Rmin_r | lra]. } lra.
  - eapply Rlt_le_trans; [|apply Rmax_r]. lra.
Qed.
Lemma fit_runs a1 : los_ok v -> exists c, lr_fit RA (v AED) (v EMD) (fit_d0 v) (fit_d1 v) (v DLSA) a1 (@n_add RA (v AED) (@n_mul RA (v DLSA) (v EMD))) p = Ok c.
Proof using V W D H0 H1 Z S LA.
  intros (_ & N1 & _ & O). pose proof d0_pos as P0. pose proof d1_pos as P1. unfold lr_fit. runfold.
  destruct (r_ltb (fit_d0 v) (fit_d1 v)) eqn:B; [|eauto]. rbool. destruct (O B) as [N0 R0].
  match goal with |- exists c, ?m = _ => set (T := fun mm : res (option (R * R)) => exists c, mm = Ok c); change (T m) end.
  se (alos_total p v (fit_d0 v) alos_in W D H0 H1 Z P0 R0). sd lra.
  assert (Q : 0 < v DLSA / fit_d0 v) by (apply Rdiv_pos; lra). se (r_log_ok _ Q). sd lra.
  assert (Q' : 0 < fit_d1 v / fit_d0 v) by (apply Rdiv_pos; lra). se (r_log_ok _ Q').
  sd ltac:(apply fit_den; auto). set (ak2 := if r_ltb _ _ then _ else _).
  destruct (r_leb 0 (v AED) || r_ltb 0 ak2)%bool; [|eexists; reflexivity].
  sd lra. match goal with |- T (if r_ltb ?x 0 then _ else _) => destruct (r_ltb x 0) end; [|eexists; reflexivity].
  assert (NL : ln (v DLSA / fit_d0 v) <> 0).
  { intro E. apply N0. rewrite <- ln_1 in E. apply ln_inv in E; [|assumption|lra]. apply (Rmult_eq_reg_r (/ fit_d0 v)); [|apply Rinv_neq_0_compat; lra].
    rewrite Rinv_r by lra. symmetry. exact E. }
  sd ltac:(exact NL). destruct (r_eqb _ 0); eexists; reflexivity.
Qed.
Lemma coeffs_runs : los_ok v -> exists c, lr_los_coeffs RA p = Ok c.
Proof using V W D H0 H1 Z S LA.
  intros O. assert (O' := O). destruct O' as (E & N1 & R1 & _). pose proof d1_pos as P1.
  set (T := fun m : res (R * R * R) => exists c, m = Ok c). change (T (lr_los_coeffs RA p)). unfold lr_los_coeffs.
  sr V. sr V. sr V. sr V. sr V. sr V. sr V. runfold.
  match goal with |- T (bind ?m _) => assert (ED : m = Ok (fit_d0 v, fit_d1 v)) end.
  { unfold fit_d0, fit_d1, los_d1, los_d0. replace 1.908 with (1908 / 1000) by lra. replace 0.25 with (25 / 100) by lra. replace 0.5 with (5 / 10) by lra.
    unfold r_leb. destruct (Rle_dec 0 (v AED)) as [L|L].
    - assert (M := pymin_R (1908 / 1000 * v WN * v HE0 * v HE1) (5 / 10 * v DLA)). unfold pymin in M. cbn [RA n_ltb] in M. change (num RA) with R in M. rewrite M. reflexivity.
    - destruct E as [E|E]; [lra|]. rewrite r_div_ok by exact E. cbn [bind]. do 2 f_equal. exact (pymax_R (- v AED / v EMD) (25 / 100 * v DLA)). }
  se ED. cbv beta iota. clear ED. se (alos_total p v (fit_d1 v) alos_in W D H0 H1 Z P1 R1).
  destruct (fit_runs (los_at v (fit_d1 v)) O) as [c C]. se C. clear C.
  match goal with |- T (bind ?m _) => assert (exists x, m = Ok x) as [[ak1 ak2] EX] end.
  { destruct c as [[x y]|]; [eauto|]. rewrite r_div_ok by lra. cbn [bind]. destruct (r_eqb _ 0); eauto. }
  se EX. cbv beta iota. se (r_log_ok _ S). eexists. reflexivity.
Qed.
End Los.
