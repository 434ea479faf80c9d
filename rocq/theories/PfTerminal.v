(** qlra and qlrps over the reals. *)
From Interval Require Import Tactic.
From Verif Require Import RTac Frame SpecTerminal Prep PfRegime PfAtten PfLrGen.
Open Scope R_scope.

(** ** qlra *)
Lemma eff_ge kst hg dh : 0 < hg -> hg <= effective_height kst hg dh.
Proof.
  intro H. unfold effective_height. destruct (kst <=? 0)%Z; [lra|].
  enough (0 <= (1 + (if (kst =? 1)%Z then 4 else 9) * (if Rlt_dec hg 5 then sin (0.3141593 * hg) else 1)) * exp (- Rmin 20 (2 * hg / Rmax 0.001 dh))) by lra.
  apply Rmult_le_pos; [|left; apply exp_pos]. enough (0 <= (if (kst =? 1)%Z then 4 else 9) * (if Rlt_dec hg 5 then sin (0.3141593 * hg) else 1)) by lra.
  apply Rmult_le_pos; [destruct (kst =? 1)%Z; lra|]. destruct (Rlt_dec hg 5); [|lra]. apply sin_ge_0; [lra|]. pose proof PI_4. pose proof PI2_3_2. lra.
Qed.
Lemma gain_pos hg : 0 < hg -> 0 < (if Rlt_dec hg 5 then sin (0.3141593 * hg) else 1).
Proof. intro H. destruct (Rlt_dec hg 5); [|lra]. apply sin_gt_0; [lra|]. pose proof PI2_3_2. lra. Qed.
Lemma eff_more kst kst' hg dh : 0 < hg -> (kst <= 0)%Z -> kst' = 1%Z -> effective_height kst hg dh < effective_height kst' hg dh.
Proof.
  intros H K ->. unfold effective_height. destruct (Z.leb_spec kst 0); [|lia]. cbn [Z.leb Z.compare Z.eqb Pos.eqb].
  enough (0 < (1 + 4 * (if Rlt_dec hg 5 then sin (0.3141593 * hg) else 1)) * exp (- Rmin 20 (2 * hg / Rmax 0.001 dh))) by lra.
  pose proof (gain_pos hg H). apply Rmult_lt_0_compat; [lra | apply exp_pos].
Qed.
Lemma eff_most kst hg dh : 0 < hg -> (2 <= kst)%Z -> effective_height 1 hg dh < effective_height kst hg dh.
Proof.
  intros H K. unfold effective_height. destruct (Z.leb_spec kst 0); [lia|]. destruct (Z.eqb_spec kst 1); [lia|].
  cbn [Z.leb Z.compare Z.eqb Pos.eqb]. pose proof (gain_pos hg H). apply Rplus_lt_compat_l. apply Rmult_lt_compat_r; [apply exp_pos | lra].
Qed.
Lemma eff_bound kst hg dh : 0 < hg -> effective_height kst hg dh <= hg + (if (kst <=? 0)%Z then 0 else if (kst =? 1)%Z then 5 else 10).
Proof.
  intro H. unfold effective_height. destruct (kst <=? 0)%Z; [lra|]. pose proof (gain_pos hg H).
  assert (G : (if Rlt_dec hg 5 then sin (0.3141593 * hg) else 1) <= 1) by (destruct (Rlt_dec hg 5); [apply SIN_bound | lra]).
  set (g := if Rlt_dec hg 5 then _ else _) in *.
  assert (E : exp (- Rmin 20 (2 * hg / Rmax 0.001 dh)) <= 1).
  { assert (M : 0 <= Rmin 20 (2 * hg / Rmax 0.001 dh)).
    { apply Rmin_glb; [lra|]. pose proof (Rmax_l 0.001 dh). apply Rmult_le_pos; [lra|]. left. apply Rinv_0_lt_compat. lra. }
    rewrite <- exp_0. destruct M as [M|M]; [left; apply exp_increasing; lra | right; rewrite <- M; f_equal; lra]. }
  pose proof (exp_pos (- Rmin 20 (2 * hg / Rmax 0.001 dh))). set (e := exp _) in *. clearbody g e.
  apply Rplus_le_compat_l. destruct (kst =? 1)%Z.
  - replace 5 with (5 * 1) by lra. apply Rmult_le_compat; lra.
  - replace 10 with (10 * 1) by lra. apply Rmult_le_compat; lra.
Qed.
Lemma qlra_he_R kst (hg dh : R) : qlra_he RA kst hg dh = Ok (effective_height kst hg dh).
Proof.
  unfold qlra_he, effective_height. destruct (kst <=? 0)%Z; [reflexivity|]. rewrite pymax_R. runfold.
  replace 0.001 with (1 / 1000) by lra. replace 0.3141593 with (3141593 / 10000000) by lra.
  rewrite r_div_ok by (pose proof (Rmax_l (1 / 1000) dh); lra).
  assert (M : forall t, (if r_ltb t 20 then t else 20) = Rmin 20 t) by (intro t; unfold r_ltb, Rmin; destruct (Rlt_dec _ _), (Rle_dec _ _); lra).
  set (t := 2 * hg / Rmax (1 / 1000) dh). clearbody t. specialize (M t). unfold r_ltb in M |- *.
  destruct (Rlt_dec hg 5); cbn [bind]; rewrite M; destruct (kst =? 1)%Z; cbn [negb]; f_equal; ring.
Qed.
Lemma smooth_pos he gme : 0 < he -> 0 < gme -> 0 < smooth_horizon he gme.
Proof. intros. unfold smooth_horizon. apply sqrt_lt_R0. apply Rdiv_lt_0_compat; lra. Qed.
Lemma rough_bounds he gme dh : 0 < he -> 0 < gme -> 0 <= dh ->
  0 < rough_horizon he gme dh <= smooth_horizon he gme /\ (dh = 0 -> rough_horizon he gme dh = smooth_horizon he gme)
  /\ (0 < dh -> rough_horizon he gme dh < smooth_horizon he gme).
Proof.
  intros H G D. pose proof (smooth_pos he gme H G) as S. unfold rough_horizon. pose proof (exp_pos (- 0.07 * sqrt (dh / Rmax he 5))) as E.
  assert (M : 0 < Rmax he 5) by (pose proof (Rmax_r he 5); lra).
  split; [split|split].
  - apply Rmult_lt_0_compat; assumption.
  - rewrite <- (Rmult_1_r (smooth_horizon he gme)) at 2. apply Rmult_le_compat_l; [lra|]. rewrite <- exp_0.
    pose proof (sqrt_pos (dh / Rmax he 5)) as [Q|Q]; [left; apply exp_increasing; lra | right; rewrite <- Q; f_equal; lra].
  - intros ->. unfold Rdiv. rewrite Rmult_0_l, sqrt_0, Rmult_0_r, exp_0. ring.
  - intro P. rewrite <- (Rmult_1_r (smooth_horizon he gme)) at 2. apply Rmult_lt_compat_l; [lra|]. rewrite <- exp_0.
    apply exp_increasing. enough (0 < sqrt (dh / Rmax he 5)) by lra. apply sqrt_lt_R0. apply Rdiv_lt_0_compat; lra.
Qed.
Lemma qlra_hor_R (he dh gme : R) : 0 < he -> 0 < gme -> 0 <= dh ->
  qlra_hor RA he dh gme = Ok (rough_horizon he gme dh, takeoff_angle he gme dh).
Proof.
  intros H G D. pose proof (smooth_pos he gme H G) as S. destruct (rough_bounds he gme dh H G D) as [[B _] _].
  unfold qlra_hor, the_smooth. rewrite pymax_R. runfold. rewrite r_div_ok by lra. cbn [bind].
  assert (Q : 0 <= 2 * he / gme) by (left; apply Rdiv_lt_0_compat; lra). rewrite r_sqrt_ok by exact Q. cbn [bind].
  assert (M : 0 < Rmax he 5) by (pose proof (Rmax_r he 5); lra). rewrite r_div_ok by lra. cbn [bind].
  rewrite r_sqrt_ok by (apply Rmult_le_pos; [lra | left; apply Rinv_0_lt_compat; lra]). cbn [bind].
  assert (E : sqrt (2 * he / gme) * exp (-7 / 100 * sqrt (dh / Rmax he 5)) = rough_horizon he gme dh).
  { unfold rough_horizon, smooth_horizon. replace (- 0.07) with (-7 / 100) by lra. reflexivity. }
  rewrite E. rewrite r_div_ok by lra. cbn [bind]. fold (smooth_horizon he gme). rewrite r_div_ok by lra. cbn [bind].
  unfold takeoff_angle. replace 0.65 with (65 / 100) by lra. reflexivity.
Qed.
Lemma control_ok md (p : prop RA) l m k : pz p LVAR = Some l -> pz p MDVARX = Some m -> pz p KLIMX = Some k ->
  exists q, prep_control RA md p = Ok q /\ forall x, pn q x = pn p x.
Proof.
  intros L M K. unfold prep_control, getz, setz. cbn [pz zkey_eqb zkey_id Pos.eqb]. rewrite L. cbn [opt_res bind pz zkey_eqb zkey_id Pos.eqb].
  rewrite M. cbn [opt_res bind pz zkey_eqb zkey_id Pos.eqb]. destruct (0 <=? m)%Z; cbn [opt_res bind pz zkey_eqb zkey_id Pos.eqb];
  rewrite K; cbn [opt_res bind]; destruct (0 <? k)%Z; eexists; (split; [reflexivity|]); reflexivity.
Qed.
Lemma qlra_values k0 k1 (p : prop RA) v : qlra_entries p v ->
  let h0 := effective_height k0 (v HG0) (v DH) in let h1 := effective_height k1 (v HG1) (v DH) in
  exists q, qlra RA k0 k1 p = Ok q /\ pn q HE0 = Some h0 /\ pn q HE1 = Some h1
    /\ pn q DL0 = Some (rough_horizon h0 (v GME) (v DH)) /\ pn q DL1 = Some (rough_horizon h1 (v GME) (v DH))
    /\ pn q THE0 = Some (takeoff_angle h0 (v GME) (v DH)) /\ pn q THE1 = Some (takeoff_angle h1 (v GME) (v DH)).
Proof.
  intros (V & A0 & A1 & D & G & l & m & k & L & M & K). cbv zeta.
  pose proof (eff_ge k0 (v HG0) (v DH) A0). pose proof (eff_ge k1 (v HG1) (v DH) A1).
  unfold qlra. unfold getn. rewrite !(V _) by (cbn; tauto). cbn [opt_res bind]. rewrite !qlra_he_R. cbn [bind].
  rewrite !qlra_hor_R by lra. cbn [bind]. match goal with |- exists q, prep_control RA 1 ?x = Ok q /\ _ => destruct (control_ok 1 x l m k L M K) as [q [Q F]] end.
  rewrite Q. exists q. split; [reflexivity|]. rewrite !F. repeat split; reflexivity.
Qed.

(** ** qlrps *)
Lemma c_div_ok (x y : R * R) : cnorm2 y <> 0 -> @c_div RA x y = Ok (cquot x y).
Proof.
  intro N. destruct (@c_div RA x y) as [z|e] eqn:E; [f_equal; apply c_div_inv in E as [_ ->]; reflexivity|].
  exfalso. destruct x as [ar ai], y as [br bi]. unfold cnorm2 in N. cbn [fst snd] in N. unfold c_div in E.
  cbn [n_leb n_eqb n_abs n_Z RA n_div n_mul n_add n_sub] in E.
  destruct (r_leb (Rabs bi) (Rabs br)) eqn:B; rbool.
  - destruct (r_eqb (Rabs br) 0) eqn:B0; rbool.
    + rewrite B0 in B. pose proof (Rabs_pos bi). assert (Z1 : Rabs bi = 0) by lra.
      assert (bi = 0) by (unfold Rabs in Z1; destruct (Rcase_abs bi); lra). assert (br = 0) by (unfold Rabs in B0; destruct (Rcase_abs br); lra). subst. apply N. ring.
    + assert (N0 : br <> 0) by (intros ->; apply B0; apply Rabs_R0). rewrite r_div_ok in E by exact N0. cbn [bind] in E.
      assert (D : br + bi * (bi / br) <> 0). { intro Z0. apply N. transitivity (br * (br + bi * (bi / br))); [field; exact N0 | rewrite Z0; ring]. }
      rewrite !r_div_ok in E by exact D. discriminate.
  - assert (N0 : bi <> 0) by (intros ->; rewrite Rabs_R0 in B; pose proof (Rabs_pos br); lra). rewrite r_div_ok in E by exact N0. cbn [bind] in E.
    assert (D : br * (br / bi) + bi <> 0). { intro Z0. apply N. transitivity (bi * (br * (br / bi) + bi)); [field; exact N0 | rewrite Z0; ring]. }
    rewrite !r_div_ok in E by exact D. discriminate.
Qed.
Lemma csqrt_root (x y : R) : exists r, @n_csqrt RA x y = Ok r /\ principal_root (x, y) r.
Proof.
  cbn [n_csqrt RA]. unfold r_csqrt. set (m := sqrt (x * x + y * y)).
  assert (P : 0 <= x * x + y * y) by nra. assert (M2 : m * m = x * x + y * y) by (apply sqrt_sqrt; exact P).
  assert (M0 : 0 <= m) by apply sqrt_pos. assert (Mx : Rabs x <= m).
  { apply Rsqr_incr_0_var; [|exact M0]. unfold Rsqr. rewrite <- Rabs_mult, Rabs_right by nra. nra. }
  assert (A : 0 <= (m + x) / 2) by (unfold Rabs in Mx; destruct (Rcase_abs x); lra).
  assert (B : 0 <= (m - x) / 2) by (unfold Rabs in Mx; destruct (Rcase_abs x); lra).
  eexists. split; [reflexivity|]. unfold principal_root. cbn [fst snd].
  pose proof (sqrt_pos ((m + x) / 2)) as SA. pose proof (sqrt_pos ((m - x) / 2)) as SB.
  assert (C : sqrt ((m + x) / 2) * sqrt ((m - x) / 2) = Rabs y / 2).
  { rewrite <- sqrt_mult by assumption. replace ((m + x) / 2 * ((m - x) / 2)) with (Rsqr (Rabs y / 2)).
    - apply sqrt_Rsqr. pose proof (Rabs_pos y). lra.
    - unfold Rsqr. replace (Rabs y / 2 * (Rabs y / 2)) with (Rabs y * Rabs y / 4) by field. rewrite <- Rabs_mult, Rabs_right by nra. nra. }
  pose proof (sqrt_sqrt _ A) as QA. pose proof (sqrt_sqrt _ B) as QB.
  split; [|split; [exact SA|split]].
  - unfold cmul. cbn [fst snd]. set (a := sqrt ((m + x) / 2)) in *. set (b := sqrt ((m - x) / 2)) in *. clearbody a b. destruct (Rlt_dec y 0) as [H|H]; f_equal.
    + lra.
    + rewrite Rabs_left in C by lra. lra.
    + lra.
    + rewrite Rabs_right in C by lra. lra.
  - intro. destruct (Rlt_dec y 0); lra.
  - intro. destruct (Rlt_dec y 0); lra.
Qed.
Lemma quot_mul x y : cnorm2 y <> 0 -> cmul (cquot x y) y = x.
Proof. destruct x as [a b], y as [c d]. unfold cnorm2, cmul, cquot, cscale. cbn [fst snd]. intro N. unfold cnorm2. cbn [fst snd]. f_equal; field; exact N. Qed.
Lemma qlrps_values (fmhz zsys en0 eps sgm : R) (ipol : Z) : fmhz <> 0 -> (ipol <> 0%Z -> eps <> 0 \/ sgm <> 0) ->
  let ens := en0 * exp (- zsys / 9460) in
  let zq := (eps, 376.62 * sgm / (fmhz / 47.7)) in
  exists zgnd, qlrps RA fmhz zsys en0 ipol eps sgm = Ok ((fmhz / 47.7)%R, (157 / 10 ^ 9 * (1 - 0.04665 * exp (ens / 179.3)))%R, ens, zgnd)
    /\ principal_root (eps - 1, snd zq) (if (ipol =? 0)%Z then zgnd else cmul zgnd zq).
Proof.
  intros F N ens zq. unfold qlrps. runfold. rewrite (r_div_ok fmhz) by lra. cbn [bind].
  assert (E : (let! r := (if negb (r_eqb zsys 0) then let! t := r_div (- zsys) 9460 in let! e := Ok (exp t) in Ok (en0 * e)%R else Ok en0) in Ok r) = Ok ens).
  { unfold ens, r_eqb. destruct (Req_EM_T zsys 0) as [->|]; cbn [negb bind].
    - f_equal. replace (- 0 / 9460) with 0 by lra. rewrite exp_0. ring.
    - rewrite r_div_ok by lra. reflexivity. }
  destruct (if negb (r_eqb zsys 0) then _ else _) as [e0|] eqn:E0; cbn [bind] in E; [|discriminate]. assert (e0 = ens) by congruence. subst e0. cbn [bind].
  rewrite r_div_ok by lra. cbn [bind]. assert (W : fmhz / (477 / 10) <> 0).
  { intro Z0. apply F. replace fmhz with (fmhz / (477 / 10) * (477 / 10)) by field. rewrite Z0. ring. }
  rewrite r_div_ok by exact W. cbn [bind].
  assert (Z2 : 37662 / 100 * sgm / (fmhz / (477 / 10)) = snd zq). { unfold zq. cbn [snd]. replace 376.62 with (37662 / 100) by lra. replace 47.7 with (477 / 10) by lra. reflexivity. }
  rewrite Z2. destruct (csqrt_root (eps - 1) (snd zq)) as [r [Er Pr]]. cbn [n_csqrt RA] in Er. rewrite Er. cbn [bind].
  replace 47.7 with (477 / 10) by lra. replace 0.04665 with (4665 / 100000) by lra. replace 179.3 with (1793 / 10) by lra.
  replace (157 / 10 ^ 9) with (157 / 1000000000) by lra.
  destruct (ipol =? 0)%Z eqn:I; cbn [negb bind].
  - exists r. split; [reflexivity | exact Pr].
  - assert (Nz : cnorm2 (eps, snd zq) <> 0).
    { apply Z.eqb_neq in I. destruct (N I) as [H|H]; unfold cnorm2; cbn [fst snd].
      - assert (0 < eps * eps) by nra. assert (0 <= snd zq * snd zq) by nra. lra.
      - assert (snd zq <> 0). { unfold zq; cbn [snd]. intro Z0. apply H. assert (W' : fmhz / 47.7 <> 0) by (replace 47.7 with (477 / 10) by lra; exact W).
          replace sgm with (376.62 * sgm / (fmhz / 47.7) * (fmhz / 47.7) / 376.62) by (field; split; lra). rewrite Z0. lra. }
        assert (0 <= eps * eps) by nra. assert (0 < snd zq * snd zq) by nra. lra. }
    pose proof (c_div_ok r (eps, snd zq) Nz) as D. exists (cquot r (eps, snd zq)). split; [rewrite D; reflexivity|].
    replace zq with (eps, snd zq) by reflexivity. rewrite quot_mul by exact Nz. exact Pr.
Qed.
Lemma ens_anti en0 z z' : 0 < en0 -> z < z' -> en0 * exp (- z' / 9460) < en0 * exp (- z / 9460).
Proof. intros. apply Rmult_lt_compat_l; [assumption|]. apply exp_increasing. lra. Qed.
Lemma gme_bounds ens : 157 / 10 ^ 9 * (1 - 0.04665 * exp (ens / 179.3)) < 157 / 10 ^ 9 /\ (ens <= 549 -> 0 < 157 / 10 ^ 9 * (1 - 0.04665 * exp (ens / 179.3))).
Proof.
  pose proof (exp_pos (ens / 179.3)). split; [lra|]. intro H0. enough (exp (ens / 179.3) < 21.4) by lra.
  apply Rle_lt_trans with (exp (549 / 179.3)). { assert (L : ens / 179.3 <= 549 / 179.3) by lra. destruct L as [L|L]; [left; apply exp_increasing; exact L | rewrite L; right; reflexivity]. }
  replace (549 / 179.3) with (5490 / 1793) by lra. replace 21.4 with (214 / 10) by lra. interval with (i_prec 53).
Qed.
Lemma qlrps_inv (fmhz zsys en0 eps sgm w g e : R) ipol z : qlrps RA fmhz zsys en0 ipol eps sgm = Ok (w, g, e, z) ->
  e = en0 * exp (- zsys / 9460) /\ g = 157 / 10 ^ 9 * (1 - 0.04665 * exp (e / 179.3)).
Proof.
  unfold qlrps. intro H. apply bind_inv in H as [w0 [_ H]]. apply bind_inv in H as [e0 [E H]]. apply bind_inv in H as [t [T H]].
  apply bind_inv in H as [x [X H]]. apply bind_inv in H as [t2 [_ H]]. apply bind_inv in H as [r [_ H]]. apply bind_inv in H as [r2 [_ H]].
  apply r_div_inv in T as [_ ->]. cbn [m_exp RA n_lit] in X. assert (x = exp (e0 / (1793 / 10))) by congruence. subst x.
  assert (e = e0 /\ g = 157 / 1000000000 * (1 - 4665 / 100000 * exp (e0 / (1793 / 10)))) as [-> ->] by (split; cbn in H; congruence).
  split; [|replace 0.04665 with (4665 / 100000) by lra; replace 179.3 with (1793 / 10) by lra; replace (157 / 10 ^ 9) with (157 / 1000000000) by lra; reflexivity].
  cbn [n_eqb RA n_Z] in E. unfold r_eqb in E. destruct (Req_EM_T zsys 0) as [->|]; cbn [negb] in E.
  - assert (e0 = en0) by congruence. subst. replace (- 0 / 9460) with 0 by lra. rewrite exp_0. ring.
  - apply bind_inv in E as [u [U E]]. apply r_div_inv in U as [_ ->]. cbn in E. congruence.
Qed.
Lemma qlrps_decr (fmhz zsys zsys' en0 eps sgm w g e w' g' e' : R) ipol z z' : 0 < en0 -> zsys < zsys' ->
  qlrps RA fmhz zsys en0 ipol eps sgm = Ok (w, g, e, z) -> qlrps RA fmhz zsys' en0 ipol eps sgm = Ok (w', g', e', z') -> e' < e /\ g < g'.
Proof.
  intros P L H H'. apply qlrps_inv in H as [E G]. apply qlrps_inv in H' as [E' G']. assert (e' < e) by (subst; apply ens_anti; assumption).
  split; [assumption|]. rewrite G, G'. enough (exp (e' / 179.3) < exp (e / 179.3)) by lra. apply exp_increasing. lra.
Qed.
Lemma qlrps_curv (fmhz zsys en0 eps sgm w g e : R) ipol z : qlrps RA fmhz zsys en0 ipol eps sgm = Ok (w, g, e, z) ->
  g < 157 / 10 ^ 9 /\ (e <= 549 -> 0 < g).
Proof. intro H. apply qlrps_inv in H as [_ ->]. apply gme_bounds. Qed.

Lemma qlra_geometry k0 k1 (p q : prop RA) v : qlra_entries p v -> qlra RA k0 k1 p = Ok q -> forall hg he dl, 
  In (hg, he, dl) [(HG0, HE0, DL0); (HG1, HE1, DL1)] ->
  exists h d, pn q he = Some h /\ pn q dl = Some d /\ v hg <= h <= v hg + 10
    /\ 0 < d <= sqrt (2 * h / v GME) /\ (v DH = 0 -> d = sqrt (2 * h / v GME)) /\ (0 < v DH -> d < sqrt (2 * h / v GME)).
Proof.
  intros E Q hg he dl I. destruct (qlra_values k0 k1 p v E) as (q' & Q' & A0 & A1 & B0 & B1 & _). assert (q' = q) by congruence. subst q'.
  destruct E as (_ & P0 & P1 & D & G & _).
  assert (X : forall k h, 0 < h -> let e := effective_height k h (v DH) in h <= e <= h + 10 /\
     0 < rough_horizon e (v GME) (v DH) <= sqrt (2 * e / v GME) /\ (v DH = 0 -> rough_horizon e (v GME) (v DH) = sqrt (2 * e / v GME))
     /\ (0 < v DH -> rough_horizon e (v GME) (v DH) < sqrt (2 * e / v GME))).
  { intros k h P e. pose proof (eff_ge k h (v DH) P). pose proof (eff_bound k h (v DH) P). fold e in H, H0.
    split; [destruct (k <=? 0)%Z, (k =? 1)%Z; lra|]. apply (rough_bounds e (v GME) (v DH)); lra. }
  destruct I as [I|[I|[]]]; inversion I; subst.
  - exists (effective_height k0 (v HG0) (v DH)). eexists. split; [exact A0|]. split; [exact B0|]. apply X. exact P0.
  - exists (effective_height k1 (v HG1) (v DH)). eexists. split; [exact A1|]. split; [exact B1|]. apply X. exact P1.
Qed.
Lemma eff_class k k' hg dh : 0 < hg -> (siting_class k < siting_class k')%Z -> effective_height k hg dh < effective_height k' hg dh.
Proof.
  intros P C. unfold siting_class in C. assert ((k <= 0 \/ k = 1) /\ (k' = 1 \/ 2 <= k') /\ k < k')%Z as [A [B D]] by lia.
  destruct A as [A| ->], B as [B|B].
  - apply eff_more; assumption.
  - eapply Rlt_trans; [apply (eff_more k 1); [assumption | assumption | reflexivity] | apply eff_most; assumption].
  - lia.
  - apply eff_most; assumption.
Qed.
Lemma qlra_siting k k' k1 (p q q' : prop RA) v h h' : qlra_entries p v -> qlra RA k k1 p = Ok q -> qlra RA k' k1 p = Ok q' ->
  pn q HE0 = Some h -> pn q' HE0 = Some h' ->
  (siting_class k = 0%Z -> h = v HG0) /\ (siting_class k = siting_class k' -> h = h') /\ ((siting_class k < siting_class k')%Z -> h < h').
Proof.
  intros E Q Q' H H'. destruct (qlra_values k k1 p v E) as (r & R0 & A0 & _). destruct (qlra_values k' k1 p v E) as (r' & R1 & A1 & _).
  assert (h = effective_height k (v HG0) (v DH)) by congruence. assert (h' = effective_height k' (v HG0) (v DH)) by congruence. subst h h'.
  destruct E as (_ & P0 & _). split; [|split].
  - intro C. unfold effective_height. destruct (Z.leb_spec k 0); [reflexivity | unfold siting_class in C; lia].
  - intro C. unfold effective_height. unfold siting_class in C.
    replace (k' <=? 0)%Z with (k <=? 0)%Z by (destruct (Z.leb_spec k 0), (Z.leb_spec k' 0); lia).
    destruct (Z.leb_spec k 0); [reflexivity|]. replace (k' =? 1)%Z with (k =? 1)%Z by (destruct (Z.eqb_spec k 1), (Z.eqb_spec k' 1); lia). reflexivity.
  - apply eff_class. exact P0.
Qed.
Lemma qlra_siting1 k k' k0 (p q q' : prop RA) v h h' : qlra_entries p v -> qlra RA k0 k p = Ok q -> qlra RA k0 k' p = Ok q' ->
  pn q HE1 = Some h -> pn q' HE1 = Some h' ->
  (siting_class k = 0%Z -> h = v HG1) /\ (siting_class k = siting_class k' -> h = h') /\ ((siting_class k < siting_class k')%Z -> h < h').
Proof.
  intros E Q Q' H H'. destruct (qlra_values k0 k p v E) as (r & R0 & _ & A0 & _). destruct (qlra_values k0 k' p v E) as (r' & R1 & _ & A1 & _).
  assert (h = effective_height k (v HG1) (v DH)) by congruence. assert (h' = effective_height k' (v HG1) (v DH)) by congruence. subst h h'.
  destruct E as (_ & _ & P0 & _). split; [|split].
  - intro C. unfold effective_height. destruct (Z.leb_spec k 0); [reflexivity | unfold siting_class in C; lia].
  - intro C. unfold effective_height. unfold siting_class in C.
    replace (k' <=? 0)%Z with (k <=? 0)%Z by (destruct (Z.leb_spec k 0), (Z.leb_spec k' 0); lia).
    destruct (Z.leb_spec k 0); [reflexivity|]. replace (k' =? 1)%Z with (k =? 1)%Z by (destruct (Z.eqb_spec k 1), (Z.eqb_spec k' 1); lia). reflexivity.
  - apply eff_class. exact P0.
Qed.
