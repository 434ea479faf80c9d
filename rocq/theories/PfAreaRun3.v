(** area.py: the environment and the preparation of the path. *)
From Interval Require Import Tactic.
From Verif Require Import RInst Frame RTac SpecLr SpecQuant PfFrame PfLrGen PfPrepGen PfRegime PfAtten PfAvarReal PfStats PfSetup PfRealRun SpecTotal PfTotal PfTotal2 PfTotal3 PfTotal4 PfTotal6 PfMode PfAreaRun PfAreaRun2 PfAreaGrid Scripts Prep Stats LrProp Dict Arith.
Open Scope R_scope.

Lemma hor_more (he dh gme dl the : R) : 0.5 <= he <= 3010 -> 0 <= dh <= 500 -> 1 / 10000000 <= gme -> qlra_hor RA he dh gme = Ok (dl, the) ->
  let dls := sqrt (2 * he / gme) in - (dls * gme) <= the /\ dls - dl <= 7000.
Proof.
  intros H D G. unfold qlra_hor, the_smooth. runfold. rewrite r_div_ok by lra. cbn [bind].
  assert (PQ : 0 < 2 * he / gme) by (apply Rdiv_pos; lra). rewrite r_sqrt_ok by lra. cbn [bind].
  set (dls := sqrt (2 * he / gme)). assert (PD : 0 < dls) by (apply sqrt_lt_R0; exact PQ).
  rewrite ifmax. set (mx := Rmax he 5). assert (PM : 5 <= mx) by apply Rmax_r. assert (PH : he <= mx) by apply Rmax_l. rewrite r_div_ok by lra. cbn [bind].
  assert (U : 0 <= dh / mx <= 100).
  { split; [apply Rdiv_nonneg; lra|]. apply (Rmult_le_reg_r mx); [lra|]. unfold Rdiv. rewrite Rmult_assoc, Rinv_l by lra. lra. }
  assert (U2 : he * (dh / mx) <= 500).
  { apply (Rmult_le_reg_r mx); [lra|]. unfold Rdiv. replace (he * (dh * / mx) * mx) with (he * dh * (/ mx * mx)) by ring. rewrite Rinv_l by lra. nra. }
  clearbody mx. set (u := dh / mx) in *. clearbody u. rewrite r_sqrt_ok by lra. cbn [bind].
  assert (S : 0 <= sqrt u <= 10).
  { split; [apply sqrt_pos|]. replace 10 with (sqrt 100) by (replace 100 with (10 * 10) by lra; apply sqrt_square; lra). apply sqrt_le_1; lra. }
  assert (SU : sqrt u * sqrt u = u) by (apply sqrt_sqrt; lra).
  set (s := sqrt u) in *. clearbody s. assert (E : 0.49 <= exp (- (7) / 100 * s) <= 1) by (replace 0.49 with (49 / 100) by lra; split; interval with (i_prec 53)).
  assert (E2 : 1 - 7 / 100 * s <= exp (- (7) / 100 * s)).
  { destruct (Req_dec s 0) as [Z0|N]; [rewrite Z0; replace (- (7) / 100 * 0) with 0 by lra; rewrite exp_0; lra|]. assert (X := exp_ineq1 (- (7) / 100 * s) ltac:(lra)). lra. }
  replace (-7 / 100 * s) with (- (7) / 100 * s) by lra.
  set (e := exp (- (7) / 100 * s)) in *. clearbody e. assert (PL : 0 < dls * e) by nra. rewrite r_div_ok by lra. cbn [bind]. rewrite r_div_ok by lra. cbn [bind].
  intro Q. injection Q as <- <-. cbv zeta. fold dls.
  assert (SQ : dls * dls = 2 * he / gme) by (apply sqrt_sqrt; lra).
  assert (SG : dls * dls * gme = 2 * he) by (rewrite SQ; field; lra). clearbody dls. split.
  - apply (Rmult_le_reg_r dls); [exact PD|]. unfold Rdiv at 1. rewrite Rmult_assoc, Rinv_l by lra. rewrite Rmult_1_r.
    assert (R1 : dls / (dls * e) = / e) by (field; split; lra). rewrite R1. assert (I1 : 0 <= / e - 1).
    { assert (/ 1 <= / e) by (apply Rinv_le_contravar; lra). lra. }
    assert (0 <= 65 / 100 * dh * (/ e - 1)) by (apply Rmult_le_pos; lra). nra.
  - assert (X : dls - dls * e <= dls * (7 / 100 * s)) by nra. eapply Rle_trans; [exact X|].
    assert (Y : (dls * (7 / 100 * s)) * (dls * (7 / 100 * s)) <= 7000 * 7000).
    { replace ((dls * (7 / 100 * s)) * (dls * (7 / 100 * s))) with (49 / 10000 * (dls * dls) * (s * s)) by field. rewrite SU.
      assert (Z1 : dls * dls * u <= 10000000000).
      { apply (Rmult_le_reg_r gme); [lra|]. replace (dls * dls * u * gme) with (2 * (he * u)) by (rewrite <- (Rmult_assoc 2), <- SG; ring). nra. }
      lra. }
    assert (0 <= dls * (7 / 100 * s)) by (apply Rmult_le_pos; lra). nra.
Qed.

(** The three spheres from 1 MHz upwards. *)
Lemma cube_low (z a w y : R) : 0.15 <= z -> 800 <= a * w -> 1 < 1.607 * z * Rpower (a * w) (1 / 3).
Proof.
  intros Z L. apply Rlt_le_trans with (1.607 * 0.15 * Rpower 800 (1 / 3)); [replace (1.607 * 0.15) with (241 / 1000 + 5 / 100000) by lra; unfold Rpower; interval with (i_prec 53)|].
  apply Rmult_le_compat.
  - lra.
  - unfold Rpower. left. apply exp_pos.
  - lra.
  - apply Rle_Rpower_l; [lra | split; lra].
Qed.
Lemma radius_low v dl he dls : 0 < he -> 0 < v GME -> dls = sqrt (2 * he / v GME) -> dls <= 10 * dl -> 0.02 <= v WN -> v GME <= 250 / 1000000000 -> 800 <= dl ^ 2 / (2 * he) * v WN.
Proof.
  intros H G E L W GM. assert (S : dls * dls = 2 * he / v GME) by (rewrite E; apply sqrt_sqrt; left; apply Rdiv_pos; lra).
  assert (P : 0 <= dls) by (rewrite E; apply sqrt_pos). assert (Q : 2 * he / v GME <= 100 * dl ^ 2) by (rewrite <- S; nra).
  assert (I : 4000000 <= / v GME) by (replace 4000000 with (/ (250 / 1000000000)) by field; apply Rinv_le_contravar; lra).
  assert (D : 40000 <= dl ^ 2 / (2 * he)).
  { apply (Rmult_le_reg_r (2 * he)); [lra|]. unfold Rdiv in *. rewrite Rmult_assoc, Rinv_l by lra. nra. }
  nra.
Qed.
Lemma gap_low v : 0.02 <= v WN -> 0 < v GME -> v GME <= 250 / 1000000000 -> excess v <= 1 -> 800 <= between_radius v (smallest_gap v) * v WN.
Proof.
  intros W G GM X. unfold between_radius. assert (GP := gap_pos v). assert (X0 := excess_pos v).
  assert (LW : ln 0.02 <= ln (v WN)) by (apply ln_le_; lra). assert (LG : ln (v GME) <= ln (250 / 1000000000)) by (apply ln_le_; lra).
  assert (E : ln (v WN * v GME ^ 2) = ln (v WN) + 2 * ln (v GME)).
  { rewrite ln_mult by (try apply pow_lt; lra). replace (v GME ^ 2) with (v GME * v GME) by ring. rewrite ln_mult by exact G. ring. }
  assert (J : forall a b, a <= b -> exp a <= exp b) by (intros a b [H| ->]; [left; apply exp_increasing; exact H | right; reflexivity]).
  replace 0.02 with (2 / 100) in * by lra.
  assert (B1 : 2000 <= smallest_gap v * v WN).
  { unfold smallest_gap, Rpower. rewrite E. rewrite <- (exp_ln (v WN)) at 2 by lra. rewrite Rmult_assoc, <- exp_plus.
    apply Rle_trans with (1.3787 * exp (2 / 3 * (ln (2 / 100) - ln (250 / 1000000000)))); [dec; interval with (i_prec 53)|].
    apply Rmult_le_compat_l; [lra|]. apply J. lra. }
  assert (B2 : smallest_gap v * v GME <= 0.1).
  { unfold smallest_gap, Rpower. rewrite E. rewrite <- (exp_ln (v GME)) at 2 by lra. rewrite Rmult_assoc, <- exp_plus.
    apply Rle_trans with (1.3787 * exp (1 / 3 * (ln (250 / 1000000000) - ln (2 / 100)))); [|dec; replace 0.1 with (1 / 10) by lra; interval with (i_prec 53)].
    apply Rmult_le_compat_l; [lra|]. apply J. lra. }
  assert (D : 0 < excess v + smallest_gap v * v GME) by nra.
  apply (Rmult_le_reg_r (excess v + smallest_gap v * v GME)); [exact D|].
  replace (smallest_gap v / (excess v + smallest_gap v * v GME) * v WN * (excess v + smallest_gap v * v GME)) with (smallest_gap v * v WN) by (field; lra). nra.
Qed.
Lemma low_ground v : physical v -> 0.02 <= v WN -> v GME <= 250 / 1000000000 -> sqrt (2 * v HE0 / v GME) <= 10 * v DL0 -> sqrt (2 * v HE1 / v GME) <= 10 * v DL1 ->
  excess v <= 1 -> 0.15 <= sqrt (v ZGR ^ 2 + v ZGI ^ 2) -> ground_ok v.
Proof.
  intros (W & G & D & G0 & G1 & H0 & H1 & L0 & L1 & Z) OW OG OD0 OD1 OX OZ.
  split; [|split]; unfold not_too_conducting; apply cube_low; try exact OZ; try exact 0;
    [apply (radius_low v (v DL0) (v HE0) _ H0 G eq_refl) | apply (radius_low v (v DL1) (v HE1) _ H1 G eq_refl) | apply gap_low]; assumption.
Qed.

(** ** qlra *)
Lemma qlra_runs k0 k1 (p : prop RA) w lv mx kx kw : values p area_in w -> pz p LVAR = Some lv -> pz p MDVARX = Some mx -> pz p KLIMX = Some kx -> pz p KWX = Some kw -> (0 <= mx)%Z -> (0 < kx)%Z ->
  0 < w WN -> 1 / 10000000 <= w GME <= 250 / 1000000000 -> 0.5 <= w HG0 <= 3000 -> 0.5 <= w HG1 <= 3000 -> 0 <= w DH <= 500 -> 0 < w ZGR ->
  exists q v, qlra RA k0 k1 p = Ok q /\ values q (ENS :: setup_inputs) v /\ (forall k, In k area_in -> v k = w k) /\ pz q MDP = Some 1%Z /\ pz q KWX = Some kw /\ stat_on q /\
    physical v /\ sqrt (2 * v HE0 / v GME) <= 10 * v DL0 /\ sqrt (2 * v HE1 / v GME) <= 10 * v DL1 /\ excess v <= 1 /\ 0 < v THE0 + v THE1 + (v DL0 + v DL1 + 200000) * v GME /\
    v DL0 <= sqrt (2 * v HE0 / v GME) /\ v DL1 <= sqrt (2 * v HE1 / v GME).
Proof.
  intros V L M K KW Pm Pk W G H0 H1 D Z.
  destruct (he_total k0 (w HG0) (w DH) H0 ltac:(lra)) as (he0 & E0 & B0). destruct (he_total k1 (w HG1) (w DH) H1 ltac:(lra)) as (he1 & E1 & B1).
  destruct (hor_total he0 (w DH) (w GME) ltac:(lra) D ltac:(lra)) as (dl0 & th0 & F0 & C0). destruct (hor_total he1 (w DH) (w GME) ltac:(lra) D ltac:(lra)) as (dl1 & th1 & F1 & C1). cbv zeta in C0, C1.
  assert (M0 := hor_more he0 (w DH) (w GME) dl0 th0 ltac:(lra) D ltac:(lra) F0). assert (M1 := hor_more he1 (w DH) (w GME) dl1 th1 ltac:(lra) D ltac:(lra) F1). cbv zeta in M0, M1.
  set (p1 := setn (setn (setn (setn (setn (setn p HE0 (he0 : num RA)) HE1 (he1 : num RA)) DL0 (dl0 : num RA)) DL1 (dl1 : num RA)) THE0 (th0 : num RA)) THE1 (th1 : num RA)).
  destruct (control_total p1 1%Z lv mx kx L M K) as [q E]. assert (F := prep_control_frame RA 1%Z p1 q E). cbn beta in F.
  destruct (prep_control_spec RA 1%Z p1 q E) as (lv' & mx' & kx' & X1 & X2 & X3 & MD & LQ & MQ & KQ & _). change (pz p1 LVAR = Some lv) in L. change (pz p1 MDVARX = Some mx) in M. change (pz p1 KLIMX = Some kx) in K.
  assert (mx' = mx) by congruence. assert (kx' = kx) by congruence. subst mx' kx'. 
  rewrite (proj2 (Z.leb_le 0 mx) Pm) in MQ. rewrite (proj2 (Z.ltb_lt 0 kx) Pk) in LQ, KQ.
  set (v := fun k => match k with HE0 => he0 | HE1 => he1 | DL0 => dl0 | DL1 => dl1 | THE0 => th0 | THE1 => th1 | _ => w k end).
  exists q, v. split.
  { unfold qlra. rewrite (proj2 (pn_getn RA p HG0 _) (V HG0 ltac:(inks))), (proj2 (pn_getn RA p DH _) (V DH ltac:(inks))), (proj2 (pn_getn RA p GME _) (V GME ltac:(inks))). cbn [bind].
    change (num RA) with R in *. rewrite E0. cbn [bind]. rewrite F0. cbn [bind]. rewrite (proj2 (pn_getn RA p HG1 _) (V HG1 ltac:(inks))). cbn [bind]. rewrite E1. cbn [bind]. rewrite F1. cbn [bind]. exact E. }
  split.
  { intros k I. rewrite (fr_pn _ _ _ _ _ k F) by reflexivity. cbn in I. repeat (destruct I as [<-|I]; [first [reflexivity | match goal with |- pn p1 ?j = _ => exact (V j ltac:(inks)) end]|]). destruct I. }
  split; [intros k I; cbn in I; repeat (destruct I as [<-|I]; [reflexivity|]); destruct I|].
  split; [exact MD|]. split; [rewrite (fr_pz _ _ _ _ _ KWX F) by reflexivity; exact KW|].
  split; [split; [eapply st_full; [exact LQ | lia] | exists 5%Z, kx, mx; auto]|].
  split; [unfold physical, v; repeat split; lra|]. unfold excess, v. split; [lra|]. split; [lra|]. split; [apply Rmax_lub; [lra|]; nra|].
  split; [|lra]. set (s0 := sqrt (2 * he0 / w GME)) in *. set (s1 := sqrt (2 * he1 / w GME)) in *. clearbody s0 s1. nra.
Qed.
