(** Simple sufficient conditions for lrprop to be defined; a concrete case. *)
From Interval Require Import Tactic.
From Verif Require Import Frame RTac PfFrame PfLrGen PfRegime PfAtten PfAvarReal PfRealRun SpecTotal PfSetup PfRef PfLosRef PfTotal PfTotal2 PfTotal3 SpecLr Scripts LrProp Arith.
Open Scope R_scope.

Ltac dec := replace 1.3787 with (13787 / 10000) by lra; replace 0.838 with (838 / 1000) by lra; replace 0.00922 with (922 / 100000) by lra; replace 1.607 with (1607 / 1000) by lra.
Lemma ln_le_ a b : 0 < a -> a <= b -> ln a <= ln b.
Proof. intros P [H| ->]; [left; apply ln_increasing; assumption | right; reflexivity]. Qed.
Lemma cube_bound (z a w y : R) : 0 < z -> 0 < y -> y <= a * w -> 1 / 50 <= z -> 1 < 1.607 * (1 / 50) * Rpower y (1 / 3) -> 1 < 1.607 * z * Rpower (a * w) (1 / 3).
Proof.
  intros Z Y L B H. eapply Rlt_le_trans; [exact H|]. apply Rmult_le_compat.
  - lra.
  - unfold Rpower. left. apply exp_pos.
  - lra.
  - apply Rle_Rpower_l; [lra | split; assumption].
Qed.
Lemma radius_bound v dl he dls : 0 < he -> 0 < v GME -> dls = sqrt (2 * he / v GME) -> dls <= 10 * dl -> 0.838 <= v WN -> v GME <= 250 / 1000000000 -> 33519 <= dl ^ 2 / (2 * he) * v WN.
Proof.
  intros H G E L W GM. assert (S : dls * dls = 2 * he / v GME) by (rewrite E; apply sqrt_sqrt; left; apply Rdiv_pos; lra).
  assert (P : 0 <= dls) by (rewrite E; apply sqrt_pos). assert (Q : 2 * he / v GME <= 100 * dl ^ 2) by (rewrite <- S; nra).
  assert (I : 4000000 <= / v GME) by (replace 4000000 with (/ (250 / 1000000000)) by field; apply Rinv_le_contravar; lra).
  assert (D : 40000 <= dl ^ 2 / (2 * he)).
  { apply (Rmult_le_reg_r (2 * he)); [lra|]. unfold Rdiv in *. rewrite Rmult_assoc, Rinv_l by lra. nra. }
  nra.
Qed.
Lemma gap_bound v : 0.838 <= v WN -> 0 < v GME -> v GME <= 250 / 1000000000 -> excess v <= 1 -> 30550 <= between_radius v (smallest_gap v) * v WN.
Proof.
  intros W G GM X. unfold between_radius. assert (GP := gap_pos v). assert (X0 := excess_pos v).
  assert (LW : ln 0.838 <= ln (v WN)) by (apply ln_le_; lra). assert (LG : ln (v GME) <= ln (250 / 1000000000)) by (apply ln_le_; lra).
  assert (E : ln (v WN * v GME ^ 2) = ln (v WN) + 2 * ln (v GME)).
  { rewrite ln_mult by (try apply pow_lt; lra). replace (v GME ^ 2) with (v GME * v GME) by ring. rewrite ln_mult by exact G. ring. }
  assert (B1 : 30870 <= smallest_gap v * v WN).
  { unfold smallest_gap, Rpower. rewrite E. rewrite <- (exp_ln (v WN)) at 2 by lra. rewrite Rmult_assoc, <- exp_plus.
    apply Rle_trans with (1.3787 * exp (2 / 3 * (ln 0.838 - ln (250 / 1000000000)))); [dec; interval with (i_prec 53)|].
    apply Rmult_le_compat_l; [lra|]. assert (J : forall a b, a <= b -> exp a <= exp b) by (intros a b [H| ->]; [left; apply exp_increasing; exact H | right; reflexivity]). apply J. lra. }
  assert (B2 : smallest_gap v * v GME <= 0.00922).
  { unfold smallest_gap, Rpower. rewrite E. rewrite <- (exp_ln (v GME)) at 2 by lra. rewrite Rmult_assoc, <- exp_plus.
    apply Rle_trans with (1.3787 * exp (1 / 3 * (ln (250 / 1000000000) - ln 0.838))); [|dec; interval with (i_prec 53)].
    apply Rmult_le_compat_l; [lra|]. assert (J : forall a b, a <= b -> exp a <= exp b) by (intros a b [H| ->]; [left; apply exp_increasing; exact H | right; reflexivity]). apply J. lra. }
  assert (D : 0 < excess v + smallest_gap v * v GME) by nra.
  apply (Rmult_le_reg_r (excess v + smallest_gap v * v GME)); [exact D|].
  replace (smallest_gap v / (excess v + smallest_gap v * v GME) * v WN * (excess v + smallest_gap v * v GME)) with (smallest_gap v * v WN) by (field; lra). nra.
Qed.
Lemma simple_ground v : physical v -> ordinary v -> ground_ok v.
Proof.
  intros (W & G & D & G0 & G1 & H0 & H1 & L0 & L1 & Z) (OW & OG & OD0 & OD1 & OX & OZ).
  assert (ZP : 0 < sqrt (v ZGR ^ 2 + v ZGI ^ 2)) by lra.
  assert (R0 := radius_bound v (v DL0) (v HE0) _ H0 G eq_refl OD0 OW OG). assert (R1 := radius_bound v (v DL1) (v HE1) _ H1 G eq_refl OD1 OW OG).
  assert (R2 := gap_bound v OW G OG OX).
  split; [|split]; [apply (cube_bound _ _ _ 33519) | apply (cube_bound _ _ _ 33519) | apply (cube_bound _ _ _ 30550)]; try assumption; try lra; unfold Rpower; dec; interval with (i_prec 53).
Qed.
Lemma simple_los v : 0 < v DLA -> 0 <= v AED -> 5 * v DLA < 8 * v DLSA -> v ZGI <> 0 -> los_ok v.
Proof.
  intros P A L Z. assert (F0 : fit_d0 v <= 0.5 * v DLA).
  { unfold fit_d0, los_d0. cbv zeta. destruct (Rle_dec 0 (v AED)); [apply Rmin_r | lra]. }
  assert (F1 : fit_d1 v <= 0.625 * v DLA).
  { unfold fit_d1, los_d1. destruct (Rle_dec 0 (v AED)); [|lra]. fold (fit_d0 v). lra. }
  split; [left; exact A|]. split; [lra|]. split; [left; exact Z|]. intros _. split; [lra | left; exact Z].
Qed.

(** The case of C06-C08 meets every condition. *)
Lemma case_total : exists v, values case_real (ENS :: setup_inputs) v /\ physical v /\ ordinary v /\ reference_params v false /\ los_ok v /\ scat_ok v.
Proof.
  destruct case_real_runs as (p0 & E & _ & WS & _ & _ & (aed & EA & PA) & _ & (dls & ES & PS) & _ & DL & emd & ems & EM & EE & LT).
  assert (C : lr_calls RA [0] case_real = Ok p0) by (cbn [lr_calls]; unfold num in *; cbn in E |- *; rewrite E; reflexivity).
  destruct (setup_reference 0 [] case_real p0 1%Z eq_refl ltac:(lia) C) as (v & VI & VO & GP & DP & LP).
  destruct (scat_reference 0 [] case_real p0 1%Z eq_refl ltac:(lia) C WS) as (w & VW & SP).
  set (u := fun k => if memn k scatter_keys then w k else if memn k setup_keys then v k else 0).
  set (u' := fun k => if memn k setup_keys then v k else if memn k scatter_keys then w k else 0).
  assert (UU : u = u').
  { apply FunctionalExtensionality.functional_extensionality. intro k. unfold u, u'. destruct (memn k scatter_keys) eqn:B1, (memn k setup_keys) eqn:B2; try reflexivity.
    apply memn_In in B1. apply memn_In in B2. assert (A1 := VO k B2). assert (A2 := VW k B1). congruence. }
  assert (RP : reference_params u false) by (rewrite UU; split; [exact GP | split; [exact DP | exact LP]]).
  assert (SU : scatter_params u) by exact SP. clear GP DP LP SP.
  assert (VU : values p0 (ENS :: setup_keys) u).
  { intros k [<-|I]; [exact (VW ENS ltac:(inks))|]. rewrite UU. unfold u'. rewrite (proj2 (memn_In k setup_keys) I). exact (VO k I). }
  assert (VC : values case_real setup_inputs u).
  { intros k I. rewrite UU. unfold u'. rewrite (VI k I). assert (J : In k setup_keys) by (cbn in I |- *; tauto). rewrite (proj2 (memn_In k setup_keys) J). reflexivity. }
  assert (VE : pn case_real ENS = Some (u ENS)).
  { rewrite <- (VU ENS ltac:(inks)). symmetry. apply (lrprop_frame RA) in E. apply (fr_pn _ _ _ _ _ ENS E). reflexivity. }
  assert (F5 : u EMS = ems) by (assert (Y := VW EMS ltac:(inks)); unfold u; cbn; congruence).
  clearbody u. clear UU u' VO VW VI v w.
  assert (X : forall k x, pn case_real k = Some (u k) -> pn case_real k = Some x -> u k = x) by (intros; congruence).
  assert (K : forall k, In k setup_inputs -> pn case_real k = Some (u k)) by exact VC.
  assert (N : forall k x, In k setup_inputs -> pn case_real k = Some x -> u k = x) by (intros k x I J; exact (X k x (K k I) J)).
  assert (e1 := N HG0 _ ltac:(inks) eq_refl). assert (e2 := N HG1 _ ltac:(inks) eq_refl). assert (e3 := N HE0 _ ltac:(inks) eq_refl). assert (e4 := N HE1 _ ltac:(inks) eq_refl).
  assert (e5 := N DL0 _ ltac:(inks) eq_refl). assert (e6 := N DL1 _ ltac:(inks) eq_refl). assert (e7 := N THE0 _ ltac:(inks) eq_refl). assert (e8 := N THE1 _ ltac:(inks) eq_refl).
  assert (e9 := N WN _ ltac:(inks) eq_refl). assert (e10 := N DH _ ltac:(inks) eq_refl). assert (e11 := N GME _ ltac:(inks) eq_refl). assert (e12 := N ZGR _ ltac:(inks) eq_refl). assert (e13 := N ZGI _ ltac:(inks) eq_refl).
  cbn [snd] in e1, e2, e3, e4, e5, e6, e7, e8, e9, e10, e11, e12, e13.
  assert (F1 : u AED = aed) by (assert (Y := VU AED ltac:(inks)); congruence). assert (F2 : u DLSA = dls) by (assert (Y := VU DLSA ltac:(inks)); congruence).
  assert (F3 : u DLA = 8000 + 13000) by (assert (Y := VU DLA ltac:(inks)); congruence). assert (F4 : u EMD = emd) by (assert (Y := VU EMD ltac:(inks)); congruence).
  exists u. split; [intros k [<-|I]; [exact VE | exact (VC k I)]|]. split; [|split; [|split; [exact RP | split]]].
  - unfold physical. rewrite e1, e2, e3, e4, e5, e6, e9, e10, e11, e12. lra.
  - unfold ordinary, excess. rewrite e3, e4, e5, e6, e7, e8, e9, e11, e12, e13. repeat split; try lra.
    + interval with (i_prec 53).
    + interval with (i_prec 53).
    + apply Rmax_lub; lra.
    + interval with (i_prec 53).
  - apply simple_los; lra.
  - split.
    + unfold scat_angle, scat_d5. rewrite e7, e8, e11, F3. lra.
    + cbv zeta. intro L. unfold scatter_params in SU. cbv zeta in SU. destruct (Rlt_dec _ 1000) as [_|NL]; [|contradiction]. destruct SU as [<- _]. rewrite F4. 
      lra.
Qed.
