(** Smooth earth: what a kilometre beyond the horizon costs. *)
From Interval Require Import Tactic.
From Coq Require Import Lra Lia List.
Import ListNotations.
From Verif Require Import RInst SpecLr SpecTotal SpecLoss SpecHeight RTac LrProp Prep PfStats PfCurves PfAtten PfAvarReal PfSetup PfLoss PfTotal6 PfTerminal PfFlight PfSmooth PfSmooth2 PfSmooth3 PfHeight PfHeight2 PfHeight3 PfRealCases PfHeight4 Arith.
Open Scope R_scope.

Lemma log_share (u z : R) : 0 < z -> 0 <= ln (z + 3 * u) - ln (z + u) -> 0 < u -> ln (z + 3 * u) - ln (z + u) <= 1.0987.
Proof.
  intros Z _ U. assert (L : ln (z + 3 * u) <= ln (3 * (z + u))) by (apply Rlt_le, ln_increasing; lra). rewrite ln_mult in L by lra.
  assert (ln 3 <= 1.0987) by interval with (i_prec 30). lra.
Qed.

Lemma line_rate k0 k1 p w q rx ry (x y ax ay : R) : link_entries p w -> pn p DH = Some 0 -> qlra RA k0 k1 p = Ok q -> 0 < x -> x <= y ->
  lrprop RA x q = Ok rx -> lrprop RA y q = Ok ry -> on_diffraction_line rx x -> on_diffraction_line ry y -> pn rx AREF = Some ax -> pn ry AREF = Some ay ->
  9.7 * ((y - x) / diffraction_scale w) <= ay - ax <= 14 * ((y - x) / diffraction_scale w).
Proof.
  intros L D Q P XY EX EY OX OY AX AY. destruct (line_call _ _ _ _ _ _ _ _ L D Q EX OX P AX) as (KB & CP & SP & P0 & P1 & VX).
  destruct (line_call _ _ _ _ _ _ _ _ L D Q EY OY ltac:(lra) AY) as (_ & _ & _ & _ & _ & VY). cbv zeta in *.
  assert (PL : 0 < w WN /\ 0 < w GME) by (destruct L as (_ & ? & ? & _); lra). destruct PL as (WP & GP).
  assert (T := third_scale (w WN) (w GME) WP GP). fold (earth_size w) in T. fold (diffraction_scale w) in T.
  set (k := ground_constant w) in *. set (e := earth_size w) in *. set (g := w GME) in *. set (s0 := diffraction_scale w) in *.
  set (l := smooth_horizon (effective_height k0 (w HG0) 0) g + smooth_horizon (effective_height k1 (w HG1) 0) g) in *.
  assert (SP0 : 0 < s0) by lra. set (c := (1.607 - k) * 151 * e * g) in *.
  assert (CS : c * s0 = (1.607 - k) * 151) by (unfold c; replace ((1.607 - k) * 151 * e * g * s0) with ((1.607 - k) * 151 * (e * g * s0)) by ring; rewrite T; ring).
  assert (LP : 0 < l) by (unfold l; lra). assert (CL : 0 < c * l) by (apply Rmult_lt_0_compat; lra).
  set (t := (y - x) / s0). assert (TP : 0 <= t) by (unfold t; apply Rmult_le_pos; [lra | apply Rlt_le, Rinv_0_lt_compat; lra]).
  assert (YX : y - x = t * s0) by (unfold t; field; lra).
  set (u := c * (1.3787 * s0)) in *. assert (UE : u = (1.607 - k) * 151 * 1.3787) by (unfold u; rewrite <- CS; ring). assert (UP : 270 < u) by lra.
  unfold chord in VX, VY. set (z := c * l) in *.
  assert (G : 0 <= ln (z + 3 * u) - ln (z + u)) by (assert (ln (z + u) < ln (z + 3 * u)) by (apply ln_increasing; lra); lra).
  assert (G2 := log_share u z CL G ltac:(lra)). set (j := ln (z + 3 * u) - ln (z + u)) in *.
  assert (E : ay - ax = t * (0.05751 * ((1.607 - k) * 151) - 4.343 / (2 * 1.3787) * j)).
  { rewrite VX, VY. replace y with (x + t * s0) by lra. rewrite <- CS. unfold u. field. split; [lra|]. split; apply Rgt_not_eq; assumption. }
  rewrite E. split; rewrite (Rmult_comm _ t); apply Rmult_le_compat_l; lra.
Qed.
Lemma region_rate k0 k1 p w q rx ry (x y ax ay : R) : link_entries p w -> pn p DH = Some 0 -> qlra RA k0 k1 p = Ok q ->
  common_horizon k0 k1 w <= x -> x <= y -> y <= common_horizon k0 k1 w + 0.3 * diffraction_scale w * ln (47.7 * w WN) -> y <= 10000000 ->
  lrprop RA x q = Ok rx -> lrprop RA y q = Ok ry -> pn rx AREF = Some ax -> pn ry AREF = Some ay ->
  9.7 * ((y - x) / diffraction_scale w) <= ay - ax <= 14 * ((y - x) / diffraction_scale w).
Proof.
  intros L D Q HX XY HY M EX EY. assert (P : 0 < common_horizon k0 k1 w).
  { assert (G : 0 < w GME) by (destruct L as (_ & _ & ? & _); lra). assert (H : 0.5 <= w HG0 /\ 0.5 <= w HG1) by (destruct L as (_ & _ & _ & ? & ? & _); lra).
    assert (E0 := eff_ge k0 (w HG0) 0 ltac:(lra)). assert (E1 := eff_ge k1 (w HG1) 0 ltac:(lra)). unfold common_horizon, smooth_horizon.
    apply Rplus_lt_0_compat; apply sqrt_lt_R0, Rdiv_lt_0_compat; lra. }
  apply (line_rate k0 k1 p w q rx ry x y ax ay); try assumption; try lra.
  - apply (region_line k0 k1 p w q rx x); try assumption; lra.
  - apply (region_line k0 k1 p w q ry y); try assumption; lra.
Qed.
Lemma raised_far h (d : R) : 20 <= h <= 30 -> 45000 <= d -> exists q r a, qlra RA 0 0 (raised_link h) = Ok q /\ lrprop RA d q = Ok r /\ pn r AREF = Some a.
Proof.
  intros H B. destruct (raised_link_ok h H) as (L & D). assert (S := link_smooth _ _ L D). assert (S' := S). destruct S' as (V & A & G & DD & lv & mx & kx & kw & LV & M & K & KW).
  destruct (area_total 0 0 (raised_link h) (level (raised_v h)) lv mx kx kw V LV M K KW A) as (q & v & Q & VV & RP & _ & T).
  destruct (smooth_prep 0 0 _ _ S) as (q' & u & kw' & Q' & VU & SU & _). rewrite Q in Q'. apply ok_inj in Q'. subst q'.
  assert (X : forall k, In k (ENS :: setup_inputs) -> u k = v k) by (intros k I; assert (Y1 := VU k I); assert (Y2 := VV k I); congruence).
  assert (SV : smooth v) by (unfold smooth in SU |- *; rewrite !X in SU by inks; exact SU).
  assert (SI := sited_values 0 0 _ _ q S Q). assert (Y : forall k, In k (ENS :: setup_inputs) -> v k = sited 0 0 (level (raised_v h)) k) by (intros k I; assert (Y1 := SI k I); assert (Y2 := VV k I); congruence).
  assert (SC : scat_ok v). { apply (raised_scatter v false h H SV RP); rewrite Y by inks; cbn [sited level raised_v]; try reflexivity; apply no_siting. }
  assert (HZ : v DLSA <= 45000).
  { destruct (smooth_horizons v _ SV RP) as (SL & _ & _ & _ & LA). rewrite SL, LA, (Y DL0), (Y DL1) by inks. cbn [sited level raised_v]. rewrite !dh_zero, !no_siting. unfold smooth_horizon. interval with (i_prec 30). }
  destruct (T d []) as [r R].
  - intros x [<-|[]] C. lra.
  - intros x [<-|[]] _. exact SC.
  - cbn [lr_calls] in R. apply bind_inv in R as [r' [R _]]. destruct (smooth_call 0 0 _ _ q r' d S Q ltac:(lra) R) as (_ & _ & _ & AR & _). exists q, r'. eexists. split; [exact Q|]. split; [exact R|]. exact AR.
Qed.
Lemma rate_case : exists q rx ry ax ay, link_entries (raised_link 20) (raised_v 20) /\ pn (raised_link 20) DH = Some 0 /\ qlra RA 0 0 (raised_link 20) = Ok q /\ common_horizon 0 0 (raised_v 20) <= 45000 /\
  70000 <= common_horizon 0 0 (raised_v 20) + 0.3 * diffraction_scale (raised_v 20) * ln (47.7 * raised_v 20 WN) /\ lrprop RA 45000 q = Ok rx /\ lrprop RA 70000 q = Ok ry /\ pn rx AREF = Some ax /\ pn ry AREF = Some ay.
Proof.
  assert (H : 20 <= 20 <= 30) by lra. destruct (raised_link_ok 20 H) as (L & D). destruct (raised_far 20 45000 H ltac:(lra)) as (q & rx & ax & Q & E & A). destruct (raised_far 20 70000 H ltac:(lra)) as (q' & ry & ay & Q' & E' & A').
  rewrite Q in Q'. apply ok_inj in Q'. subst q'. exists q, rx, ry, ax, ay. repeat (split; [assumption|]).
  split; [unfold common_horizon; rewrite !no_siting; cbn [raised_v]; unfold smooth_horizon; interval with (i_prec 30)|].
  split; [unfold common_horizon; rewrite !no_siting; cbn [raised_v]; unfold smooth_horizon, diffraction_scale, Rpower; cbn [raised_v]; interval with (i_prec 30)|]. repeat (split; [assumption|]). assumption.
Qed.
