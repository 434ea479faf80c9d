(** Raising an antenna: two links answered over the exact reals. *)
From Interval Require Import Tactic.
From Coq Require Import Lra Lia List.
From Verif Require Import RInst SpecLr SpecTotal SpecLoss SpecHeight RTac LrProp Prep PfStats PfCurves PfAtten PfAvarReal PfSetup PfLoss PfTotal6 PfTerminal PfFlight PfSmooth PfSmooth2 PfSmooth3 PfHeight PfHeight2 PfHeight3 PfRealCases Arith.
Import ListNotations.
Open Scope R_scope.

(** 286 MHz, antennas of 20 m and h, 20 <= h <= 30. *)
Definition raised_link (h : R) : prop RA :=
  setz (setz (setz (setz (realns [(HG0, 20); (HG1, h); (WN, 6); (ENS, 301); (GME, 1177 / 10000000000); (DH, 0); (ZGR, 24 / 100); (ZGI, -14 / 100)]) LVAR 5) MDVARX 12) KLIMX 5) KWX 0.
Definition raised_v (h : R) : nkey -> R := fun k => match k with HG0 => 20 | HG1 => h | WN => 6 | ENS => 301 | GME => 1177 / 10000000000 | ZGR => 24 / 100 | ZGI => -14 / 100 | _ => 0 end.
Lemma raised_link_ok h : 20 <= h <= 30 -> link_entries (raised_link h) (raised_v h) /\ pn (raised_link h) DH = Some 0.
Proof.
  intro H. split; [|reflexivity]. split; [intros k I; cbn in I; repeat (destruct I as [<-|I]; [reflexivity|]); destruct I|].
  cbn [raised_v]. assert (1 / 50 <= sqrt ((24 / 100) ^ 2 + (-14 / 100) ^ 2)) by interval with (i_prec 53). repeat (split; [lra|]). exists 5%Z, 12%Z, 5%Z, 0%Z. repeat split.
Qed.
Lemma raised_scatter v b h : 20 <= h <= 30 -> smooth v -> reference_params v b -> v WN = 6 -> v ENS = 301 -> v GME = 1177 / 10000000000 -> v HE0 = 20 -> v HE1 = h -> v ZGR = 24 / 100 -> v ZGI = -14 / 100 -> scat_ok v.
Proof.
  intros H SM RP EW EE EG E0 E1 EZ EI. destruct (smooth_horizons v b SM RP) as (SL & TA & P0 & P1 & LA).
  destruct (smooth_line_at v b 0 SM RP) as (KB & CP & SP & DS & _ & _ & L0). destruct (smooth_line_at v b 1 SM RP) as (_ & _ & _ & _ & _ & _ & L1).
  assert (B0 : 18430 <= v DL0 <= 18440). { destruct SM as (_ & _ & _ & _ & _ & _ & _ & D0 & _). rewrite D0, E0, EG. split; interval with (i_prec 53). }
  assert (B1 : 18430 <= v DL1 <= 22580). { destruct SM as (_ & _ & _ & _ & _ & _ & _ & _ & D1 & _). rewrite D1, E1, EG. split; interval with (i_prec 53). }
  assert (T : v THE0 + v THE1 = - v GME * v DLA) by (destruct SM as (_ & _ & _ & _ & _ & _ & _ & _ & _ & T0 & T1 & _); rewrite T0, T1, LA; ring).
  assert (A5 : scat_angle v (scat_d5 v) = 0.02354) by (unfold scat_angle, scat_d5; rewrite T, EG; lra). assert (A6 : scat_angle v (scat_d6 v) = 0.04708) by (unfold scat_angle, scat_d6; rewrite T, EG; lra).
  assert (N5 : angle_at v (scat_d5 v) = 0.02354) by (unfold angle_at, scat_d5; rewrite TA, EG; lra). assert (N6 : angle_at v (scat_d6 v) = 0.04708) by (unfold angle_at, scat_d6; rewrite TA, EG; lra).
  split; [rewrite A5; lra|]. cbv zeta. intros _.
  assert (D5 : 236800 <= scat_d5 v <= 241100) by (unfold scat_d5; lra). assert (D6 : 436800 <= scat_d6 v <= 441100) by (unfold scat_d6; lra).
  assert (SK : 0 <= skew v <= 4150) by (unfold skew; split; [apply Rabs_pos | apply Rabs_le; lra]).
  (* the slope of the diffraction line *)
  assert (KE : 0.005 <= ground_constant v <= 0.02). { unfold ground_constant, earth_size, Rpower. rewrite EW, EG, EZ, EI. split; interval with (i_prec 53). }
  assert (WE : 370 <= earth_size v <= 372). { unfold earth_size, Rpower. rewrite EW, EG. split; interval with (i_prec 53). }
  assert (XE : 22500 <= diffraction_scale v <= 23300). { unfold diffraction_scale, Rpower. rewrite EW, EG. split; interval with (i_prec 53). }
  assert (SLOPE : 0.0004 <= v EMD).
  { replace (v EMD) with ((v AED + v EMD * 1) - (v AED + v EMD * 0)) by ring. rewrite L0, L1. cbv zeta in *. set (k := ground_constant v) in *. set (c := (1.607 - k) * 151 * earth_size v * v GME) in *. 
    assert (CB : 0.0104 <= c <= 0.0107) by (unfold c; rewrite EG; split; interval with (i_prec 53)). set (s := 1.3787 * diffraction_scale v) in *. assert (SB : 31000 <= s <= 32200) by (unfold s; lra).
    unfold chord. set (x := c * v DLSA). assert (XB : 380 <= x <= 442) by (unfold x; rewrite DS; split; nra). set (u := c * s). assert (UB : 322 <= u <= 345) by (unfold u; split; nra).
    replace (0.05751 * (c * 1) - 4.343 * (ln (x + u) + (c * 1 - x - u) / (2 * u) * (ln (x + 3 * u) - ln (x + u))) - (20 + height_gain (c * v DL0) k + height_gain (c * v DL1) k) -
      (0.05751 * (c * 0) - 4.343 * (ln (x + u) + (c * 0 - x - u) / (2 * u) * (ln (x + 3 * u) - ln (x + u))) - (20 + height_gain (c * v DL0) k + height_gain (c * v DL1) k)))
      with (c * (0.05751 - 4.343 * (ln (x + 3 * u) - ln (x + u)) / (2 * u))) by (field; lra).
    interval with (i_prec 53). }
  (* the gain at the nearer distance is not negative *)
  assert (R5 : 5 <= norm_h v (scat_d5 v) 20 <= 6) by (unfold norm_h; rewrite A5, EW; lra). assert (R5' : 5 <= norm_h v (scat_d5 v) h <= 9) by (unfold norm_h; rewrite A5, EW; nra).
  assert (R6 : 10 <= norm_h v (scat_d6 v) 20 <= 12) by (unfold norm_h; rewrite A6, EW; lra). assert (R6' : 10 <= norm_h v (scat_d6 v) h <= 18) by (unfold norm_h; rewrite A6, EW; nra).
  assert (V5 : 1000 <= volume v (scat_d5 v) <= 1500) by (unfold volume; rewrite A5; split; interval with (i_prec 53)).
  assert (V6 : 5000 <= volume v (scat_d6 v) <= 5300) by (unfold volume; rewrite A6; split; interval with (i_prec 53)).
  assert (H5 : 0 <= path_gain v (scat_d5 v)).
  { unfold path_gain. cbv zeta. rewrite E0, E1. set (e := efficiency v (scat_d5 v)). assert (EP : 0 <= e) by (unfold e, efficiency; cbv zeta; rewrite EE, Rmin_right by lra; set (y := volume v (scat_d5 v)) in *; interval with (i_prec 53)).
    match goal with |- context [Rmax 0 ?z] => assert (MP := Rmax_l 0 z); set (m := Rmax 0 z) in * end. destruct (Rlt_dec e 1); [|exact MP].
    apply Rplus_le_le_0_compat; [apply Rmult_le_pos; lra|]. apply Rmult_le_pos; [lra|]. set (z1 := norm_h v (scat_d5 v) 20) in *. set (z2 := norm_h v (scat_d5 v) h) in *. interval with (i_prec 53, i_bisect z1, i_bisect z2). }
  assert (H6 : path_gain v (scat_d6 v) <= 10).
  { unfold path_gain. cbv zeta. rewrite E0, E1. set (e := efficiency v (scat_d6 v)). assert (EP : 2 < e < 3) by (unfold e, efficiency; cbv zeta; rewrite EE, Rmin_right by lra; set (y := volume v (scat_d6 v)) in *; split; interval with (i_prec 53)).
    rewrite (Rmax_left e 1) by lra. destruct (Rlt_dec e 1); [lra|]. set (z1 := norm_h v (scat_d6 v) 20) in *. set (z2 := norm_h v (scat_d6 v) h) in *.
    assert (GA : forall z, 10 <= z <= 18 -> gain_at z e <= 4).
    { intros z Z. unfold gain_at. destruct (Rle_dec e 1); [lra|]. destruct (Rle_dec e 2); [lra|]. destruct (Rle_dec e 3); [|lra]. unfold lerp, freq_gain. interval with (i_prec 53). }
    assert (G1 := GA z1 ltac:(lra)). assert (G2 := GA z2 ltac:(lra)). apply Rmax_lub; [lra|]. match goal with |- ?a + Rmin ?a ?y <= _ => assert (M := Rmin_l a y) end. lra. }
  assert (NG : 0 <= near_gain v).
  { unfold near_gain. cbv zeta. destruct (Rlt_dec 15 _); [lra|]. destruct (Rlt_dec 15 _); [|exact H5]. destruct (Rle_dec 0 _); [assumption | exact H5]. }
  assert (S5 : 90 <= distance_fn (0.02354 * scat_d5 v)) by (unfold distance_fn, scatter_fn; destruct (Rle_dec _ 10000); [interval with (i_prec 53) | nra]).
  assert (S6 : distance_fn (0.04708 * scat_d6 v) <= 110) by (unfold distance_fn, scatter_fn; destruct (Rle_dec _ 10000); [nra|]; destruct (Rle_dec _ 70000); [interval with (i_prec 53) | nra]).
  unfold scatter. rewrite N5, N6, EW, EE. set (a := distance_fn (0.02354 * scat_d5 v)) in *. set (a' := distance_fn (0.04708 * scat_d6 v)) in *.
  assert (L5 : 4.343 * ln (47.7 * 6 * 0.04708 ^ 4) - 4.343 * ln (47.7 * 6 * 0.02354 ^ 4) <= 13) by interval with (i_prec 53). lra.
Qed.
Lemma raised_answered h : 20 <= h <= 30 -> exists q r, qlra RA 0 0 (raised_link h) = Ok q /\ lrprop RA 45000 q = Ok r /\ exists a, pn r AREF = Some a.
Proof.
  intro H. destruct (raised_link_ok h H) as (L & D). assert (S := link_smooth _ _ L D). assert (S' := S). destruct S' as (V & A & G & DD & lv & mx & kx & kw & LV & M & K & KW).
  destruct (area_total 0 0 (raised_link h) (level (raised_v h)) lv mx kx kw V LV M K KW A) as (q & v & Q & VV & RP & _ & T). exists q.
  destruct (smooth_prep 0 0 _ _ S) as (q' & u & kw' & Q' & VU & SU & _). rewrite Q in Q'. apply ok_inj in Q'. subst q'.
  assert (X : forall k, In k (ENS :: setup_inputs) -> u k = v k) by (intros k I; assert (Y1 := VU k I); assert (Y2 := VV k I); congruence).
  assert (SV : smooth v) by (unfold smooth in SU |- *; rewrite !X in SU by inks; exact SU).
  assert (SI := sited_values 0 0 _ _ q S Q). assert (Y : forall k, In k (ENS :: setup_inputs) -> v k = sited 0 0 (level (raised_v h)) k) by (intros k I; assert (Y1 := SI k I); assert (Y2 := VV k I); congruence).
  assert (SC : scat_ok v). { apply (raised_scatter v false h H SV RP); rewrite Y by inks; cbn [sited level raised_v]; try reflexivity; apply no_siting. }
  assert (HZ : v DLSA <= 45000).
  { destruct (smooth_horizons v _ SV RP) as (SL & _ & _ & _ & LA). rewrite SL, LA, (Y DL0), (Y DL1) by inks. cbn [sited level raised_v]. rewrite !dh_zero, !no_siting. unfold smooth_horizon. interval with (i_prec 53). }
  destruct (T 45000 []) as [r R].
  - intros x [<-|[]] C. lra.
  - intros x [<-|[]] _. exact SC.
  - cbn [lr_calls] in R. apply bind_inv in R as [r' [R _]]. exists r'. split; [exact Q|]. split; [exact R|]. destruct (smooth_call 0 0 _ _ q r' 45000 S Q ltac:(lra) R) as (_ & _ & _ & AR & _). eexists. exact AR.
Qed.
Lemma raised_case : exists q q' r r' a a', link_entries (raised_link 20) (raised_v 20) /\ link_entries (raised_link 30) (raised_v 30) /\ pn (raised_link 20) DH = Some 0 /\ pn (raised_link 30) DH = Some 0 /\
  same_ground (raised_v 20) (raised_v 30) /\ not_lower 0 0 0 0 (raised_v 20) (raised_v 30) /\ qlra RA 0 0 (raised_link 20) = Ok q /\ qlra RA 0 0 (raised_link 30) = Ok q' /\
  lrprop RA 45000 q = Ok r /\ lrprop RA 45000 q' = Ok r' /\ raised_v 20 WN <= 200 /\ 45000 <= 10000000 /\
  common_horizon 0 0 (raised_v 30) <= 45000 <= common_horizon 0 0 (raised_v 20) + 0.3 * diffraction_scale (raised_v 20) * ln (47.7 * raised_v 20 WN) /\
  not_crossing (effective_height 0 20 0) (effective_height 0 20 0) (raised_v 20) /\ not_crossing (effective_height 0 20 0) (effective_height 0 30 0) (raised_v 20) /\
  pn r AREF = Some a /\ pn r' AREF = Some a'.
Proof.
  assert (H : 20 <= 20 <= 30) by lra. assert (H' : 20 <= 30 <= 30) by lra. destruct (raised_link_ok 20 H) as (L & D). destruct (raised_link_ok 30 H') as (L' & D').
  destruct (raised_answered 20 H) as (q & r & Q & E & a & A). destruct (raised_answered 30 H') as (q' & r' & Q' & E' & a' & A').
  assert (TH : past_threshold (gain_argument 20 (raised_v 20)) (ground_constant (raised_v 20))).
  { right. right. unfold gain_argument, ground_constant, earth_size, smooth_horizon, Rpower. cbn [raised_v]. interval with (i_prec 53). }
  exists q, q', r, r', a, a'. repeat (split; [assumption|]). split; [intros k I; cbn in I; repeat (destruct I as [<-|I]; [reflexivity|]); destruct I|].
  split; [unfold not_lower; rewrite !no_siting; cbn [raised_v]; lra|]. repeat (split; [assumption|]). split; [cbn [raised_v]; lra|]. split; [lra|].
  split; [unfold common_horizon; rewrite !no_siting; cbn [raised_v]; unfold smooth_horizon, diffraction_scale, Rpower; cbn [raised_v]; split; interval with (i_prec 53)|].
  unfold not_crossing. rewrite !no_siting. split; [left; exact TH|]. split; [left; exact TH|]. split; assumption.
Qed.
Lemma gain_case : past_threshold 300 0.01 /\ (exists g, fht RA 300 0.01 = Ok g) /\ (exists g, fht RA 400 0.01 = Ok g).
Proof. split; [left; lra|]. split; apply PfCurves.fht_total; lra. Qed.
