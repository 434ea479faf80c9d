(** Raising an antenna: the region in closed form, and concrete links. *)
From Interval Require Import Tactic.
From Coq Require Import Lra Lia List.
From Verif Require Import RInst SpecLr SpecTotal SpecLoss SpecHeight RTac LrProp Prep PfStats PfAtten PfAvarReal PfSetup PfLoss PfTerminal PfFlight PfSmooth PfSmooth2 PfSmooth3 PfHeight PfHeight2 PfRealCases Arith.
Import ListNotations.
Open Scope R_scope.

Lemma region_line k0 k1 p w q r (d : R) : link_entries p w -> pn p DH = Some 0 -> qlra RA k0 k1 p = Ok q -> lrprop RA d q = Ok r -> 0 < d ->
  common_horizon k0 k1 w <= d <= common_horizon k0 k1 w + 0.3 * diffraction_scale w * ln (47.7 * w WN) -> d <= 10000000 -> on_diffraction_line r d.
Proof.
  intros L D Q E P [B1 B2] M. assert (S := link_smooth p w L D). destruct (smooth_call _ _ _ _ _ _ _ S Q P E) as (SM & RP & RG & _ & VK & VI).
  assert (CH := call_horizon k0 k1 p (level w) q r d S Q P E). change (common_horizon k0 k1 (level w)) with (common_horizon k0 k1 w) in CH. assert (DS := vals_some _ _ _ CH).
  destruct RG as [_ SC]. assert (SC' := SC ltac:(lra)). destruct (smooth_horizons _ _ SM RP) as (SL & _). 
  assert (SV := sited_values k0 k1 p (level w) q S Q). assert (X : forall j, In j (ENS :: setup_inputs) -> vals r j = sited k0 k1 (level w) j) by (intros j I; assert (Y1 := VI j I); assert (Y2 := SV j I); congruence).
  assert (XW : vals r WN = w WN) by (rewrite X by inks; reflexivity). assert (XG : vals r GME = w GME) by (rewrite X by inks; reflexivity).
  assert (XA : vals r XAE = diffraction_scale w) by (destruct RP as (_ & _ & (XA & _)); rewrite XA, XW, XG; reflexivity).
  assert (DX1 : d <= vals r DX).
  { unfold scatter_params in SC'. cbv zeta in SC'. destruct (Rlt_dec _ 1000) in SC'; destruct SC' as (_ & D1 & D2); [rewrite D1 | lra].
    rewrite <- SL, DS, XA, XW. eapply Rle_trans; [|apply Rmax_l]. eapply Rle_trans; [exact B2 | apply Rmax_r]. }
  exists (common_horizon k0 k1 w), (vals r DX). split; [exact CH|]. split; [exact B1|]. split; [|exact DX1].
  unfold vals in *. destruct (pn r DX); [reflexivity | lra].
Qed.
Lemma region_both k0 k1 k0' k1' p p' w w' q q' r r' (d : R) : link_entries p w -> link_entries p' w' -> pn p DH = Some 0 -> pn p' DH = Some 0 -> same_ground w w' ->
  let h0 := effective_height k0 (w HG0) 0 in let h1 := effective_height k1 (w HG1) 0 in let h0' := effective_height k0' (w' HG0) 0 in let h1' := effective_height k1' (w' HG1) 0 in
  h0 <= h0' -> h1 <= h1' -> qlra RA k0 k1 p = Ok q -> qlra RA k0' k1' p' = Ok q' -> lrprop RA d q = Ok r -> lrprop RA d q' = Ok r' -> w WN <= 200 -> d <= 10000000 ->
  common_horizon k0' k1' w' <= d <= common_horizon k0 k1 w + 0.3 * diffraction_scale w * ln (47.7 * w WN) ->
  0 < d /\ on_diffraction_line r d /\ on_diffraction_line r' d /\ d <= common_horizon k0 k1 w + 2.7574 * diffraction_scale w.
Proof.
  intros L L' D D' SG h0 h1 h0' h1' H0 H1 Q Q' E E' WB M [B1 B2].
  assert (XW : w' WN = w WN) by (apply SG; cbn; tauto). assert (XG : w' GME = w GME) by (apply SG; cbn; tauto).
  assert (GP : 0 < w GME /\ 0.838 <= w WN) by (destruct L as (_ & W & G & _); lra).
  assert (MH : forall x y, x <= y -> smooth_horizon x (w GME) <= smooth_horizon y (w GME)).
  { intros x y XY. unfold smooth_horizon. apply sqrt_le_1_alt. unfold Rdiv. apply Rmult_le_compat_r; [left; apply Rinv_0_lt_compat; lra | lra]. }
  assert (LE : common_horizon k0 k1 w <= common_horizon k0' k1' w'). { unfold common_horizon. rewrite XG. fold h0 h1 h0' h1'. assert (Y0 := MH _ _ H0). assert (Y1 := MH _ _ H1). lra. }
  assert (HP : 0 < common_horizon k0 k1 w).
  { unfold common_horizon. assert (Y0 : 0 <= smooth_horizon h1 (w GME)) by apply sqrt_pos. enough (0 < smooth_horizon h0 (w GME)) by (fold h0 h1; lra). destruct L as (_ & _ & _ & G0 & _).
    assert (F := eff_ge k0 (w HG0) 0 ltac:(lra)). fold h0 in F. unfold smooth_horizon. apply sqrt_lt_R0, Rdiv_lt_0_compat; lra. }
  assert (P : 0 < d) by lra. assert (XP : 0 < diffraction_scale w) by apply exp_pos.
  assert (LN : ln (47.7 * w WN) <= ln 9540) by (apply ln_le_mono; lra). assert (N : ln 9540 <= 9.17) by (replace 9.17 with (917 / 100) by lra; interval with (i_prec 53)).
  assert (N0 : 0 <= ln (47.7 * w WN)) by (rewrite <- ln_1; apply ln_le_mono; lra).
  assert (O := region_line k0 k1 p w q r d L D Q E P ltac:(lra) M).
  assert (SE : diffraction_scale w' = diffraction_scale w) by (unfold diffraction_scale; rewrite XG, XW; reflexivity).
  assert (O' : on_diffraction_line r' d). { apply (region_line k0' k1' p' w' q' r' d L' D' Q' E' P); [rewrite SE, XW; lra | exact M]. }
  split; [exact P|]. split; [exact O|]. split; [exact O'|].
  assert (0.3 * diffraction_scale w * ln (47.7 * w WN) <= 2.7574 * diffraction_scale w); [|lra]. replace (0.3 * diffraction_scale w * ln (47.7 * w WN)) with (0.3 * ln (47.7 * w WN) * diffraction_scale w) by ring. apply Rmult_le_compat_r; lra.
Qed.
Lemma raised_region k0 k1 k0' k1' p p' w w' q q' r r' (d a a' : R) : link_entries p w -> link_entries p' w' -> pn p DH = Some 0 -> pn p' DH = Some 0 -> same_ground w w' ->
  let h0 := effective_height k0 (w HG0) 0 in let h1 := effective_height k1 (w HG1) 0 in let h0' := effective_height k0' (w' HG0) 0 in let h1' := effective_height k1' (w' HG1) 0 in
  h0 <= h0' -> h1 <= h1' -> qlra RA k0 k1 p = Ok q -> qlra RA k0' k1' p' = Ok q' -> lrprop RA d q = Ok r -> lrprop RA d q' = Ok r' -> w WN <= 200 -> d <= 10000000 ->
  common_horizon k0' k1' w' <= d <= common_horizon k0 k1 w + 0.3 * diffraction_scale w * ln (47.7 * w WN) -> let k := ground_constant w in
  past_threshold (gain_argument h0 w) k \/ ~ past_threshold (gain_argument h0' w) k -> past_threshold (gain_argument h1 w) k \/ ~ past_threshold (gain_argument h1' w) k ->
  pn r AREF = Some a -> pn r' AREF = Some a' -> a' <= a.
Proof.
  intros L L' D D' SG h0 h1 h0' h1' H0 H1 Q Q' E E' WB M B k T0 T1 A A'. destruct (region_both k0 k1 k0' k1' p p' w w' q q' r r' d L L' D D' SG H0 H1 Q Q' E E' WB M B) as (P & O & O' & B').
  exact (raised_lower k0 k1 k0' k1' p p' w w' q q' r r' d a a' L L' D D' SG H0 H1 Q Q' E E' P O O' B' T0 T1 A A').
Qed.
(** The same with the values fht returns. *)
Lemma raised_gain k0 k1 k0' k1' p p' w w' q q' r r' (d a a' g0 g1 g0' g1' : R) : link_entries p w -> link_entries p' w' -> pn p DH = Some 0 -> pn p' DH = Some 0 -> same_ground w w' ->
  let h0 := effective_height k0 (w HG0) 0 in let h1 := effective_height k1 (w HG1) 0 in let h0' := effective_height k0' (w' HG0) 0 in let h1' := effective_height k1' (w' HG1) 0 in
  h0 <= h0' -> h1 <= h1' -> qlra RA k0 k1 p = Ok q -> qlra RA k0' k1' p' = Ok q' -> lrprop RA d q = Ok r -> lrprop RA d q' = Ok r' -> 0 < d -> on_diffraction_line r d -> on_diffraction_line r' d ->
  d <= common_horizon k0 k1 w + 2.7574 * diffraction_scale w -> pn r AREF = Some a -> pn r' AREF = Some a' -> let k := ground_constant w in
  fht RA (gain_argument h0 w) k = Ok g0 -> fht RA (gain_argument h1 w) k = Ok g1 -> fht RA (gain_argument h0' w) k = Ok g0' -> fht RA (gain_argument h1' w) k = Ok g1' ->
  a' + (g0' + g1') <= a + (g0 + g1).
Proof.
  intros L L' D D' SG h0 h1 h0' h1' H0 H1 Q Q' E E' P O O' B A A' k G0 G1 G0' G1'. apply fht_value in G0, G1, G0', G1'. rewrite G0, G1, G0', G1'.
  exact (proj1 (raised_line k0 k1 k0' k1' p p' w w' q q' r r' d a a' L L' D D' SG H0 H1 Q Q' E E' P O O' B A A')).
Qed.
Lemma gain_monotone (x y k g g' : R) : 0 < x -> x <= y -> 0 < k < 1 -> past_threshold x k \/ ~ past_threshold y k -> fht RA x k = Ok g -> fht RA y k = Ok g' -> g <= g'.
Proof. intros X L K C G G'. apply fht_value in G, G'. rewrite G, G'. apply gain_mono; assumption. Qed.
(** ** In the wording of the properties *)
Lemma height_gain_credited k0 k1 k0' k1' (p p' q q' r r' : prop RA) w w' (d a a' g0 g1 g0' g1' : R) : link_entries p w -> link_entries p' w' -> pn p DH = Some 0 -> pn p' DH = Some 0 -> same_ground w w' ->
  not_lower k0 k1 k0' k1' w w' -> qlra RA k0 k1 p = Ok q -> qlra RA k0' k1' p' = Ok q' -> lrprop RA d q = Ok r -> lrprop RA d q' = Ok r' -> 0 < d -> on_diffraction_line r d -> on_diffraction_line r' d ->
  d <= common_horizon k0 k1 w + 2.7574 * diffraction_scale w -> pn r AREF = Some a -> pn r' AREF = Some a' ->
  fht RA (gain_argument (effective_height k0 (w HG0) 0) w) (ground_constant w) = Ok g0 -> fht RA (gain_argument (effective_height k1 (w HG1) 0) w) (ground_constant w) = Ok g1 ->
  fht RA (gain_argument (effective_height k0' (w' HG0) 0) w) (ground_constant w) = Ok g0' -> fht RA (gain_argument (effective_height k1' (w' HG1) 0) w) (ground_constant w) = Ok g1' ->
  a' + (g0' + g1') <= a + (g0 + g1).
Proof. intros L L' D D' SG [H0 H1]. exact (raised_gain k0 k1 k0' k1' p p' w w' q q' r r' d a a' g0 g1 g0' g1' L L' D D' SG H0 H1). Qed.
Lemma height_helps k0 k1 k0' k1' (p p' q q' r r' : prop RA) w w' (d a a' : R) : link_entries p w -> link_entries p' w' -> pn p DH = Some 0 -> pn p' DH = Some 0 -> same_ground w w' ->
  not_lower k0 k1 k0' k1' w w' -> qlra RA k0 k1 p = Ok q -> qlra RA k0' k1' p' = Ok q' -> lrprop RA d q = Ok r -> lrprop RA d q' = Ok r' -> 0 < d -> on_diffraction_line r d -> on_diffraction_line r' d ->
  d <= common_horizon k0 k1 w + 2.7574 * diffraction_scale w ->
  not_crossing (effective_height k0 (w HG0) 0) (effective_height k0' (w' HG0) 0) w -> not_crossing (effective_height k1 (w HG1) 0) (effective_height k1' (w' HG1) 0) w ->
  pn r AREF = Some a -> pn r' AREF = Some a' -> a' <= a.
Proof. intros L L' D D' SG [H0 H1]. exact (raised_lower k0 k1 k0' k1' p p' w w' q q' r r' d a a' L L' D D' SG H0 H1). Qed.
Lemma height_helps_region k0 k1 k0' k1' (p p' q q' r r' : prop RA) w w' (d a a' : R) : link_entries p w -> link_entries p' w' -> pn p DH = Some 0 -> pn p' DH = Some 0 -> same_ground w w' ->
  not_lower k0 k1 k0' k1' w w' -> qlra RA k0 k1 p = Ok q -> qlra RA k0' k1' p' = Ok q' -> lrprop RA d q = Ok r -> lrprop RA d q' = Ok r' -> w WN <= 200 -> d <= 10000000 ->
  common_horizon k0' k1' w' <= d <= common_horizon k0 k1 w + 0.3 * diffraction_scale w * ln (47.7 * w WN) ->
  not_crossing (effective_height k0 (w HG0) 0) (effective_height k0' (w' HG0) 0) w -> not_crossing (effective_height k1 (w HG1) 0) (effective_height k1' (w' HG1) 0) w ->
  pn r AREF = Some a -> pn r' AREF = Some a' -> a' <= a.
Proof. intros L L' D D' SG [H0 H1]. exact (raised_region k0 k1 k0' k1' p p' w w' q q' r r' d a a' L L' D D' SG H0 H1). Qed.
