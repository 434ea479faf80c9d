(** How far the height gain falls across the threshold of fht. *)
From Coq Require Import Lra Lia List.
From Interval Require Import Tactic.
From Coquelicot Require Import Coquelicot.
From Verif Require Import RInst SpecTotal SpecLoss SpecHeight RTac Prep PfTotal4 PfSetup PfFlight PfSmooth PfSmooth3 PfHeight PfHeight2 PfHeight3 PfHeight4 Arith.
Import ListNotations.
Open Scope R_scope.

Definition low_gain (x w : R) : R := 0.000025 * x ^ 2 * exp w - 8.686 * w - 15.
Lemma low_mono x y w : 0 <= x -> x <= y -> low_gain x w <= low_gain y w.
Proof. intros X L. unfold low_gain. assert (P := exp_pos w). assert (x ^ 2 <= y ^ 2) by nra. assert (0.000025 * x ^ 2 * exp w <= 0.000025 * y ^ 2 * exp w) by (apply Rmult_le_compat_r; lra). lra. Qed.
(** The formula for low antennas at its largest argument, against the others. *)
Lemma low_short w : 1248 / 1000 <= w <= 302 / 100 -> low_gain 200 w <= - 20.6.
Proof. intro W. unfold low_gain. interval with (i_prec 53, i_bisect w). Qed.
Lemma low_long w : 301 / 100 <= w <= 1042 / 100 -> low_gain (5495 / w ^ 3) w <= - 20.5 /\ low_gain (5495 / w ^ 3) w <= 17.372 * ln (5495 / w ^ 3) - 117 + 4.3.
Proof.
  intro W. assert (P : 0 < w) by lra. unfold low_gain. assert (E : 0.000025 * (5495 / w ^ 3) ^ 2 = 754.875625 / w ^ 6) by (unfold Rdiv; replace (/ w ^ 6) with (/ w ^ 3 * / w ^ 3) by (field; lra); lra). rewrite E. split; [interval with (i_prec 30, i_bisect w)|].
  unfold Rdiv at 2. rewrite ln_mult, ln_Rinv by (try apply Rinv_0_lt_compat; try apply pow_lt; lra). 
  assert (L3 : ln (w ^ 3) = 3 * ln w) by (rewrite <- Rpower_pow by exact P; unfold Rpower; rewrite ln_exp; cbn [INR]; ring). rewrite L3.
  enough (754.875625 / w ^ 6 * exp w - 8.686 * w - 17.372 * ln 5495 + 52.116 * ln w <= 15 - 117 + 4.3) by lra. interval with (i_prec 30, i_bisect w, i_autodiff w).
Qed.
Lemma gain_200 k : -24.8 <= height_gain 200 k.
Proof. unfold height_gain. destruct (Rlt_dec 200 200); [lra|]. destruct (Rlt_dec 200 2000); [|lra]. cbv zeta. unfold gain_far, gain_near. interval with (i_prec 53). Qed.
Lemma gain_drop x y k : 0 < x -> x <= y -> 0.00003 <= k <= 0.287 -> height_gain x k <= height_gain y k + 4.3.
Proof.
  intros X L K. destruct (Rle_dec 200 x) as [H|H]; [assert (Q := gain_high x y k H L); lra|]. assert (KP : 0 < k < 1) by lra.
  set (w := - ln k). assert (W : 1248 / 1000 <= w <= 1042 / 100).
  { assert (A : ln k <= ln 0.287) by (apply ln_le_mono; lra). assert (B : ln 0.00003 <= ln k) by (apply ln_le_mono; lra).
    assert (A' : ln 0.287 <= -1248 / 1000) by (replace 0.287 with (287 / 1000) by lra; interval with (i_prec 53)). assert (B' : -1042 / 100 <= ln 0.00003) by (replace 0.00003 with (3 / 100000) by lra; interval with (i_prec 53)). unfold w. lra. }
  assert (W3 : 0 < w ^ 3) by (apply pow_lt; lra). destruct (Rlt_dec 5495 (x * w ^ 3)) as [T|T]; [assert (Q := gain_mono x y k X L KP (or_introl (or_intror (or_intror T)))); lra|].
  assert (T' : x * w ^ 3 <= 5495) by lra. assert (XT : x <= 5495 / w ^ 3). { apply Rmult_le_reg_r with (w ^ 3); [exact W3|]. unfold Rdiv. rewrite Rmult_assoc, Rinv_l by lra. lra. }
  assert (V : height_gain x k = low_gain x w).
  { unfold height_gain. fold w. destruct (Rlt_dec x 200); [|lra]. destruct (Rlt_dec k 0.00001); [lra|]. destruct (Rlt_dec 5495 (x * w ^ 3)); [lra|]. unfold low_gain. 
    assert (EK : / k = exp w) by (unfold w; rewrite exp_Ropp, exp_ln by lra; reflexivity). unfold Rdiv. rewrite EK. unfold w. ring. }
  assert (TOP : low_gain x w <= -20.5).
  { destruct (Rle_dec w (302 / 100)) as [C|C]; [assert (Q := low_short w ltac:(lra)); assert (M := low_mono x 200 w ltac:(lra) ltac:(lra)); lra|].
    destruct (low_long w ltac:(lra)) as [Q _]. assert (M := low_mono x _ w ltac:(lra) XT). lra. }
  destruct (Rle_dec 200 y) as [Y|Y]; [assert (Q := gain_high 200 y k ltac:(lra) Y); assert (Q' := gain_200 k); lra|].
  destruct (Rlt_dec 5495 (y * w ^ 3)) as [U|U].
  - assert (YT : 5495 / w ^ 3 < y). { apply Rmult_lt_reg_r with (w ^ 3); [exact W3|]. unfold Rdiv. rewrite Rmult_assoc, Rinv_l by lra. lra. }
    assert (Y1 : 4 < 5495 / w ^ 3) by interval with (i_prec 53, i_bisect w).
    assert (WL : 301 / 100 <= w). { destruct (Rle_dec (301 / 100) w) as [C|C]; [exact C|]. exfalso. assert (w ^ 3 <= (301 / 100) ^ 3) by (apply pow_incr; lra). nra. }
    destruct (low_long w ltac:(lra)) as [_ Q]. assert (M := low_mono x _ w ltac:(lra) XT).
    assert (V' : height_gain y k = gain_near y). { unfold height_gain. fold w. destruct (Rlt_dec y 200); [|lra]. destruct (Rlt_dec k 0.00001); [lra|]. destruct (Rlt_dec 5495 (y * w ^ 3)); [|lra]. destruct (Rlt_dec 1 y); [reflexivity | lra]. }
    rewrite V, V'. assert (N := near_mono (5495 / w ^ 3) y ltac:(lra) ltac:(lra)). unfold gain_near in N at 1. lra.
  - assert (N : ~ past_threshold y k) by (unfold past_threshold; fold w; intros [C|[C|C]]; lra). assert (Q := gain_mono x y k X L KP (or_intror N)). lra.
Qed.
Lemma gain_falls (x y k g g' : R) : 0 < x -> x <= y -> 0.00003 <= k <= 0.287 -> fht RA x k = Ok g -> fht RA y k = Ok g' -> g <= g' + 4.3.
Proof. intros X L K G G'. apply fht_value in G, G'. rewrite G, G'. apply gain_drop; assumption. Qed.
Lemma ground_range w : 0.838 <= w WN -> 0 < w GME <= 157 / 1000000000 -> 1 / 50 <= sqrt (w ZGR ^ 2 + w ZGI ^ 2) -> 0 < ground_constant w <= 0.287.
Proof.
  intros W G Z. assert (B := third_low (w WN) (w GME) W G). fold (earth_size w) in B. unfold ground_constant. set (e := earth_size w) in *. set (s := sqrt _) in *.
  assert (I : 1 / s <= 50). { apply Rmult_le_reg_r with s; [lra|]. unfold Rdiv. rewrite Rmult_assoc, Rinv_l by lra. lra. } assert (P : 0 < 1 / s) by (apply Rdiv_lt_0_compat; lra).
  split; [apply Rdiv_lt_0_compat; lra|]. apply Rmult_le_reg_r with e; [lra|]. unfold Rdiv at 1. rewrite Rmult_assoc, Rinv_l by lra. lra.
Qed.
Lemma height_costs k0 k1 k0' k1' (p p' q q' r r' : prop RA) w w' (d a a' : R) : link_entries p w -> link_entries p' w' -> pn p DH = Some 0 -> pn p' DH = Some 0 -> same_ground w w' ->
  not_lower k0 k1 k0' k1' w w' -> qlra RA k0 k1 p = Ok q -> qlra RA k0' k1' p' = Ok q' -> lrprop RA d q = Ok r -> lrprop RA d q' = Ok r' -> 0 < d -> on_diffraction_line r d -> on_diffraction_line r' d ->
  d <= common_horizon k0 k1 w + 2.7574 * diffraction_scale w -> 0.00003 <= ground_constant w -> pn r AREF = Some a -> pn r' AREF = Some a' -> a' <= a + 8.6.
Proof.
  intros L L' D D' SG [H0 H1] Q Q' E E' P O O' B K A A'.
  destruct (raised_line k0 k1 k0' k1' p p' w w' q q' r r' d a a' L L' D D' SG H0 H1 Q Q' E E' P O O' B A A') as (I & _ & G0 & G1).
  assert (KB : 0 < ground_constant w <= 0.287) by (destruct L as (_ & W & G & _ & _ & _ & Z & _); apply ground_range; assumption).
  assert (M0 := gain_drop _ _ (ground_constant w) (proj1 G0) (proj2 G0) ltac:(lra)). assert (M1 := gain_drop _ _ (ground_constant w) (proj1 G1) (proj2 G1) ltac:(lra)). lra.
Qed.
Lemma height_costs_region k0 k1 k0' k1' (p p' q q' r r' : prop RA) w w' (d a a' : R) : link_entries p w -> link_entries p' w' -> pn p DH = Some 0 -> pn p' DH = Some 0 -> same_ground w w' ->
  not_lower k0 k1 k0' k1' w w' -> qlra RA k0 k1 p = Ok q -> qlra RA k0' k1' p' = Ok q' -> lrprop RA d q = Ok r -> lrprop RA d q' = Ok r' -> w WN <= 200 -> d <= 10000000 ->
  common_horizon k0' k1' w' <= d <= common_horizon k0 k1 w + 0.3 * diffraction_scale w * ln (47.7 * w WN) -> 0.00003 <= ground_constant w ->
  pn r AREF = Some a -> pn r' AREF = Some a' -> a' <= a + 8.6.
Proof.
  intros L L' D D' SG [H0 H1] Q Q' E E' WB M B K A A'. destruct (region_both k0 k1 k0' k1' p p' w w' q q' r r' d L L' D D' SG H0 H1 Q Q' E E' WB M B) as (P & O & O' & B').
  exact (height_costs k0 k1 k0' k1' p p' q q' r r' w w' d a a' L L' D D' SG (conj H0 H1) Q Q' E E' P O O' B' K A A').
Qed.
(** Over smooth earth the effective height grows with the height and with the siting code. *)
Lemma site_value k h : 0.5 <= h -> effective_height k h 0 = h + (if (k <=? 0)%Z then 0 else (1 + (if (k =? 1)%Z then 4 else 9) * (if Rlt_dec h 5 then sin (0.3141593 * h) else 1)) * exp (-20)).
Proof.
  intro H. unfold effective_height. destruct (k <=? 0)%Z; [lra|]. rewrite Rmax_left by lra. rewrite Rmin_left; [reflexivity|].
  apply Rmult_le_reg_r with 0.001; [lra|]. unfold Rdiv. rewrite Rmult_assoc, Rinv_l by lra. lra.
Qed.
Lemma better_site k k' h h' : (k <= k')%Z -> 0.5 <= h -> h <= h' -> effective_height k h 0 <= effective_height k' h' 0.
Proof.
  intros KK H L. rewrite !site_value by lra.
  assert (S : forall x, 0.5 <= x -> 0 <= (if Rlt_dec x 5 then sin (0.3141593 * x) else 1) <= 1).
  { intros x X. destruct (Rlt_dec x 5); [|lra]. assert (PI > 3.1415) by interval with (i_prec 53). split; [apply sin_ge_0; lra | apply SIN_bound]. }
  assert (N : (if Rlt_dec h 5 then sin (0.3141593 * h) else 1) <= (if Rlt_dec h' 5 then sin (0.3141593 * h') else 1) + (h' - h)).
  { destruct (Rlt_dec h' 5) as [C'|C']; [|assert (X := S h H); lra]. destruct (Rlt_dec h 5); [|lra].
    destruct (Req_dec h h') as [->|NE]; [lra|]. destruct (MVT_cor2 (fun x => sin (0.3141593 * x)) (fun x => cos (0.3141593 * x) * 0.3141593) h h' ltac:(lra)) as (c & E & C).
    { intros x _. apply is_derive_Reals. auto_derive; [trivial | ring]. }
    assert (B := COS_bound (0.3141593 * c)). nra. }
  assert (X := S h H). assert (X' := S h' ltac:(lra)). set (s := if Rlt_dec h 5 then _ else _) in *. set (s' := if Rlt_dec h' 5 then _ else _) in *.
  assert (P : 0 < exp (-20)) by apply exp_pos. assert (P1 : exp (-20) <= 0.001) by interval with (i_prec 53). set (e := exp (-20)) in *.
  destruct (Z.leb_spec k 0); destruct (Z.leb_spec k' 0); try lia; [lra | | ].
  - assert (0 <= (1 + (if (k' =? 1)%Z then 4 else 9) * s') * e); [|lra]. apply Rmult_le_pos; [destruct (k' =? 1)%Z; nra | lra].
  - enough ((1 + (if (k =? 1)%Z then 4 else 9) * s) * e <= (1 + (if (k' =? 1)%Z then 4 else 9) * s') * e + (h' - h)) by lra.
    set (c := if (k =? 1)%Z then 4 else 9). set (c' := if (k' =? 1)%Z then 4 else 9).
    assert (CC : 4 <= c <= c' /\ c' <= 9). { unfold c, c'. destruct (Z.eqb_spec k 1); destruct (Z.eqb_spec k' 1); try lia; lra. }
    assert (M1 : c * s <= c' * s' + 9 * (h' - h)) by nra. assert (M2 : c * s * e <= (c' * s' + 9 * (h' - h)) * e) by (apply Rmult_le_compat_r; lra).
    assert (M3 : 9 * (h' - h) * e <= 9 * (h' - h) * 0.001) by (apply Rmult_le_compat_l; lra). lra.
Qed.
Lemma raised_not_lower k0 k1 k0' k1' p p' (w w' : nkey -> R) : link_entries p w -> link_entries p' w' -> (k0 <= k0')%Z -> (k1 <= k1')%Z -> w HG0 <= w' HG0 -> w HG1 <= w' HG1 -> not_lower k0 k1 k0' k1' w w'.
Proof. intros (_ & _ & _ & G0 & G1 & _) _ K0 K1 H0 H1. split; apply better_site; (assumption || lra). Qed.
Lemma drop_case : 0 < 150 /\ 150 <= 210 /\ 0.00003 <= 0.05 <= 0.287 /\ (exists g, fht RA 150 0.05 = Ok g) /\ (exists g, fht RA 210 0.05 = Ok g) /\ ~ past_threshold 150 0.05 /\ past_threshold 210 0.05.
Proof. repeat (split; [lra || (apply PfCurves.fht_total; lra)|]). split; [|left; lra]. unfold past_threshold. assert (150 * (- ln 0.05) ^ 3 <= 5495) by (replace 0.05 with (5 / 100) by lra; interval with (i_prec 53)). lra. Qed.
Lemma site_case : 0.00003 <= ground_constant (raised_v 20).
Proof. unfold ground_constant, earth_size, Rpower. cbn [raised_v]. interval with (i_prec 53). Qed.
(** 4.3 cannot be made 4.1. *)
Lemma gain_sharp : exists x y k g g' : R, 0 < x /\ x <= y /\ 0.00003 <= k <= 0.287 /\ fht RA x k = Ok g /\ fht RA y k = Ok g' /\ g' + 4.1 < g.
Proof.
  destruct (PfCurves.fht_total (1999 / 10) (4891 / 100000)) as [g G]; [lra..|]. destruct (PfCurves.fht_total (19999 / 100) (4891 / 100000)) as [g' G']; [lra..|].
  exists (1999 / 10), (19999 / 100), (4891 / 100000), g, g'. do 3 (split; [lra|]). split; [exact G|]. split; [exact G'|].
  apply fht_value in G, G'. rewrite G, G'. unfold height_gain, gain_near. set (t := - ln (4891 / 100000)).
  assert (A : 1999 / 10 * t ^ 3 <= 5495) by (unfold t; interval with (i_prec 53)). assert (B : 5495 < 19999 / 100 * t ^ 3) by (unfold t; interval with (i_prec 53)).
  destruct (Rlt_dec (1999 / 10) 200); [|lra]. destruct (Rlt_dec (19999 / 100) 200); [|lra]. destruct (Rlt_dec (4891 / 100000) 0.00001); [lra|].
  destruct (Rlt_dec 5495 (1999 / 10 * t ^ 3)); [lra|]. destruct (Rlt_dec 5495 (19999 / 100 * t ^ 3)); [|lra]. destruct (Rlt_dec 1 (19999 / 100)); [|lra].
  interval with (i_prec 53).
Qed.
