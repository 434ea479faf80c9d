(** Bounds of the statistics avar computes. *)
From Coq Require Import Lra Lia.
From Interval Require Import Tactic.
From Verif Require Import Frame SpecLr PfFrame PfLrGen PfRegime PfAvarGen PfAvarInc PfAvarApi PfAtten PfQuant SpecBand PfAvarReal PfStats Arith.
Open Scope R_scope.

Lemma curve_nonpos_min c1 c2 x1 x2 x3 de : 0 <= c2 -> Rmin c1 0 <= climate_curve c1 c2 x1 x2 x3 de.
Proof.
  intro C. unfold climate_curve. pose proof (pow2_ge_0 ((de - x2) / x3)). pose proof (pow2_ge_0 (de / x1)). set (s := (de / x1) ^ 2) in *. set (t := ((de - x2) / x3) ^ 2) in *.
  assert (0 <= c2 / (1 + t)) by (apply Rmult_le_pos; [assumption | left; apply Rinv_0_lt_compat; lra]).
  assert (F : 0 <= s / (1 + s) <= 1). { split; [apply Rmult_le_pos; [lra | left; apply Rinv_0_lt_compat; lra]|]. apply Rmult_le_reg_r with (1 + s); [lra|]. unfold Rdiv. rewrite Rmult_assoc, Rinv_l by lra. lra. }
  replace ((c1 + c2 / (1 + t)) * s / (1 + s)) with ((c1 + c2 / (1 + t)) * (s / (1 + s))) by (unfold Rdiv; ring). set (f := s / (1 + s)) in *.
  assert (Rmin c1 0 <= c1 * f). { unfold Rmin. destruct (Rle_dec c1 0); nra. } nra.
Qed.
Lemma curve_le c1 c2 x1 x2 x3 X B : 0 < x3 -> 0 <= c2 -> x2 <= X -> 0 <= B -> c1 + c2 / (1 + ((X - x2) / x3) ^ 2) <= B ->
  (forall x, 0 <= x <= X -> climate_curve c1 c2 x1 x2 x3 x <= B) -> forall de, 0 <= de -> climate_curve c1 c2 x1 x2 x3 de <= B.
Proof.
  intros X3 C XX BB T L de D. destruct (Rle_dec de X) as [Le|G]; [apply L; lra|]. apply Rnot_le_lt in G. unfold climate_curve.
  assert (K : ((X - x2) / x3) ^ 2 <= ((de - x2) / x3) ^ 2). { apply pow_incr. split; [apply Rmult_le_pos; [lra | left; apply Rinv_0_lt_compat; lra]|]. apply Rmult_le_compat_r; [left; apply Rinv_0_lt_compat; lra | lra]. }
  pose proof (pow2_ge_0 ((X - x2) / x3)). pose proof (pow2_ge_0 (de / x1)). set (s := (de / x1) ^ 2) in *. set (t := ((de - x2) / x3) ^ 2) in *. set (u := ((X - x2) / x3) ^ 2) in *.
  assert (M : c2 / (1 + t) <= c2 / (1 + u)) by (apply Rmult_le_compat_l; [exact C|]; apply Rinv_le_contravar; lra).
  assert (F : 0 <= s / (1 + s) <= 1). { split; [apply Rmult_le_pos; [lra | left; apply Rinv_0_lt_compat; lra]|]. apply Rmult_le_reg_r with (1 + s); [lra|]. unfold Rdiv. rewrite Rmult_assoc, Rinv_l by lra. lra. }
  replace ((c1 + c2 / (1 + t)) * s / (1 + s)) with ((c1 + c2 / (1 + t)) * (s / (1 + s))) by (unfold Rdiv; ring). set (f := s / (1 + s)) in *. nra.
Qed.
Ltac cle := apply (curve_le _ _ _ _ _ 4000000); [lra | lra | lra | lra | interval with (i_prec 53) | intros x X; unfold climate_curve; interval with (i_prec 53, i_bisect x, i_depth 30)].
Lemma v1 : forall de, 0 <= de -> climate_curve ((-967) / 100) (127 / 10) (144900 / 1) (190300 / 1) (133800 / 1) de <= 2.
Proof. cle. Qed.
Lemma v2 : forall de, 0 <= de -> climate_curve ((-62) / 100) (919 / 100) (228900 / 1) (205200 / 1) (143600 / 1) de <= 43/10.
Proof. cle. Qed.
Lemma v3 : forall de, 0 <= de -> climate_curve (126 / 100) (155 / 10) (262600 / 1) (185200 / 1) (99800 / 1) de <= 63/10.
Proof. cle. Qed.
Lemma v5 : forall de, 0 <= de -> climate_curve ((-62) / 100) (919 / 100) (228900 / 1) (205200 / 1) (143600 / 1) de <= 43/10.
Proof. cle. Qed.
Lemma v6 : forall de, 0 <= de -> climate_curve ((-39) / 100) (286 / 100) (141700 / 1) (315900 / 1) (167400 / 1) de <= 21/10.
Proof. cle. Qed.
Lemma v7 : forall de, 0 <= de -> climate_curve (315 / 100) (8579 / 10) (2222000 / 1) (164800 / 1) (116300 / 1) de <= 71/10.
Proof. cle. Qed.
Lemma m1 : forall de, 0 <= de -> climate_curve (213 / 100) (1595 / 10) (762200 / 1) (123600 / 1) (94500 / 1) de <= 65/10.
Proof. cle. Qed.
Lemma m2 : forall de, 0 <= de -> climate_curve (266 / 100) (767 / 100) (100400 / 1) (172500 / 1) (136400 / 1) de <= 81/10.
Proof. cle. Qed.
Lemma m3 : forall de, 0 <= de -> climate_curve (611 / 100) (665 / 100) (138200 / 1) (242200 / 1) (178600 / 1) de <= 101/10.
Proof. cle. Qed.
Lemma m4 : forall de, 0 <= de -> climate_curve (198 / 100) (1311 / 100) (139100 / 1) (132700 / 1) (193500 / 1) de <= 93/10.
Proof. cle. Qed.
Lemma m5 : forall de, 0 <= de -> climate_curve (268 / 100) (716 / 100) (93700 / 1) (186800 / 1) (133500 / 1) de <= 81/10.
Proof. cle. Qed.
Lemma m6 : forall de, 0 <= de -> climate_curve (686 / 100) (1038 / 100) (187800 / 1) (169600 / 1) (108900 / 1) de <= 9.
Proof. cle. Qed.
Lemma m7 : forall de, 0 <= de -> climate_curve (851 / 100) (1698 / 10) (609800 / 1) (119900 / 1) (106600 / 1) de <= 115/10.
Proof. cle. Qed.
Lemma p1 : forall de, 0 <= de -> climate_curve (211 / 100) (1023 / 10) (636900 / 1) (134800 / 1) (95600 / 1) de <= 65/10.
Proof. cle. Qed.
Lemma p2 : forall de, 0 <= de -> climate_curve (687 / 100) (1553 / 100) (138700 / 1) (143700 / 1) (98600 / 1) de <= 129/10.
Proof. cle. Qed.
Lemma p3 : forall de, 0 <= de -> climate_curve (1008 / 100) (960 / 100) (165300 / 1) (225700 / 1) (129700 / 1) de <= 136/10.
Proof. cle. Qed.
Lemma p4 : forall de, 0 <= de -> climate_curve (368 / 100) (1593 / 10) (464400 / 1) (93100 / 1) (94200 / 1) de <= 1175/100.
Proof. cle. Qed.
Lemma p5 : forall de, 0 <= de -> climate_curve (475 / 100) (812 / 100) (93200 / 1) (135900 / 1) (113400 / 1) de <= 94/10.
Proof. cle. Qed.
Lemma p6 : forall de, 0 <= de -> climate_curve (858 / 100) (1397 / 100) (216000 / 1) (152000 / 1) (122700 / 1) de <= 987/100.
Proof. cle. Qed.
Lemma p7 : forall de, 0 <= de -> climate_curve (843 / 100) (819 / 100) (136200 / 1) (188500 / 1) (122900 / 1) de <= 117/10.
Proof. cle. Qed.
Lemma v4 : forall de, 0 <= de -> climate_curve ((-921) / 100) (905 / 100) (84100 / 1) (101100 / 1) (98600 / 1) de <= 0.
Proof.
  intros de D. unfold climate_curve. pose proof (pow2_ge_0 ((de - 101100 / 1) / (98600 / 1))). pose proof (pow2_ge_0 (de / (84100 / 1))). set (s := (de / _) ^ 2) in *. set (t := ((de - _) / _) ^ 2) in *.
  assert (905 / 100 / (1 + t) <= 905 / 100). { apply Rmult_le_reg_r with (1 + t); [lra|]. unfold Rdiv at 1. rewrite Rmult_assoc, Rinv_l by lra. nra. }
  assert (0 <= s / (1 + s)) by (apply Rmult_le_pos; [lra | left; apply Rinv_0_lt_compat; lra]).
  replace ((-921 / 100 + 905 / 100 / (1 + t)) * s / (1 + s)) with ((-921 / 100 + 905 / 100 / (1 + t)) * (s / (1 + s))) by (unfold Rdiv; ring). nra.
Qed.

(** ** Which climate is in use *)
Definition tied (k : Z) (p : prop RA) : Prop := (1 <= k <= 7)%Z /\ pz p KLIM = Some k /\ map (pn p) climate_keys = map Some (climate_row k).
Lemma tied_frame nk zk bk k p q : same_except nk zk bk p q -> forallb (fun k => negb (memn k nk)) climate_keys = true -> memz KLIM zk = false -> tied k p -> tied k q.
Proof.
  intros F N Z (K & E & M). split; [exact K|]. split; [exact (keep_z _ _ _ _ _ _ _ F Z E)|]. rewrite <- M. apply map_ext_in. intros x I. exact (same_frame _ _ _ _ _ _ F N x I).
Qed.
Lemma refresh_tied th p q lv : av_refresh RA th p = Ok q -> pz p LVAR = Some lv -> (4 < lv)%Z \/ (exists k, tied k p) ->
  exists k, tied k q /\ ((4 < lv)%Z -> forall c, pz p KLIM = Some c -> k = climate_used c) /\ ((lv <= 4)%Z -> tied k p).
Proof.
  intros H L C. unfold av_refresh in H. rewrite (proj2 (pz_getz RA p LVAR lv) L) in H. cbn [bind] in H.
  destruct (0 <? lv)%Z eqn:L0; [|apply ok_inj in H; subst q; destruct C as [C|[k C]]; [lia|]; exists k; split; [exact C|split; [lia | auto]]].
  apply bind_inv in H as [p1 [R1 H]]. apply bind_inv in H as [p2 [R2 H]]. apply bind_inv in H as [p3 [R3 H]]. apply bind_inv in H as [p4 [R4 R5]].
  assert (T1 : exists k, tied k p1 /\ ((4 < lv)%Z -> forall c, pz p KLIM = Some c -> k = climate_used c) /\ ((lv <= 4)%Z -> tied k p)).
  { destruct (Z.ltb_spec 4 lv).
    - assert (exists k, pz p KLIM = Some k) as [k K] by (unfold av_klim in R1; apply bind_inv in R1 as [k [K _]]; apply pz_getz in K; eauto).
      destruct (av_klim_spec RA p p1 k K R1) as (M & E & _). exists (climate_used k). split; [|split; [intros _ c Ec; congruence | lia]].
      split; [unfold climate_used; destruct ((1 <=? k)%Z && (k <=? 7)%Z)%bool eqn:B; lia | auto].
    - apply ok_inj in R1. subst p1. destruct C as [C|[k C]]; [lia|]. exists k. split; [exact C|split; [lia | auto]]. }
  destruct T1 as (k & T1 & K1 & K2). exists k. split; [|auto].
  eapply tied_frame; [exact (av_dist_frame RA p4 q R5) | reflexivity | reflexivity|].
  eapply tied_frame with (nk := [DEXA]) (zk := []) (bk := []); [|reflexivity | reflexivity|]. { destruct (1 <? lv)%Z; [apply (av_he_frame RA _ p3 p4 R4) | apply ok_inj in R4; subst p4; apply fr_refl]. }
  eapply tied_frame with (nk := [GM; GP]) (zk := []) (bk := []); [|reflexivity | reflexivity|]. { destruct (2 <? lv)%Z; [apply (av_freq_frame RA p2 p3 R3) | apply ok_inj in R3; subst p3; apply fr_refl]. }
  eapply tied_frame with (nk := []) (zk := [KDV; KWX]) (bk := [WS; WL]); [|reflexivity | reflexivity | exact T1]. { destruct (3 <? lv)%Z; [apply (av_mode_frame RA p1 p2 R2) | apply ok_inj in R2; subst p2; apply fr_refl]. }
Qed.
Lemma avar_tied (t l c a : R) p q lv : pz p LVAR = Some lv -> (4 < lv)%Z \/ (exists k, tied k p) -> avar RA t l c p = Ok (a, q) ->
  exists k, tied k q /\ ((4 < lv)%Z -> forall c, pz p KLIM = Some c -> k = climate_used c) /\ ((lv <= 4)%Z -> tied k p).
Proof.
  intros L C H. apply avar_inv in H as (p1 & k & R & Q & _). destruct (refresh_tied _ _ _ lv R L C) as (k' & T & K). exists k'. split; [|exact K].
  eapply tied_frame; [exact (av_quant_frame RA t l c p1 (a, q) Q) | reflexivity | reflexivity | exact T].
Qed.
Lemma stat_tied p : stat_state p -> (exists lv, pz p LVAR = Some lv /\ (4 < lv)%Z) \/ exists k, tied k p.
Proof.
  induction 1 as [p lv L G | p t l c a q q' S IH H G]; [left; eauto|]. right.
  assert (exists lv, pz p LVAR = Some lv) as [lv L]. { apply avar_inv in H as (p1 & k & R & _). unfold av_refresh in R. apply bind_inv in R as [lv [L _]]. apply pz_getz in L. eauto. }
  destruct (avar_tied t l c a p q lv L) as (k & T & _); [destruct IH as [[x [E X]]|IH]; [left; congruence | right; exact IH] | exact H|].
  exists k. destruct T as (K & E & M). split; [exact K|]. destruct G as (Gn & Gz & _). split; [rewrite <- Gz by (left; reflexivity); exact E|].
  rewrite <- M. apply map_ext_in. intros x I. symmetry. apply Gn. apply in_or_app. left. exact I.
Qed.
(** ** Bounds per climate *)
Lemma factor_range (v : nkey -> R) c1 c2 c3 : 0 <= v c2 -> v c1 <= freq_factor v c1 c2 c3 <= v c1 + v c2.
Proof.
  intro P. unfold freq_factor. pose proof (pow2_ge_0 (v c3 * ln (0.133 * v WN))). set (t := (_ * _) ^ 2) in *.
  assert (0 <= v c2 / (t + 1) <= v c2). { split; [apply Rmult_le_pos; [exact P | left; apply Rinv_0_lt_compat; lra]|]. apply Rmult_le_reg_r with (t + 1); [lra|]. unfold Rdiv. rewrite Rmult_assoc, Rinv_l by lra. nra. }
  lra.
Qed.
Lemma dev_range (v : nkey -> R) (T : R) : 0 <= v SGTM <= T -> 0 <= v SGTP <= T -> 0 <= v SGTD <= T -> 0 < v ZD -> v TGTD = (v SGTP - v SGTD) * v ZD -> forall z, 0 <= time_dev v z <= T.
Proof.
  intros M P D Z E z. unfold time_dev. destruct (Rlt_dec z 0); [exact M|]. destruct (Rle_dec z (v ZD)) as [Le|G]; [exact P|]. apply Rnot_le_lt in G. rewrite E.
  set (r := v ZD / z). assert (0 <= r <= 1). { split; [left; apply Rdiv_lt_0_compat; lra|]. apply Rmult_le_reg_r with z; [lra|]. unfold r, Rdiv. rewrite Rmult_assoc, Rinv_l by lra. lra. }
  replace (v SGTD + (v SGTP - v SGTD) * v ZD / z) with (v SGTD * (1 - r) + v SGTP * r) by (unfold r; field; lra). nra.
Qed.
Lemma mul_le a b c d : 0 <= a <= c -> 0 <= b <= d -> 0 <= a * b <= c * d.
Proof. intros. split; [apply Rmult_le_pos; lra | apply Rmult_le_compat; lra]. Qed.
Lemma location_range (q : R) : 0 <= q -> 0 <= 10 * q / (q + 13) <= 10.
Proof.
  intro Q. split; [apply Rmult_le_pos; [lra | left; apply Rinv_0_lt_compat; lra]|]. apply Rmult_le_reg_r with (q + 13); [lra|]. unfold Rdiv. rewrite Rmult_assoc, Rinv_l by lra. lra.
Qed.
Lemma irregularity_nonneg (v : nkey -> R) (d : R) : 0 <= v DH -> 0 <= d -> 0 <= irregularity_at v d.
Proof.
  intros H D. unfold irregularity_at. apply Rmult_le_pos; [|exact H].
  assert (exp (- d / 50000) <= 1). { rewrite <- exp_0. destruct D as [D| <-]; [left; apply exp_increasing; lra | right; f_equal; lra]. } lra.
Qed.
Definition gain_keys : list nkey := [CFM1; CFM2; CFM3; CFP1; CFP2; CFP3; GM; GP].
Definition gained (v : nkey -> R) : Prop := v CFM1 <= v GM <= v CFM1 + v CFM2 /\ v CFP1 <= v GP <= v CFP1 + v CFP2.
Lemma gained_same v w : (forall k, In k gain_keys -> w k = v k) -> gained v -> gained w.
Proof. unfold gained. intros E. rewrite !E by inks. auto. Qed.
Lemma tied_facts k p : tied k p -> row_ok p.
Proof. intros (K & _ & M). exists k. auto. Qed.
Lemma row_gain p : row_ok p -> 0 <= vals p CFM2 /\ 0 <= vals p CFP2.
Proof. intro R. destruct (row_vals p R) as [_ (_ & _ & _ & _ & _ & [_ A] & [_ B])]. auto. Qed.
Lemma avar_gained (t l c a : R) p q lv : pz p LVAR = Some lv -> (4 < lv)%Z \/ (cache_ok p /\ gained (vals p)) -> avar RA t l c p = Ok (a, q) -> gained (vals q).
Proof.
  intros L C H. assert (C' : (4 < lv)%Z \/ cache_ok p) by tauto. apply avar_inv in H as (p1 & k & R & Q & _).
  destruct (quant_vals _ _ _ _ _ _ Q) as [EN _]. apply (gained_same (vals p1)); [intros z _; unfold vals; rewrite EN; reflexivity|]. clear Q EN.
  destruct (Z.ltb_spec 2 lv) as [G|G].
  - assert (CQ := refresh_cache p p1 lv R L C'). destruct (row_gain p1 (proj1 CQ)). destruct (refresh_value p p1 lv R L C' ltac:(lia)) as (_ & _ & FQ). destruct (FQ G) as [E1 E2].
    unfold gained. rewrite E1, E2. split; apply factor_range; assumption.
  - destruct C as [C|[_ C]]; [lia|]. revert C. apply gained_same. intros x I.
    unfold av_refresh in R. rewrite (proj2 (pz_getz RA p LVAR lv) L) in R. cbn [bind] in R.
    destruct (0 <? lv)%Z eqn:L0; [|apply ok_inj in R; subst p1; reflexivity].
    apply bind_inv in R as [p2 [R1 R]]. apply bind_inv in R as [p3 [R2 R]]. apply bind_inv in R as [p4 [R3 R]]. apply bind_inv in R as [p5 [R4 R5]].
    replace (4 <? lv)%Z with false in R1 by lia. replace (3 <? lv)%Z with false in R2 by lia. replace (2 <? lv)%Z with false in R3 by lia.
    apply ok_inj in R1, R2, R3. subst p2 p3 p4.
    assert (F4 : same_except [DEXA] [] [] p p5). { destruct (1 <? lv)%Z; [apply (av_he_frame RA _ p p5 R4) | apply ok_inj in R4; subst p5; apply fr_refl]. }
    assert (F5 := av_dist_frame RA p5 p1 R5). cbn beta in F5.
    transitivity (vals p5 x); eapply vals_same; [exact F5 | | exact F4 |]; cbn in I; repeat (destruct I as [<-|I]; [reflexivity|]); destruct I.
Qed.
Lemma stat_gained p : stat_state p -> (exists lv, pz p LVAR = Some lv /\ (4 < lv)%Z) \/ gained (vals p).
Proof.
  induction 1 as [p lv L G | p t l c a q q' S IH H G]; [left; eauto|]. right.
  assert (exists lv, pz p LVAR = Some lv) as [lv L]. { apply avar_inv in H as (p1 & k & R & _). unfold av_refresh in R. apply bind_inv in R as [lv [L _]]. apply pz_getz in L. eauto. }
  assert (P := stat_pre p S). assert (C : (4 < lv)%Z \/ (cache_ok p /\ gained (vals p))).
  { destruct P as [[x [E X]]|P]; [left; congruence|]. destruct IH as [[x [E X]]|IH]; [left; congruence | right; auto]. }
  apply (gained_same (vals q)); [|exact (avar_gained t l c a p q lv L C H)].
  intros x I. unfold vals. destruct G as (Gn & _). rewrite <- Gn; [reflexivity|]. cbn in I. repeat (destruct I as [<-|I]; [inks|]). destruct I.
Qed.
Lemma spread_le a b c g1 g2 g d (T B : R) : 0 <= c -> 0 <= a <= B -> 0 <= g1 -> g1 <= g <= g1 + g2 -> B * (g1 + g2) <= T -> d = 1 \/ B * (g1 + g2) * d <= T /\ 0 <= d -> b = d -> 0 <= a * g * b <= T.
Proof.
  intros _ A G1 G X D ->. destruct (mul_le a g B (g1 + g2) A ltac:(lra)) as [P Q]. destruct D as [-> | [D D0]]; [lra|].
  destruct (mul_le (a * g) d (B * (g1 + g2)) d (conj P Q) ltac:(lra)). lra.
Qed.
Lemma tied_vals k p : tied k p -> map (vals p) climate_keys = (climate_row k : list (num RA)).
Proof.
  intros (_ & _ & M). assert (E : map (vals p) climate_keys = map (fun o : option R => match o with Some x => x | None => 0 end) (map (pn p) climate_keys)) by (rewrite map_map; reflexivity).
  rewrite E, M, map_map. apply map_id.
Qed.
Lemma tied_band k p pp interf : tied k p -> gained (vals p) -> distance_stats (vals p) pp interf -> 0 <= effective_distance (vals p) ->
  (pp = false -> 0 <= irregularity_at (vals p) (vals p DIST) * vals p WN) -> stats_within k pp (vals p).
Proof.
  intros T G D De Q. assert (K := proj1 T). destruct (row_vals p (tied_facts k p T)) as [_ F]. apply tied_vals in T. set (v := vals p) in *. clearbody v.
  destruct F as (_ & (Fm1 & Fm2 & _) & (Fp1 & Fp2 & _) & Fd & Fz & (Fg1 & Fg2) & (Fh1 & Fh2)). destruct G as [G1 G2]. destruct D as (V & Sm & Sp & Sd & Td & Sl & Vs).
  assert (B : - median_above k <= v VMD <= median_below k /\ 0 <= v SGTM <= time_spread k /\ 0 <= v SGTP <= time_spread k /\ 0 <= v SGTD <= time_spread k).
  { assert (N1 := curve_nonneg (v CSM1) (v CSM2) (v YSM1) (v YSM2) (v YSM3) (effective_distance v) ltac:(lra) ltac:(lra)).
    assert (N2 := curve_nonneg (v CSP1) (v CSP2) (v YSP1) (v YSP2) (v YSP3) (effective_distance v) ltac:(lra) ltac:(lra)).
    change (0 <= curve_at v CSM1 CSM2 YSM1 YSM2 YSM3 (effective_distance v)) in N1. change (0 <= curve_at v CSP1 CSP2 YSP1 YSP2 YSP3 (effective_distance v)) in N2.
    assert (N3 := curve_nonpos_min (v CV1) (v CV2) (v YV1) (v YV2) (v YV3) (effective_distance v)). change (0 <= v CV2 -> Rmin (v CV1) 0 <= curve_at v CV1 CV2 YV1 YV2 YV3 (effective_distance v)) in N3.
    rewrite <- V in N3. 
    set (cm := curve_at v CSM1 _ _ _ _ _) in *. set (cp := curve_at v CSP1 _ _ _ _ _) in *. 
    assert (L : v VMD <= median_below k /\ - median_above k <= Rmin (v CV1) 0 /\ 0 <= v CV2 /\ exists bm bp, cm <= bm /\ cp <= bp /\ bm * (v CFM1 + v CFM2) <= time_spread k /\ bp * (v CFP1 + v CFP2) <= time_spread k /\ bp * (v CFP1 + v CFP2) * v CSD1 <= time_spread k).
    { rewrite V. subst cm cp. unfold curve_at. set (de := effective_distance v) in *. clearbody de. clear - T De K.
      assert (D : (k = 1 \/ k = 2 \/ k = 3 \/ k = 4 \/ k = 5 \/ k = 6 \/ k = 7)%Z) by lia.
      destruct D as [->|[->|[->|[->|[->|[->| ->]]]]]]; cbn [map climate_keys climate_row] in T;
        injection T as E1 E2 E3 E4 E5 E6 E7 E8 E9 E10 E11 E12 E13 E14 E15 E16 E17 E18 E19 E20 E21 E22 E23;
        rewrite E1, E2, E3, E4, E5, E6, E7, E8, E9, E10, E11, E12, E13, E14, E15, E16, E18, E19, E21, E22; cbn.
      - clear - De. split; [eapply Rle_trans; [apply v1; exact De | lra]|]. split; [apply Rmin_glb; lra|]. split; [lra|]. exists (65/10), (65/10). split; [apply m1; exact De|]. split; [apply p1; exact De|]. lra.
      - clear - De. split; [eapply Rle_trans; [apply v2; exact De | lra]|]. split; [apply Rmin_glb; lra|]. split; [lra|]. exists (81/10), (129/10). split; [apply m2; exact De|]. split; [apply p2; exact De|]. lra.
      - clear - De. split; [eapply Rle_trans; [apply v3; exact De | lra]|]. split; [apply Rmin_glb; lra|]. split; [lra|]. exists (101/10), (136/10). split; [apply m3; exact De|]. split; [apply p3; exact De|]. lra.
      - clear - De. split; [eapply Rle_trans; [apply v4; exact De | lra]|]. split; [apply Rmin_glb; lra|]. split; [lra|]. exists (93/10), (1175/100). split; [apply m4; exact De|]. split; [apply p4; exact De|]. lra.
      - clear - De. split; [eapply Rle_trans; [apply v5; exact De | lra]|]. split; [apply Rmin_glb; lra|]. split; [lra|]. exists (81/10), (94/10). split; [apply m5; exact De|]. split; [apply p5; exact De|]. lra.
      - clear - De. split; [eapply Rle_trans; [apply v6; exact De | lra]|]. split; [apply Rmin_glb; lra|]. split; [lra|]. exists (9), (987/100). split; [apply m6; exact De|]. split; [apply p6; exact De|]. lra.
      - clear - De. split; [eapply Rle_trans; [apply v7; exact De | lra]|]. split; [apply Rmin_glb; lra|]. split; [lra|]. exists (115/10), (117/10). split; [apply m7; exact De|]. split; [apply p7; exact De|]. lra.
    }
    clear T. destruct L as (L1 & L2 & L3 & bm & bp & L4 & L5 & L6 & L7 & L8). specialize (N3 L3). rewrite Sm, Sd, Sp.
    destruct (mul_le cm (v GM) bm (v CFM1 + v CFM2)); [lra | lra|]. destruct (mul_le cp (v GP) bp (v CFP1 + v CFP2)); [lra | lra|].
    destruct (mul_le (cp * v GP) (v CSD1) (bp * (v CFP1 + v CFP2)) (v CSD1)); [lra | lra|]. repeat split; lra. }
  destruct B as (B1 & B2 & B3 & B4). split; [exact B1|]. split; [apply dev_range; auto|]. split.
  - rewrite Sl. unfold location_spread. destruct pp; [lra|]. unfold location_dev. cbv zeta. apply location_range. apply Q. reflexivity.
  - rewrite Vs. destruct interf; [lra|]. assert (0 < exp (- effective_distance v / 100000) <= 1); [|nra].
    split; [apply exp_pos|]. rewrite <- exp_0. destruct De as [De| <-]; [left; apply exp_increasing; lra | right; f_equal; lra].
Qed.
Lemma C68_band_lem (t l c a : R) p q lv : stat_state p -> path_inputs p -> pz p LVAR = Some lv -> (0 < lv)%Z -> avar RA t l c p = Ok (a, q) ->
  exists k pp, pb q WL = Some pp /\ (1 <= k <= 7)%Z /\ pz q KLIM = Some k /\ ((4 < lv)%Z -> forall c, pz p KLIM = Some c -> k = climate_used c) /\ ((lv <= 4)%Z -> pz p KLIM = Some k) /\
    values q quantile_keys (vals q) /\ stats_within k pp (vals q).
Proof.
  intros S (w & W & W1 & W2 & W3) L L0 H.
  assert (C : (4 < lv)%Z \/ (cache_ok p /\ gained (vals p) /\ exists k, tied k p)).
  { destruct (stat_pre p S) as [[x [E X]]|A]; [left; congruence|]. destruct (stat_gained p S) as [[x [E X]]|B]; [left; congruence|]. destruct (stat_tied p S) as [[x [E X]]|D]; [left; congruence|]. right; auto. }
  destruct (avar_tied t l c a p q lv L ltac:(tauto) H) as (k & T & K1 & K2).
  assert (G := avar_gained t l c a p q lv L ltac:(tauto) H). assert (CQ := stat_cache _ _ _ _ _ _ S H).
  assert (AR := avar_aref _ _ _ _ _ _ H).
  apply avar_inv in H as (p1 & k1 & R & Q & _). destruct (quant_vals _ _ _ _ _ _ Q) as [EN EB].
  destruct (refresh_value p p1 lv R L ltac:(tauto) L0) as ((pp & interf & WLp & _ & D & _ & _) & _ & _).
  exists k, pp. split; [rewrite EB; exact WLp|]. split; [apply T|]. split; [apply T|]. split; [exact K1|]. split; [intro Le; apply K2; exact Le|].
  split; [intros x I; cbn in I; repeat destruct I as [<-|I]; try contradiction; try exact AR; apply cache_get; try exact CQ; inks|].
  assert (EV : forall k, vals q k = vals p1 k) by (intro z; unfold vals; rewrite EN; reflexivity).
  apply (distance_stats_ext _ _ _ _ EV) in D.
  assert (F := av_refresh_frame RA _ p p1 R). cbn beta in F.
  assert (EK : forall x, In x [DIST; DH; WN] -> vals q x = w x).
  { intros x I. rewrite EV. apply vals_some. rewrite <- (W x I). apply (fr_pn _ _ _ _ _ _ F). cbn in I. repeat (destruct I as [<-|I]; [reflexivity|]). destruct I. }
  assert (X := proj1 (proj2 (proj2 CQ))). destruct X as [x [Ex Px]]. apply vals_some in Ex.
  apply (tied_band k q pp interf T G D).
  - unfold effective_distance. rewrite Ex, EK by inks. destruct (Rlt_dec _ _); [|lra]. apply Rmult_le_pos; [lra | left; apply Rinv_0_lt_compat; exact Px].
  - intros _. apply Rmult_le_pos; [|rewrite EK by inks; lra]. apply irregularity_nonneg; rewrite EK by inks; assumption.
Qed.
(** ** How far the quantile lies from the reference attenuation *)
Lemma sqrt_two a b : 0 <= a -> 0 <= b -> sqrt (a ^ 2 + b ^ 2) <= a + b.
Proof. intros A B. rewrite <- (sqrt_pow2 (a + b)) by lra. apply sqrt_le_1_alt. nra. Qed.
Lemma sqrt_three a b w : 0 <= a -> 0 <= b -> 0 <= w -> sqrt (a ^ 2 + b ^ 2 + w) <= a + b + sqrt w.
Proof. intros A B W. pose proof (sqrt_pos w). rewrite <- (sqrt_pow2 (a + b + sqrt w)) by lra. apply sqrt_le_1_alt. pose proof (sqrt_sqrt w W). nra. Qed.
Lemma sqrt_one a w : 0 <= a -> 0 <= w -> sqrt (a ^ 2 + w) <= a + sqrt w.
Proof. intros A W. pose proof (sqrt_three a 0 w A (Rle_refl 0) W). replace (a ^ 2 + w) with (a ^ 2 + 0 ^ 2 + w) by ring. lra. Qed.
Lemma sq_le x y : - y <= x <= y -> x ^ 2 <= y ^ 2.
Proof. intro. nra. Qed.
Lemma abs_mul_le x y a b : 0 <= a <= b -> - y <= x <= y -> - (y * b) <= a * x <= y * b.
Proof. intros. nra. Qed.
Lemma var_le v k g t l c z : stats_within k g v -> - z <= t <= z -> - z <= l <= z -> 0 <= situation_var v t l c <= 64 + (time_spread k * z) ^ 2 / 7.8 + (location_spread g * z) ^ 2 / 24.
Proof.
  intros (_ & T & S & V) Ht Hl. unfold situation_var. specialize (T t). pose proof (pow2_ge_0 c).
  assert (X : forall a b k, 0 < k -> 0 <= a -> a <= b -> 0 <= a / (k + c ^ 2) <= b / k).
  { intros a b k0 K A B. split; [apply Rmult_le_pos; [exact A | left; apply Rinv_0_lt_compat; lra]|]. apply Rmult_le_compat; [exact A | left; apply Rinv_0_lt_compat; lra | exact B | apply Rinv_le_contravar; lra]. }
  assert (A1 : (time_dev v t * t) ^ 2 <= (time_spread k * z) ^ 2) by (apply sq_le; rewrite (Rmult_comm (time_spread k)); apply abs_mul_le; assumption).
  assert (A2 : (v SGL * l) ^ 2 <= (location_spread g * z) ^ 2) by (apply sq_le; rewrite (Rmult_comm (location_spread g)); apply abs_mul_le; assumption).
  destruct (X _ _ 7.8 ltac:(lra) (pow2_ge_0 _) A1). destruct (X _ _ 24 ltac:(lra) (pow2_ge_0 _) A2). lra.
Qed.
Lemma raw_band v k g m t l c z : stats_within k g v -> - z <= t <= z -> - z <= l <= z -> - z <= c <= z ->
  v AREF - median_below k - spread (time_spread k) (location_spread g) z <= raw_quantile v m t l c <= v AREF + median_above k + spread (time_spread k) (location_spread g) z.
Proof.
  intros B Ht Hl Hc. assert (B' := B). destruct B' as (Bv & Bt & Bs & _). unfold raw_quantile, spread. cbv zeta.
  set (W := 64 + _ + _). assert (Var := fun t l c => var_le v k g t l c z B). fold W in Var.
  assert (SW : forall t l c, - z <= t <= z -> - z <= l <= z -> 0 <= sqrt (situation_var v t l c) <= sqrt W).
  { intros t0 l0 c0 H1 H2. split; [apply sqrt_pos | apply sqrt_le_1_alt; apply Var; assumption]. }
  assert (X : forall d, - (z * (time_spread k + location_spread g) + z * sqrt W) <= d <= z * (time_spread k + location_spread g) + z * sqrt W ->
     v AREF - median_below k - (z * (time_spread k + location_spread g) + z * sqrt W) <= v AREF - v VMD - d <= v AREF + median_above k + (z * (time_spread k + location_spread g) + z * sqrt W)) by (intros; lra).
  apply X. clear X.
  destruct (m =? 0)%Z; [|destruct (m =? 1)%Z; [|destruct (m =? 2)%Z]].
  - assert (E := SW c c c Hc Hc). assert (E2 := sqrt_three (time_dev v c) (v SGL) (situation_var v c c c) ltac:(apply Bt) ltac:(lra) ltac:(apply Var; assumption)). specialize (Bt c).
    pose proof (sqrt_pos (time_dev v c ^ 2 + v SGL ^ 2 + situation_var v c c c)). set (r := sqrt (time_dev v c ^ 2 + _ + _)) in *. rewrite (Rmult_comm c r).
    destruct (abs_mul_le c z r (time_spread k + location_spread g + sqrt W)); [lra | lra|]. lra.
  - assert (E := SW t c c Ht Hc). assert (E2 := sqrt_one (v SGL) (situation_var v t c c) ltac:(lra) ltac:(apply Var; assumption)). specialize (Bt t).
    pose proof (sqrt_pos (v SGL ^ 2 + situation_var v t c c)). set (r := sqrt (v SGL ^ 2 + _)) in *. rewrite (Rmult_comm c r).
    destruct (abs_mul_le c z r (location_spread g + sqrt W)); [lra | lra|]. destruct (abs_mul_le t z (time_dev v t) (time_spread k)); [lra | lra|]. lra.
  - assert (E := SW t t c Ht Ht). assert (E2 := sqrt_two (time_dev v t) (v SGL) ltac:(apply Bt) ltac:(lra)). specialize (Bt t).
    pose proof (sqrt_pos (time_dev v t ^ 2 + v SGL ^ 2)). set (r := sqrt (time_dev v t ^ 2 + _)) in *. rewrite (Rmult_comm t r).
    destruct (abs_mul_le t z r (time_spread k + location_spread g)); [lra | lra|]. rewrite (Rmult_comm c). destruct (abs_mul_le c z (sqrt (situation_var v t t c)) (sqrt W)); [lra | lra|]. lra.
  - assert (E := SW t l c Ht Hl). specialize (Bt t).
    destruct (abs_mul_le t z (time_dev v t) (time_spread k)); [lra | lra|]. destruct (abs_mul_le l z (v SGL) (location_spread g)); [lra | lra|].
    rewrite (Rmult_comm c). destruct (abs_mul_le c z (sqrt (situation_var v t l c)) (sqrt W)); [lra | lra|]. lra.
Qed.
