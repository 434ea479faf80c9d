(** How far a prediction lies from the reference attenuation; the tables of the scripts. *)
From Coq Require Import Lra Lia.
From Interval Require Import Tactic.
From Verif Require Import RTac Frame SpecLr SpecScripts Scripts PfFrame PfLrGen PfInst PfPrepGen PfRegime PfAvarGen PfAvarInc PfAvarApi PfAtten PfQuant SpecBand SpecPathRun PfAvarReal PfStats PfMisc PfP2P PfMode PfReverseCases PfReverse4 PfPathRun2 PfAreaRun2 PfQuantCases PfBand Arith.
Open Scope R_scope.

Lemma departure (t l c a z : R) p q lv : stat_state p -> path_inputs p -> pz p LVAR = Some lv -> (0 < lv)%Z -> avar RA t l c p = Ok (a, q) -> deviates_within z t l c ->
  exists k pp aref, pz q KLIM = Some k /\ pb q WL = Some pp /\ pn p AREF = Some aref /\
    let d := spread (time_spread k) (location_spread pp) z in squash (aref - median_below k - d) <= a <= squash (aref + median_above k + d).
Proof.
  intros S I L L0 H (Dt & Dl & Dc). destruct (C68_band_lem t l c a p q lv S I L L0 H) as (k & pp & WLp & _ & K & _ & _ & V & B).
  exists k, pp, (vals q AREF). split; [exact K|]. split; [exact WLp|]. 
  split. { transitivity (pn q AREF); [symmetry; assert (F := avar_frame RA t l c p (a, q) H); cbn [snd] in F; apply (fr_pn _ _ _ _ _ _ F); reflexivity | apply V; inks]. }
  cbv zeta. apply avar_inv in H as (p1 & m & _ & _ & _ & ->). destruct (raw_band (vals q) k pp m t l c z B Dt Dl Dc). split; apply squash_le; assumption.
Qed.
Lemma spread_mono s S g G z Z : 0 <= s <= S -> 0 <= g <= G -> 0 <= z <= Z -> 0 <= spread s g z <= spread S G Z.
Proof.
  intros A B C. unfold spread.
  assert (0 <= s * z <= S * Z) by (apply mul_le; assumption). assert (0 <= g * z <= G * Z) by (apply mul_le; assumption).
  assert (R1 : sqrt (64 + (s * z) ^ 2 / 7.8 + (g * z) ^ 2 / 24) <= sqrt (64 + (S * Z) ^ 2 / 7.8 + (G * Z) ^ 2 / 24)).
  { apply sqrt_le_1_alt. assert ((s * z) ^ 2 <= (S * Z) ^ 2) by (apply sq_le; lra). assert ((g * z) ^ 2 <= (G * Z) ^ 2) by (apply sq_le; lra). lra. }
  pose proof (sqrt_pos (64 + (s * z) ^ 2 / 7.8 + (g * z) ^ 2 / 24)).
  destruct (mul_le z (s + g) Z (S + G)); [lra | lra|]. destruct (mul_le z (sqrt (64 + (s * z) ^ 2 / 7.8 + (g * z) ^ 2 / 24)) Z (sqrt (64 + (S * Z) ^ 2 / 7.8 + (G * Z) ^ 2 / 24))); [lra | lra|]. lra.
Qed.
Lemma climate_ranges k : 0 <= median_below k <= 7.1 /\ 0 <= median_above k <= 9.67 /\ 0 <= time_spread k <= 18.8.
Proof. unfold median_below, median_above, time_spread. destruct k as [|[[[]|[]|]|[[]|[]|]|]|]; lra. Qed.
Lemma location_ranges pp : 0 <= location_spread pp <= 10.
Proof. unfold location_spread. destruct pp; lra. Qed.
Lemma spread_zero s g : spread s g 0 = 0.
Proof. unfold spread. ring. Qed.
Lemma median_departure (a : R) p q lv : stat_state p -> path_inputs p -> pz p LVAR = Some lv -> (0 < lv)%Z -> avar RA 0 0 0 p = Ok (a, q) ->
  exists k aref, pz q KLIM = Some k /\ pn p AREF = Some aref /\ squash (aref - median_below k) <= a <= squash (aref + median_above k).
Proof.
  intros S I L L0 H. destruct (departure 0 0 0 a 0 p q lv S I L L0 H ltac:(unfold deviates_within; lra)) as (k & pp & aref & K & _ & A & B). exists k, aref. split; [exact K|]. split; [exact A|].
  cbv zeta in B. rewrite spread_zero, Rminus_0_r, Rplus_0_r in B. exact B.
Qed.
(** ** Any levels *)
Lemma deviate_max (q v : R) : qerfi RA [q] = Ok [v] -> - (4.7533) <= v <= 4.7533.
Proof.
  intro H. apply qerfi_one_inv in H.
  assert (U : forall q v, qerfi1 RA q = Ok v -> v <= 4.7533).
  { clear. intros q v H. destruct (Rle_dec q (1 / 1000000)) as [L|G].
    - assert (E := qerfi1_sat q (1 / 1000000)%R L ltac:(lra)). rewrite qerfi1_max in E. rewrite H in E. injection E as ->. lra.
    - assert (E := qerfi1_anti (1 / 1000000) q (47533 / 10000) v ltac:(lra) qerfi1_max H). lra. }
  split; [|exact (U q v H)]. destruct (qerfi1_total (1 - q)) as [w W]. assert (E := qerfi1_odd q v w H W). apply U in W. lra.
Qed.
Lemma squash_at x y b : b = - y -> 0 < y -> (y * (29 + y)) <= x * (29 + 10 * y) -> - x <= squash b.
Proof.
  intros -> Y H. rewrite squash_neg by lra. replace (- y * (29 - - y) / (29 - 10 * - y)) with (- (y * (29 + y) / (29 + 10 * y))) by (field; lra).
  apply Ropp_le_contravar. apply Rmult_le_reg_r with (29 + 10 * y); [lra|]. unfold Rdiv. rewrite Rmult_assoc, Rinv_l by lra. lra.
Qed.
Lemma any_levels (qt ql qc t l c a : R) p q lv : stat_state p -> path_inputs p -> pz p LVAR = Some lv -> (0 < lv)%Z -> avar RA t l c p = Ok (a, q) ->
  qerfi RA [qt] = Ok [t] -> qerfi RA [ql] = Ok [l] -> qerfi RA [qc] = Ok [c] -> exists aref, pn p AREF = Some aref /\ (0 <= aref -> -34 <= a <= aref + 311).
Proof.
  intros S I L L0 H Qt Ql Qc. destruct (departure t l c a 4.7533 p q lv S I L L0 H) as (k & pp & aref & _ & _ & A & B).
  { split; [exact (deviate_max _ _ Qt)|]. split; [exact (deviate_max _ _ Ql) | exact (deviate_max _ _ Qc)]. }
  exists aref. split; [exact A|]. intro P. cbv zeta in B. destruct (climate_ranges k) as (K1 & K2 & K3).
  destruct (spread_mono _ 18.8 _ 10 4.7533 4.7533 K3 (location_ranges pp) ltac:(lra)) as [S0 S1].
  assert (U : spread 18.8 10 4.7533 <= 300.35). { unfold spread. replace 18.8 with (188 / 10) by lra. replace 7.8 with (78 / 10) by lra. replace 4.7533 with (47533 / 10000) by lra. replace 300.35 with (30035 / 100) by lra. interval with (i_prec 53). }
  destruct B as [B1 B2]. rewrite (squash_pos (_ + _ + _)) in B2 by lra. split; [|lra].
  eapply Rle_trans; [|exact B1]. eapply Rle_trans; [|apply squash_le with (a := - 307.5); lra]. apply (squash_at 34 307.5); lra.
Qed.
(** ** The tables *)
Lemma deviate_levels (r : Z) (z : R) : deviate RA r z -> (1 <= r <= 99)%Z -> - (2.33) <= z <= 2.33.
Proof.
  intros (t & E & Q) L. cbn [n_div RA n_Z] in E. rewrite r_div_ok in E by lra. injection E as <-. apply qerfi_one_inv in Q.
  assert (U : forall q v, 1 / 100 <= q -> qerfi1 RA q = Ok v -> v <= 2.33).
  { clear. intros q v G H. destruct (qerfi1_total (1 / 100)) as [w W]. assert (E := qerfi1_anti (1 / 100) q w v G W H). enough (w <= 2.33) by lra. clear - W.
    rewrite qerfi1_run in W. assert (W' := f_equal (fun r => match r with Ok a => a | Err _ => 0 end) W). cbn in W'. subst w.
    destruct (Rlt_dec _ _); [lra|]. replace (it (1/100)) with (1/100). 2:{ unfold it. rewrite Rabs_right by lra. rewrite Rmax_left; lra. }
    destruct (rrint_spec (iy (1/100) * 10000)) as [B _]. assert (iy (1/100) * 10000 <= 23290) by (unfold iy, ih, iN, iD; interval with (i_prec 53)).
    unfold Rabs in B. destruct (Rcase_abs _); lra. }
  assert (R1 : 1 <= IZR r <= 99) by (split; apply IZR_le; lia).
  split; [|apply (U (IZR r / 100) z); [lra | exact Q]]. destruct (qerfi1_total (1 - IZR r / 100)) as [w W]. assert (E := qerfi1_odd _ z w Q W). apply U in W; lra.
Qed.
Lemma deviate_half (z : R) : deviate RA 50 z -> z = 0.
Proof.
  intros (t & E & Q). cbn [n_div RA n_Z] in E. rewrite r_div_ok in E by lra. injection E as <-. apply qerfi_one_inv in Q. replace (50 / 100) with (1 / 2) in Q by lra.
  rewrite qerfi1_half in Q. injection Q as <-. reflexivity.
Qed.
Lemma C51_wn (p q : prop RA) z d f h0 h1 ipol : path_request p z d f h0 h1 ipol -> p2p_prepare RA z p = Ok q -> pn q WN = Some (f / 47.7).
Proof.
  intros A H. destruct A as (F & _ & _ & _ & I & _). destruct (p2p_environment z p q f ipol F I H) as (wn & gme & ens & zg & Q & W & _). rewrite W. f_equal.
  unfold qlrps in Q. apply bind_inv in Q as [w [E Q]]. cbn [n_div n_lit RA] in E. apply r_div_inv in E as [_ ->]. replace (f / 47.7) with (f / (477 / 10)) by lra.
  repeat (apply bind_inv in Q as [? [_ Q]]). injection Q as <-. reflexivity.
Qed.
(** What p2p.py hands to avar. *)
Lemma prepared (p q : prop RA) z d f h0 h1 ipol : path_request p z d f h0 h1 ipol -> p2p_prepare RA z p = Ok q -> (exists x : R, pn q DIST = Some x /\ 0 <= x) ->
  path_inputs q /\ pz q LVAR = Some 5%Z /\ pz q KLIM = Some 5%Z /\ pz q MDVAR = Some 11%Z /\ exists aref : R, pn q AREF = Some aref /\ 0 <= aref.
Proof.
  intros A H (x & DX & X0). destruct (p2p_prepare_facts RA z p q H) as (_ & LV & MD). assert (A' := A). destruct A' as (_ & _ & _ & _ & _ & _ & Pd & P0 & P1 & _).
  destruct (prepare_runs p z d f h0 h1 ipol A) as (q0 & w & EP & (Rf & Rd & Rv & RL & RK & RW & RX & RM) & W & PL & QL & WP & WG & W0 & W1 & _).
  assert (G := curvature_pos). rewrite <- WG in G. rewrite EP in H. clear EP.
  destruct (terrain_exist (script_path d z) h0 h1 (w GME) W P0 P1 G) as (u & GEO & DH0 & _). rewrite PL in GEO.
  destruct (GEO w q0 W0 W1 eq_refl) as (q1 & E1 & V1 & D1).
  { split; [exact Rf|]. split; [exact W|]. split; [intros k I; apply Rv; cbn in I |- *; tauto|]. rewrite W0, W1. auto. }
  assert (F1 := qlrpfl_geom_frame RA q0 q1 E1). cbn beta in F1.
  unfold qlrpfl in H. rewrite E1 in H. cbn [bind] in H. apply bind_inv in H as [q2 [E2 H]].
  destruct (prep_control_spec RA (-1) q1 q2 E2) as (lv & mx & kx & X1 & X2 & X3 & M2 & L2 & MV2 & K2 & F2).
  rewrite (fr_pz _ _ _ _ _ KLIMX F1) in X3 by reflexivity. assert (kx = 0%Z) by congruence. subst kx. cbn in K2.
  assert (F3 := lrprop_frame RA _ q2 q H). cbn beta in F3.
  split; [|split; [exact LV|split; [|split; [exact MD|]]]].
  - exists (fun k => match k with DIST => x | DH => u DH | _ => w WN end). split; [|cbn beta iota; repeat split; lra].
    intros k [<-|[<-|[<-|[]]]]; [exact DX | |]; rewrite (fr_pn _ _ _ _ _ _ F3), (fr_pn _ _ _ _ _ _ F2) by reflexivity; [apply V1; inks|].
    rewrite (fr_pn _ _ _ _ _ _ F1) by reflexivity. apply Rv. inks.
  - rewrite (fr_pz _ _ _ _ _ _ F3) by reflexivity. rewrite K2, (fr_pz _ _ _ _ _ _ F1) by reflexivity. exact RK.
  - apply c01_real in H. exact H.
Qed.
(** Mode 11 has no location variability. *)
Lemma point_mode (t l c a : R) p q : pz p LVAR = Some 5%Z -> pz p MDVAR = Some 11%Z -> avar RA t l c p = Ok (a, q) -> pb q WL = Some true.
Proof.
  intros L M H. apply avar_inv in H as (p1 & k & R & Q & _). destruct (quant_vals _ _ _ _ _ _ Q) as [_ EB]. rewrite EB. clear Q EB.
  unfold av_refresh in R. rewrite (proj2 (pz_getz RA p LVAR _) L) in R. cbn [bind] in R. change (0 <? 5)%Z with true in R. cbv iota in R.
  apply bind_inv in R as [p2 [R1 R]]. apply bind_inv in R as [p3 [R2 R]]. apply bind_inv in R as [p4 [R3 R]]. apply bind_inv in R as [p5 [R4 R5]]. cbn in R1, R2, R3, R4.
  assert (F5 := av_dist_frame RA p5 p1 R5). assert (F4 := av_he_frame RA _ p4 p5 R4). assert (F3 := av_freq_frame RA p3 p4 R3). assert (F1 := av_klim_frame RA p p2 R1). cbn beta in *.
  rewrite (fr_pb _ _ _ _ _ _ F5), (fr_pb _ _ _ _ _ _ F4), (fr_pb _ _ _ _ _ _ F3) by reflexivity.
  assert (M2 : pz p2 MDVAR = Some 11%Z) by (rewrite (fr_pz _ _ _ _ _ _ F1) by reflexivity; exact M). clear - R2 M2.
  destruct (av_mode_spec RA p2 p3 11 M2 R2) as (_ & B & _). exact B.
Qed.
Lemma p2p_table_within (p : prop RA) zs d f h0 h1 ipol out : path_request p zs d f h0 h1 ipol -> itmlogic_p2p RA zs p = Ok out ->
  exists q (aref : R), p2p_prepare RA zs p = Ok q /\ pn q AREF = Some aref /\ 0 <= aref /\ forall dd r c L : R, In (dd, r, c, L) (out_rows RA out) ->
    out_fs RA out + squash (aref - 71.2) <= L <= out_fs RA out + aref + 67.5 /\ out_fs RA out - 10 <= L /\
    (r = 50 -> c = 50 -> out_fs RA out + squash (aref - 4.3) <= L <= out_fs RA out + aref + 0.62).
Proof.
  intros A H. destruct (p2p_out_rows RA zs p out H) as (q & d' & EP & _ & (wn & x & lg & W & DX & LG & _) & ROWS).
  assert (X0 : exists x : R, pn q DIST = Some x /\ 0 <= x).
  { exists x. split; [exact DX|]. apply r_log_inv in LG as [LG _]. assert (0 < wn); [|cbn in LG; change (num RA) with R in *; nra].
    assert (E := C51_wn p q zs d f h0 h1 ipol A EP). rewrite W in E. injection E as ->. destruct A as (_ & _ & _ & _ & _ & Pf & _). apply Rdiv_lt_0_compat; lra. }
  destruct (prepared p q zs d f h0 h1 ipol A EP X0) as (I & LV & KL & MD & aref & AR & P). exists q, aref. split; [exact EP|]. split; [exact AR|]. split; [exact P|].
  set (fs := out_fs RA out) in *. clearbody fs.
  intros dd r c L IN. assert (R : exists rc, In rc p2p_levels /\ exists zr zc a q', deviate RA (fst rc) zr /\ deviate RA (snd rc) zc /\
      avar RA zr (@n_Z RA 0) zc q = Ok (a, q') /\ (dd, r, c, L) = (d', @n_Z RA (fst rc), @n_Z RA (snd rc), @n_add RA fs a)).
  { clear - ROWS IN. induction ROWS as [|rc row l rows R _ IH]; [destruct IN|]. destruct IN as [->|IN]; [exists rc; split; [left; reflexivity | exact R]|]. destruct (IH IN) as (rc' & J & E). exists rc'. split; [right; exact J | exact E]. }
  destruct R as (rc & J & zr & zc & a & q' & Dr & Dc & AV & E). injection E as _ Er Ec EL. cbn [n_Z n_add RA] in Er, Ec, EL. subst L.
  assert (LV' : (1 <= fst rc <= 99)%Z /\ (1 <= snd rc <= 99)%Z) by (clear - J; cbn in J; repeat (destruct J as [<-|J]; [cbn; lia|]); destruct J).
  assert (S : stat_state q) by (eapply st_full; [exact LV | lia]).
  assert (KL' : pz q' KLIM = Some 5%Z). { destruct (C68_band_lem zr 0 zc a q q' 5 S I LV ltac:(lia) AV) as (k & pp & _ & _ & K & K5 & _). rewrite K. f_equal. apply (K5 ltac:(lia) 5%Z KL). }
  assert (PT := point_mode _ _ _ _ _ _ LV MD AV).
  destruct (departure zr 0 zc a 2.33 q q' 5 S I LV ltac:(lia) AV) as (k & pp & ar & K & PP & AR' & B).
  { split; [exact (deviate_levels _ _ Dr (proj1 LV'))|]. split; [lra | exact (deviate_levels _ _ Dc (proj2 LV'))]. }
  assert (k = 5%Z) by congruence. assert (pp = true) by congruence. assert (ar = aref) by congruence. subst k pp ar. cbv zeta in B. cbn [median_below median_above time_spread location_spread] in B.
  assert (U : 0 <= spread 14.3 0 2.33 <= 66.85). { unfold spread. replace 14.3 with (143 / 10) by lra. replace 7.8 with (78 / 10) by lra. replace 2.33 with (233 / 100) by lra. replace 66.85 with (6685 / 100) by lra. split; interval with (i_prec 53). }
  destruct B as [B1 B2]. rewrite (squash_pos (_ + _ + _)) in B2 by lra.
  assert (M1 := squash_le (aref - 71.2) (aref - 4.3 - spread 14.3 0 2.33) ltac:(lra)).
  split; [split; lra|]. split.
  - assert (M2 := squash_le (- 71.2) (aref - 71.2) ltac:(lra)). assert (M3 := squash_at 10 71.2 (- 71.2) ltac:(lra) ltac:(lra) ltac:(lra)). lra.
  - intros R50 C50. assert (fst rc = 50%Z) by (apply eq_IZR; lra). assert (snd rc = 50%Z) by (apply eq_IZR; lra).
    replace (fst rc) with 50%Z in Dr by congruence. replace (snd rc) with 50%Z in Dc by congruence. apply deviate_half in Dr, Dc. subst zr zc.
    destruct (median_departure a q q' 5 S I LV ltac:(lia) AV) as (k & ar & K2 & AR2 & B). assert (k = 5%Z) by congruence. assert (ar = aref) by congruence. subst k ar. cbn [median_below median_above] in B.
    rewrite (squash_pos (_ + _)) in B by lra. lra.
Qed.
(** ** area.py *)
Lemma kept (t l c a : R) p q lv : pz p LVAR = Some lv -> (lv <= 0)%Z -> avar RA t l c p = Ok (a, q) ->
  (forall k, vals q k = vals p k) /\ pb q WL = pb p WL /\ pz q KLIM = pz p KLIM /\ exists m, a = squash (raw_quantile (vals q) m t l c).
Proof.
  intros L L0 H. apply avar_inv in H as (p1 & m & R & Q & _ & E). unfold av_refresh in R. rewrite (proj2 (pz_getz RA p LVAR lv) L) in R. cbn [bind] in R.
  replace (0 <? lv)%Z with false in R by lia. apply ok_inj in R. subst p1. assert (F := av_quant_frame RA t l c p (a, q) Q). cbn [snd] in F.
  split; [intro k; unfold vals; rewrite (proj1 F k) by (intros []); reflexivity|]. split; [apply (fr_pb _ _ _ _ _ _ F); reflexivity|]. split; [apply (fr_pz _ _ _ _ _ _ F); reflexivity | eauto].
Qed.
Lemma within_ext k pp v w : (forall x, w x = v x) -> stats_within k pp v -> stats_within k pp w.
Proof. intros E. unfold stats_within, time_dev. rewrite !E. auto. Qed.
Section AreaRows.
Variable w : nkey -> R. Hypothesis DH0 : 0 <= w DH. Hypothesis WN0 : 0 < w WN.
Definition area_state (p : prop RA) : Prop := stat_on p /\ pz p KLIM = Some 5%Z /\ (exists m, pz p MDP = Some m /\ (0 <= m)%Z) /\ values p [DH; WN] w.
Definition primed (p : prop RA) : Prop := (exists lv, pz p LVAR = Some lv /\ (0 < lv)%Z) \/ exists pp, pb p WL = Some pp /\ stats_within 5 pp (vals p).
Lemma row_within (t l c a x aref z : R) p q : area_state p -> primed p -> pn p DIST = Some x -> 0 <= x -> pn p AREF = Some aref -> 0 <= aref -> deviates_within z t l c -> avar RA t l c p = Ok (a, q) ->
  area_state q /\ primed q /\ pn q DIST = Some x /\ pn q AREF = Some aref /\ squash (aref - 4.3 - spread 14.3 10 z) <= a <= aref + 0.62 + spread 14.3 10 z.
Proof.
  intros ((S & lv & kl & md & L & KL & MD) & K & MM & V) PR DX X0 AR A0 DV H.
  destruct (C27_effects RA t l c a p q lv H L) as [LQ F].
  assert (ST : stat_state q) by (eapply st_next; [exact S | exact H | split; [reflexivity | split; reflexivity]]).
  assert (B : exists pp, pb q WL = Some pp /\ pz q KLIM = Some 5%Z /\ stats_within 5 pp (vals q) /\ exists m, a = squash (raw_quantile (vals q) m t l c)).
  { destruct (Z.ltb_spec 0 lv) as [L0|L0].
    - assert (I : path_inputs p).
      { exists (fun k => match k with DIST => x | _ => w k end). split; [|cbn; lra]. intros k [<-|[<-|[<-|[]]]]; [exact DX | apply V; inks | apply V; inks]. }
      destruct (C68_band_lem t l c a p q lv S I L L0 H) as (k & pp & W & _ & KQ & K1 & K2 & _ & B).
      assert (k = 5%Z) as ->. { destruct (Z.ltb_spec 4 lv) as [G|G]; [exact (K1 G 5%Z K)|]. specialize (K2 G). congruence. }
      exists pp. split; [exact W|]. split; [exact KQ|]. split; [exact B|]. apply avar_inv in H as (p1 & m & _ & _ & _ & E). eauto.
    - destruct (kept t l c a p q lv L L0 H) as (E1 & E2 & E3 & E4). destruct PR as [(lv' & L' & G)|(pp & W & B)]; [assert (lv' = lv) by congruence; lia|].
      exists pp. split; [congruence|]. split; [congruence|]. split; [exact (within_ext _ _ _ _ E1 B) | exact E4]. }
  destruct B as (pp & W & KQ & B & m & E).
  split; [split; [split; [exact ST|]|split; [exact KQ|split; [rewrite (fr_pz _ _ _ _ _ MDP F) by reflexivity; exact MM|]]]|].
  - do 3 eexists. split; [exact LQ|]. split; [exact KQ|]. rewrite (fr_pz _ _ _ _ _ MDVAR F) by reflexivity. exact MD.
  - intros k I. rewrite (fr_pn _ _ _ _ _ k F) by (cbn in I; repeat (destruct I as [<-|I]; [reflexivity|]); destruct I). apply V. exact I.
  - split; [right; exists pp; auto|]. split; [rewrite (fr_pn _ _ _ _ _ _ F) by reflexivity; exact DX|]. split; [rewrite (fr_pn _ _ _ _ _ _ F) by reflexivity; exact AR|].
    assert (EA : vals q AREF = aref) by (apply vals_some; rewrite (fr_pn _ _ _ _ _ _ F) by reflexivity; exact AR).
    destruct DV as (Dt & Dl & Dc). destruct (raw_band (vals q) 5 pp m t l c z B Dt Dl Dc) as [R1 R2]. rewrite EA in R1, R2. cbn [median_below median_above time_spread] in R1, R2.
    destruct (spread_mono 14.3 14.3 _ 10 z z ltac:(lra) (location_ranges pp) ltac:(lra)) as [S0 S1].
    apply squash_le in R1, R2. rewrite <- E in R1, R2. rewrite (squash_pos (_ + _ + _)) in R2 by lra. split; [|lra]. eapply Rle_trans; [|exact R1]. apply squash_le. lra.
Qed.
Definition above_floor (z : R) (row : R * R * R) : Prop := 8.685890 * ln (2 * w WN * (fst (fst row) * 1000)) + squash (- 4.3 - spread 14.3 10 z) <= snd row.
Lemma rows_above (D FS ZT ZL x aref z : R) qz (p r : prop RA) rows : (forall q c, In (q, c) qz -> deviates_within z ZT ZL c) ->
  area_state p -> primed p -> pn p DIST = Some x -> 0 <= x -> pn p AREF = Some aref -> 0 <= aref -> area_rows RA D FS ZT ZL qz p = Ok (rows, r) ->
  area_state r /\ forall row, In row rows -> fst (fst row) = D /\ FS + squash (aref - 4.3 - spread 14.3 10 z) <= snd row.
Proof.
  intros DV. revert p rows. induction qz as [|[qc zc] qz IH]; intros p rows A P DX X0 AR A0 H; cbn [area_rows] in H.
  - injection H as <- <-. split; [exact A | intros row []].
  - apply bind_inv in H as [[a p1] [E H]]. cbn [fst snd] in H. apply bind_inv in H as [[rs p2] [E2 H]]. injection H as <- <-.
    destruct (row_within ZT ZL zc a x aref z p p1 A P DX X0 AR A0 (DV qc zc ltac:(left; reflexivity)) E) as (A1 & P1 & DX1 & AR1 & B).
    destruct (IH ltac:(intros q c I; apply (DV q c); right; exact I) p1 rs A1 P1 DX1 X0 AR1 A0 E2) as (A2 & B2). split; [exact A2|].
    intros row [<-|I]; [|apply B2; exact I]. cbn. split; [reflexivity | lra].
Qed.
Lemma loop_above n JD NDC (D DT DS2 ZT ZL z : R) qz (p : prop RA) rows : (forall q c, In (q, c) qz -> deviates_within z ZT ZL c) ->
  area_state p -> area_loop RA n JD NDC D DT DS2 ZT ZL qz p = Ok rows -> forall row, In row rows -> above_floor z row.
Proof.
  intros DV. revert JD D DT p rows. induction n as [|n IH]; intros JD D DT p rows A H; cbn [area_loop] in H; [injection H as <-; intros row []|].
  apply bind_inv in H as [lv [L H]]. apply pz_getz in L. cbv zeta in H. apply bind_inv in H as [q [E H]]. apply bind_inv in H as [wn [W H]]. apply pn_getn in W.
  apply bind_inv in H as [x [DX H]]. apply pn_getn in DX. apply bind_inv in H as [lg [LG H]]. apply bind_inv in H as [[rs r] [ER H]]. cbn [fst snd] in H. apply bind_inv in H as [rest [EL H]]. injection H as <-.
  destruct A as (S & K & (m & M & M0) & V). assert (S1 := stat_lvar p lv L S). assert (S2 := stat_lrprop _ _ _ E S1).
  destruct (lrprop_area RA _ _ _ m E M M0) as [MQ DQ]. assert (F := E). apply lrprop_frame in F. cbn beta in F.
  assert (AQ : area_state q).
  { split; [exact S2|]. split; [rewrite (fr_pz _ _ _ _ _ _ F) by reflexivity; exact K|]. split; [exists 0%Z; split; [exact MQ | lia]|].
    intros k I. rewrite (fr_pn _ _ _ _ _ k F) by (cbn in I; repeat (destruct I as [<-|I]; [reflexivity|]); destruct I). apply V. exact I. }
  assert (wn = w WN) as ->. { assert (X := proj2 (proj2 (proj2 AQ)) WN ltac:(inks)). change (num RA) with R in *. congruence. }
  assert (x = (D * 1000)%R) as -> by (rewrite DQ in DX; injection DX as <-; reflexivity).
  apply r_log_inv in LG as [LG ->]. cbn [n_mul n_Z n_lit RA] in LG, ER. change (num RA) with R in *.
  assert (X0 : 0 <= D * 1000) by nra.
  destruct (c01_real _ _ _ E) as (aref & AR & A0).
  assert (PR : primed q) by (left; exists (Z.max 1 lv); split; [rewrite (fr_pz _ _ _ _ _ _ F) by reflexivity; reflexivity | lia]).
  destruct (rows_above D _ ZT ZL (D * 1000) aref z qz q r rs DV AQ PR DX X0 AR A0 ER) as [AR' B].
  intros row I. apply in_app_or in I as [I|I].
  - destruct (B row I) as [E1 B1]. destruct row as [[rd rq] rl]. unfold above_floor. cbn [fst snd] in *. subst rd. assert (M1 := squash_le (- 4.3 - spread 14.3 10 z) (aref - 4.3 - spread 14.3 10 z) ltac:(lra)).
    replace (8685890 / 1000000) with 8.685890 in B1 by lra. lra.
  - revert I. eapply IH; [exact AR' | exact EL].
Qed.
End AreaRows.
Lemma area_prepared (p q0 q : prop RA) (f dh : R) k0 k1 : pn p FMHZ = Some f -> pn p DH = Some dh -> 0 < f -> 0 <= dh -> area_env RA p = Ok q0 -> qlra RA k0 k1 q0 = Ok q ->
  exists w, area_state w q /\ w WN = f / 47.7 /\ w DH = dh.
Proof.
  intros PF PD F0 D0 E H. unfold area_env, script_gme in E. cbv zeta in E. dsimp_in E. rewrite (proj2 (pn_getn RA p FMHZ f) PF) in E. cbn [bind] in E.
  apply bind_inv in E as [wn [W E]]. cbn [n_div n_lit RA] in W. apply r_div_inv in W as [_ ->].
  apply bind_inv in E as [p1 [E1 E]]. apply bind_inv in E1 as [t [_ E1]]. apply bind_inv in E1 as [e [_ E1]]. injection E1 as <-.
  apply bind_inv in E as [t2 [_ E]]. apply bind_inv in E as [s [_ E]]. apply bind_inv in E as [ip [_ E]]. apply bind_inv in E as [zg [_ E]]. apply ok_inj in E.
  destruct (qlra_control RA k0 k1 q0 q H) as (lv & mx & kx & L & MX & KX & MDP' & LQ & MQ & KQ & F). subst q0. cbn in L, MX, KX. injection L as <-. injection MX as <-. injection KX as <-. cbn in LQ, MQ, KQ.
  exists (fun k => match k with WN => f / 47.7 | _ => dh end). split; [|split; reflexivity]. split; [split; [eapply st_full; [exact LQ | lia]|]|].
  - do 3 eexists. split; [exact LQ|]. split; [exact KQ | exact MQ].
  - split; [exact KQ|]. split; [exists 1%Z; split; [exact MDP' | lia]|].
    intros k [<-|[<-|[]]]; rewrite (fr_pn _ _ _ _ _ _ F) by reflexivity; cbn; [exact PD | f_equal; cbn; lra].
Qed.
Lemma area_floor (c : area_cfg RA) (p : prop RA) (f dh z : R) rows : pn p FMHZ = Some f -> pn p DH = Some dh -> 0 < f -> 0 <= dh ->
  (forall q v, In q (cfg_QT RA c :: cfg_QL RA c :: cfg_QC RA c) -> qerfi RA [(q / 100)%R] = Ok [v] -> - z <= v <= z) -> itmlogic_area_cfg RA c p = Ok rows ->
  forall D q L : R, In (D, q, L) rows -> 8.685890 * ln (2 * (f / 47.7) * (D * 1000)) + squash (- 4.3 - spread 14.3 10 z) <= L.
Proof.
  intros PF PD F0 D0 DZ H. unfold itmlogic_area_cfg in H. cbv zeta in H. apply bind_inv in H as [qt [E1 H]]. apply bind_inv in H as [ZT [E2 H]]. apply bind_inv in H as [ql [E3 H]]. apply bind_inv in H as [ZL [E4 H]].
  apply bind_inv in H as [qc [E5 H]]. apply bind_inv in H as [ZC [E6 H]]. apply bind_inv in H as [[[[d0 DS] ND] NDC] [E7 H]]. apply bind_inv in H as [q0 [E8 H]]. apply bind_inv in H as [q [E9 H]]. apply bind_inv in H as [DT [E10 H]].
  destruct (area_prepared p q0 q f dh _ _ PF PD F0 D0 E8 E9) as (w & AS & W1 & W2).
  cbn [n_div n_Z RA] in E1, E3. apply r_div_inv in E1 as [_ ->]. apply r_div_inv in E3 as [_ ->].
  assert (DV : forall q c0, In (q, c0) (combine (cfg_QC RA c) ZC) -> deviates_within z ZT ZL c0).
  { intros q1 c1 I. split; [apply (DZ (cfg_QT RA c)); [left; reflexivity | rewrite qerfi_one, E2; reflexivity]|]. split; [apply (DZ (cfg_QL RA c)); [right; left; reflexivity | rewrite qerfi_one, E4; reflexivity]|].
    assert (J : In q1 (cfg_QC RA c) /\ qerfi RA [(q1 / 100)%R] = Ok [c1]).
    { clear - E5 E6 I. revert qc ZC E5 E6 I. induction (cfg_QC RA c) as [|x l IH]; intros qc ZC E5 E6 I; [destruct I|]. cbn [mapM] in E5.
      apply bind_inv in E5 as [y [Ey E5]]. apply bind_inv in E5 as [ys [Eys E5]]. injection E5 as <-. cbn [n_div n_Z RA] in Ey. apply r_div_inv in Ey as [_ ->].
      unfold qerfi in E6. cbn [mapM] in E6. apply bind_inv in E6 as [v [Ev E6]]. apply bind_inv in E6 as [vs [Evs E6]]. injection E6 as <-. destruct I as [I|I].
      - injection I as <- <-. split; [left; reflexivity | rewrite qerfi_one, Ev; reflexivity].
      - destruct (IH ys vs Eys Evs I). split; [right; assumption | assumption]. }
    apply (DZ q1 c1); [right; right; apply J | apply J]. }
  intros D qq L I. assert (B := loop_above w ltac:(rewrite W2; exact D0) ltac:(rewrite W1; apply Rdiv_lt_0_compat; lra) _ _ _ _ _ _ _ _ z _ q rows DV AS H _ I). unfold above_floor in B. cbn [fst snd] in B. rewrite W1 in B. exact B.
Qed.
Lemma area_floor_any (c : area_cfg RA) (p : prop RA) (f dh : R) rows : pn p FMHZ = Some f -> pn p DH = Some dh -> 0 < f -> 0 <= dh -> itmlogic_area_cfg RA c p = Ok rows ->
  forall D q L : R, In (D, q, L) rows -> 8.685890 * ln (2 * (f / 47.7) * (D * 1000)) - 29 <= L.
Proof.
  intros PF PD F0 D0 H D q L I. assert (B := area_floor c p f dh 4.7533 rows PF PD F0 D0 (fun q v _ Q => deviate_max _ _ Q) H D q L I).
  assert (U : 0 <= spread 14.3 10 4.7533 <= 250.3). { unfold spread. replace 14.3 with (143 / 10) by lra. replace 7.8 with (78 / 10) by lra. replace 4.7533 with (47533 / 10000) by lra. replace 250.3 with (2503 / 10) by lra. split; interval with (i_prec 53). }
  assert (M := squash_le (- 255) (- 4.3 - spread 14.3 10 4.7533) ltac:(lra)). assert (N := squash_at 29 255 (- 255) ltac:(lra) ltac:(lra) ltac:(lra)). lra.
Qed.
Lemma area_floor_script (p : prop RA) (f dh : R) rows : pn p FMHZ = Some f -> pn p DH = Some dh -> 0 < f -> 0 <= dh -> itmlogic_area RA p = Ok rows ->
  forall D q L : R, In (D, q, L) rows -> 8.685890 * ln (2 * (f / 47.7) * (D * 1000)) - 8 <= L.
Proof.
  intros PF PD F0 D0 H D q L I. assert (B := area_floor (area_default RA) p f dh 1.29 rows PF PD F0 D0).
  assert (DZ : forall q v : R, In q (cfg_QT RA (area_default RA) :: cfg_QL RA (area_default RA) :: cfg_QC RA (area_default RA)) -> qerfi RA [(q / 100)%R] = Ok [v] -> - (1.29) <= v <= 1.29).
  { clear. destruct qerfi_tenth as (v1 & v9 & T1 & T9 & B & E). intros q v I Q.
    assert (q = 50 \/ q = 90 \/ q = 10) as [-> |[-> | ->]] by (cbn in I; intuition).
    - replace (50 / 100) with (1 / 2) in Q by lra. rewrite qerfi_half in Q. injection Q as <-. lra.
    - replace (90 / 100) with (1 - 1 / 10) in Q by lra. rewrite T9 in Q. injection Q as <-. lra.
    - replace (10 / 100) with (1 / 10) in Q by lra. rewrite T1 in Q. injection Q as <-. lra. }
  specialize (B DZ H D q L I).
  assert (U : 0 <= spread 14.3 10 1.29 <= 46). { unfold spread. replace 14.3 with (143 / 10) by lra. replace 7.8 with (78 / 10) by lra. replace 1.29 with (129 / 100) by lra. split; interval with (i_prec 53). }
  assert (M := squash_le (- 50.3) (- 4.3 - spread 14.3 10 1.29) ltac:(lra)). assert (N := squash_at 8 50.3 (- 50.3) ltac:(lra) ltac:(lra) ltac:(lra)). lra.
Qed.
Lemma statistics (t l c a : R) p q lv : stat_state p -> path_inputs p -> pz p LVAR = Some lv -> (0 < lv)%Z -> avar RA t l c p = Ok (a, q) ->
  exists k point v, pz q KLIM = Some k /\ (1 <= k <= 7)%Z /\ ((4 < lv)%Z -> forall asked, pz p KLIM = Some asked -> k = climate_used asked) /\
    ((lv <= 4)%Z -> pz p KLIM = Some k) /\ pb q WL = Some point /\ values q quantile_keys v /\ stats_within k point v.
Proof.
  intros S I L L0 H. destruct (C68_band_lem t l c a p q lv S I L L0 H) as (k & pp & W & R & K & K1 & K2 & V & B). exists k, pp, (vals q). auto 10.
Qed.
Lemma band_case m (t l c : R) : (0 <= m <= 3)%Z -> stat_state (case_stat m 5) /\ path_inputs (case_stat m 5) /\ exists a q, avar RA t l c (case_stat m 5) = Ok (a, q).
Proof.
  intros _. split; [apply case_stat_full|]. split; [|apply case_stat_runs]. exists (fun k => match k with DIST => 60000 | DH => 90 | _ => 2 end).
  split; [|cbn; lra]. intros k I. cbn in I. repeat destruct I as [<-|I]; try contradiction; reflexivity.
Qed.
