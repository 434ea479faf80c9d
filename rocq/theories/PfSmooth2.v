(** Smooth earth: attenuation never falls with distance, and every distance within the horizons is answered. *)
From Coq Require Import Lra Lia List.
From Verif Require Import RInst SpecLr SpecTotal SpecLoss SpecTerminal RTac Frame LrProp Prep PfFrame PfStats PfRegime PfLrGen PfAvarReal PfAtten PfScat PfRef PfTotal2 PfTotal3 PfTotal4 PfTotal6 PfLos PfLosRef PfTerminal PfLoss PfLoss2 PfFlight PfSmooth Arith.
Import ListNotations.
Open Scope R_scope.

Lemma fit_inside v b : smooth v -> reference_params v b -> 0 < fit_d1 v < v DLSA /\ 0 < fit_d0 v.
Proof.
  intros S R. destruct (smooth_horizons v b S R) as (SL & _ & P0 & P1 & LA). destruct (smooth_line v b S R) as [EP A2].
  destruct S as (BW & BG & _ & _ & _ & H0 & H1 & _).
  assert (PP : 0 < 1.908 * v WN * v HE0 * v HE1) by (apply Rmult_lt_0_compat; [apply Rmult_lt_0_compat|]; lra).
  unfold fit_d0, fit_d1, los_d1, los_d0. destruct (Rle_dec 0 (v AED)) as [Z|Z].
  - assert (M : Rmin (1.908 * v WN * v HE0 * v HE1) (0.5 * v DLA) <= 0.5 * v DLA) by apply Rmin_r.
    assert (Q : 0 < Rmin (1.908 * v WN * v HE0 * v HE1) (0.5 * v DLA)) by (apply Rmin_glb_lt; lra).
    repeat split; intros; lra.
  - assert (- v AED / v EMD < v DLSA) by (apply Rmult_lt_reg_r with (v EMD); [exact EP|]; unfold Rdiv; rewrite Rmult_assoc, Rinv_l by lra; lra).
    assert (0.25 * v DLA <= Rmax (- v AED / v EMD) (0.25 * v DLA)) by apply Rmax_r.
    assert (Rmax (- v AED / v EMD) (0.25 * v DLA) < v DLSA) by (apply Rmax_lub_lt; lra). repeat split; intros; lra.
Qed.
Lemma smooth_sane v b : smooth v -> reference_params v b -> los_params v -> 0 <= v AK1 /\ 0 <= v AK2.
Proof.
  intros S R (L1 & L2 & L3 & _). destruct (fit_inside v b S R) as ([D1 D1'] & D0). destruct (smooth_line v b S R) as [EP _].
  destruct (Rlt_dec (fit_d0 v) (fit_d1 v)) as [F|F].
  - assert (U : fit_used v \/ ~ fit_used v).
    { unfold fit_used. destruct (Rle_dec 0 (v AED)) as [Z|Z]; [left; split; [exact F | left; exact Z]|].
      destruct (Rlt_dec 0 (fit_ak2 v)) as [Z'|Z']; [left; split; [exact F | right; exact Z'] | right; intros [_ [X|X]]; contradiction]. }
    destruct U as [U|U].
    + destruct (Rle_dec 0 (fit_ak1 v)) as [K|K].
      * destruct (L1 U K) as [-> ->]. split; [exact K | apply Rmax_l].
      * destruct (L2 U ltac:(lra)) as [E ->]. split; [match goal with |- context [Req_EM_T ?a ?b] => destruct (Req_EM_T a b) end; lra|]. rewrite E.
        apply Rmult_le_pos; [apply Rmax_l|]. left. apply Rinv_0_lt_compat, ln_div_pos; lra.
    + destruct (L3 U) as [-> ->]. split; [|lra]. cbv zeta. match goal with |- context [Req_EM_T ?a ?b] => destruct (Req_EM_T a b) end; [lra|]. apply Rmult_le_pos; [apply Rmax_l|]. left. apply Rinv_0_lt_compat; lra.
  - destruct (L3 ltac:(intros [X _]; contradiction)) as [-> ->]. split; [|lra]. cbv zeta. match goal with |- context [Req_EM_T ?a ?b] => destruct (Req_EM_T a b) end; [lra|].
    apply Rmult_le_pos; [apply Rmax_l|]. left. apply Rinv_0_lt_compat; lra.
Qed.
Lemma los_unique v w : (forall k, In k setup_keys -> v k = w k) -> los_params v -> los_params w -> v AK1 = w AK1 /\ v AK2 = w AK2 /\ v AEL = w AEL.
Proof.
  intro E. assert (L : forall d, los_at v d = los_at w d) by (intro d; apply los_at_ext; intros k I; apply E; cbn in I |- *; repeat (destruct I as [<-|I]; [inks|]); destruct I).
  assert (E0 : fit_d0 v = fit_d0 w) by (unfold fit_d0; rewrite (E WN), (E HE0), (E HE1), (E DLA), (E AED) by inks; reflexivity).
  assert (E1 : fit_d1 v = fit_d1 w) by (unfold fit_d1; rewrite (E WN), (E HE0), (E HE1), (E DLA), (E AED), (E EMD) by inks; reflexivity).
  assert (E2 : fit_a2 v = fit_a2 w) by (unfold fit_a2; rewrite (E AED), (E EMD), (E DLSA) by inks; reflexivity).
  assert (K2 : fit_ak2 v = fit_ak2 w) by (unfold fit_ak2; cbv zeta; rewrite !E0, !E1, !E2, !L, (E DLSA) by inks; reflexivity).
  assert (K1 : fit_ak1 v = fit_ak1 w) by (unfold fit_ak1; cbv zeta; rewrite !E0, !E2, !K2, !L, (E DLSA) by inks; reflexivity).
  unfold los_params, fit_used. rewrite !E0, !E1, !E2, !K2, !K1, !L, (E DLSA), (E AED), (E EMD) by inks. intros (A1 & A2 & A3 & A4) (B1 & B2 & B3 & B4).
  assert (X : v AK1 = w AK1 /\ v AK2 = w AK2).
  { destruct (Rlt_dec (fit_d0 w) (fit_d1 w)) as [F|F].
    2:{ assert (N : ~ (fit_d0 w < fit_d1 w /\ (0 <= w AED \/ 0 < fit_ak2 w))) by (intros [X _]; contradiction). destruct (A3 N) as [-> ->]. destruct (B3 N) as [-> ->]. split; reflexivity. }
    assert (U : (0 <= w AED \/ 0 < fit_ak2 w) \/ ~ (0 <= w AED \/ 0 < fit_ak2 w)).
    { destruct (Rle_dec 0 (w AED)) as [Z|Z]; [left; left; exact Z|]. destruct (Rlt_dec 0 (fit_ak2 w)) as [Z'|Z']; [left; right; exact Z' | right; intros [X|X]; contradiction]. }
    destruct U as [U|U].
    - destruct (Rle_dec 0 (fit_ak1 w)) as [K|K].
      + destruct (A1 (conj F U) K) as [-> ->]. destruct (B1 (conj F U) K) as [-> ->]. split; reflexivity.
      + destruct (A2 (conj F U) ltac:(lra)) as [Y Y']. destruct (B2 (conj F U) ltac:(lra)) as [Z Z']. rewrite <- Y in Z. rewrite Y', Z', Z. split; reflexivity.
    - assert (N : ~ (fit_d0 w < fit_d1 w /\ (0 <= w AED \/ 0 < fit_ak2 w))) by (intros [_ X]; contradiction). destruct (A3 N) as [-> ->]. destruct (B3 N) as [-> ->]. split; reflexivity. }
  destruct X as [X1 X2]. split; [exact X1|]. split; [exact X2|]. rewrite A4, B4, X1, X2. reflexivity.
Qed.
Lemma scatter_unique v w : (forall k, In k (ENS :: setup_keys) -> v k = w k) -> scatter_params v -> scatter_params w -> v EMS = w EMS /\ v AES = w AES /\ v DX = w DX.
Proof.
  intro E. assert (E' : forall k, In k scat_ins -> v k = w k) by (intros k I; apply E; cbn in I |- *; repeat (destruct I as [<-|I]; [inks|]); destruct I).
  assert (E5 : scat_d5 v = scat_d5 w) by (unfold scat_d5; rewrite (E DLA) by inks; reflexivity).
  assert (E6 : scat_d6 v = scat_d6 w) by (unfold scat_d6; rewrite (E DLA) by inks; reflexivity).
  assert (EK : kept_gain v = kept_gain w) by (unfold kept_gain; rewrite !E6, !(norm_ext _ _ E'), !(gain_ext _ _ E'), !(E HE0), !(E HE1) by inks; reflexivity).
  assert (EN : near_gain v = near_gain w) by (unfold near_gain; rewrite !E5, !EK, !(gain_ext _ _ E'); reflexivity).
  unfold scatter_params. rewrite !E5, !E6, !EN, !(gain_ext _ _ E'), !(scatter_ext _ _ E'), !(E DLSA), !(E XAE), !(E DLA), !(E WN), !(E AED), !(E EMD) by inks. cbv zeta.
  destruct (Rlt_dec _ 1000).
  - intros (A1 & A2 & A3) (B1 & B2 & B3). assert (X1 : v EMS = w EMS) by congruence. assert (X2 : v DX = w DX) by (rewrite A2, B2, X1; reflexivity). split; [exact X1|]. split; [rewrite A3, B3, X1, X2; reflexivity | exact X2].
  - intros (-> & -> & ->) (-> & -> & ->). repeat split; reflexivity.
Qed.
Lemma scatter_joint v : scatter_params v -> v AES + v EMS * v DX = v AED + v EMD * v DX /\ (v DLSA <= v DX \/ v EMS = v EMD /\ v AES = v AED).
Proof.
  unfold scatter_params. cbv zeta. destruct (Rlt_dec _ 1000).
  - intros (A1 & A2 & A3). split; [rewrite A3; ring|]. left. rewrite A2. eapply Rle_trans; [|apply Rmax_l]. apply Rmax_l.
  - intros (-> & -> & _). split; [reflexivity | right; split; reflexivity].
Qed.
(** From the values of two calls. *)
Lemma smooth_grows v w b x y : smooth v -> reference_params v b -> (forall k, In k (ENS :: setup_keys) -> v k = w k) -> regime_params v x -> regime_params w y ->
  0 < x -> x <= y -> (y < w DLSA \/ y <= w DX \/ 0 <= w EMS) -> attenuation_at v x <= attenuation_at w y.
Proof.
  intros S R E RX RY X Y C. destruct (smooth_line v b S R) as [EP A2].
  assert (ES : v DLSA = w DLSA) by (apply E; inks). assert (EA : v AED = w AED) by (apply E; inks). assert (EE : v EMD = w EMD) by (apply E; inks).
  assert (LOS : forall u, x < v DLSA -> x <= u <= v DLSA -> v AEL + v AK1 * x + v AK2 * ln x <= v AEL + v AK1 * u + v AK2 * ln u).
  { intros u L U. destruct (smooth_sane v b S R (proj1 RX L)) as [K1 K2]. assert (ln x <= ln u) by (apply ln_le_mono; lra). nra. }
  assert (TOP : x < v DLSA -> v AEL + v AK1 * x + v AK2 * ln x <= v AED + v EMD * v DLSA).
  { intro L. assert (T := LOS (v DLSA) L ltac:(lra)). destruct (proj1 RX L) as (_ & _ & _ & J). unfold fit_a2 in J. lra. }
  assert (UP : forall u, v DLSA <= y -> v DLSA <= u <= y -> v AED + v EMD * u <= (if Rle_dec y (w DX) then w AED + w EMD * y else w AES + w EMS * y) \/ w DX < u).
  { intros u L U. rewrite ES in L. destruct (scatter_joint w (proj2 RY L)) as [J1 J2]. destruct (Rle_dec y (w DX)) as [Z|Z]; [left; rewrite EA, EE in *; nra|].
    destruct (Rle_dec u (w DX)) as [Z'|Z']; [|right; lra]. left. destruct J2 as [J2|[J2 J3]]; [|rewrite J2, J3, EA, EE in *; nra].
    destruct C as [C|[C|C]]; [lra | lra|]. rewrite EA, EE in *. nra. }
  assert (UP' : v DLSA <= y -> v AED + v EMD * v DLSA <= (if Rle_dec y (w DX) then w AED + w EMD * y else w AES + w EMS * y)).
  { intro L. destruct (UP (v DLSA) L ltac:(lra)) as [U|U]; [exact U|]. rewrite ES in L. destruct (scatter_joint w (proj2 RY L)) as [J1 [J2|[J2 J3]]]; [lra|].
    destruct (Rle_dec y (w DX)); [lra|]. rewrite J2, J3, EA, EE in *. nra. }
  unfold attenuation_at. apply Rle_max_compat_l. rewrite <- ES. destruct (Rlt_dec y (v DLSA)) as [LY|LY].
  - destruct (Rlt_dec x (v DLSA)) as [LX|LX]; [|lra]. destruct (los_unique v w) as (<- & <- & <-); [intros k I; apply E; right; exact I | exact (proj1 RX LX) | apply (proj1 RY); lra|]. apply LOS; lra.
  - destruct (Rlt_dec x (v DLSA)) as [LX|LX]; [apply Rle_trans with (v AED + v EMD * v DLSA); [exact (TOP LX) | apply UP'; lra]|].
    assert (SV := proj2 RX ltac:(lra)). assert (SW := proj2 RY ltac:(lra)). destruct (scatter_unique v w E SV SW) as (X1 & X2 & X3). rewrite X3.
    destruct (Rle_dec x (w DX)) as [DX1|DX1]; [destruct (UP x ltac:(lra) ltac:(lra)) as [U|U]; [exact U | lra]|].
    destruct (Rle_dec y (w DX)) as [DY|DY]; [lra|]. rewrite X1, X2. destruct C as [C|[C|C]]; [lra | lra | nra].
Qed.
(** ** From the caller's entries *)
Lemma dh_zero (h g : R) : rough_horizon h g 0 = smooth_horizon h g.
Proof. unfold rough_horizon. replace (0 / Rmax h 5) with 0 by (unfold Rdiv; ring). rewrite sqrt_0, Rmult_0_r, exp_0. ring. Qed.
Definition smooth_entries (p : prop RA) (w : nkey -> R) : Prop :=
  values p area_in w /\ area_ranges w /\ w GME <= 157 / 1000000000 /\ w DH = 0 /\
  exists lv mx kx kw, pz p LVAR = Some lv /\ pz p MDVARX = Some mx /\ pz p KLIMX = Some kx /\ pz p KWX = Some kw.
Lemma smooth_prep k0 k1 p w : smooth_entries p w -> exists q u kw, qlra RA k0 k1 p = Ok q /\ values q (ENS :: setup_inputs) u /\ smooth u /\ physical u /\ ordinary u /\
  (forall k, In k area_in -> u k = w k) /\ pz q MDP = Some 1%Z /\ pz q KWX = Some kw.
Proof.
  intros (V & A & G & D & lv & mx & kx & kw & L & M & K & KW). destruct (qlra_total k0 k1 p w lv mx kx kw V L M K KW A) as (q & u & E & VU & A1 & MQ & KQ & P & O & _).
  exists q, u, kw. split; [exact E|]. split; [exact VU|]. split; [|tauto].
  assert (QE : qlra_entries p w).
  { destruct A as (a1 & a2 & a3 & a4 & a5 & _). split; [intros k I; apply V; cbn in I |- *; repeat (destruct I as [<-|I]; [inks|]); destruct I|]. repeat (split; [lra|]). exists lv, mx, kx. tauto. }
  destruct (qlra_values k0 k1 p w QE) as (q' & E' & h0 & h1 & d0 & d1 & t0 & t1). rewrite E in E'. apply ok_inj in E'. subst q'.
  rewrite D in *. set (e0 := effective_height k0 (w HG0) 0) in *. set (e1 := effective_height k1 (w HG1) 0) in *.
  assert (U : forall k (x : R), In k setup_inputs -> pn q k = Some x -> u k = x) by (intros k x I J; assert (Y := VU k (or_intror I)); congruence).
  assert (P' := P). destruct P' as (Pw & Pg & _ & Pg0 & Pg1 & Ph0 & Ph1 & _ & _ & Pz). assert (O' := O). destruct O' as (Ow & _ & _ & _ & _ & Oz).
  apply U in h0, h1, d0, d1, t0, t1; try (cbn; tauto). assert (EG : u GME = w GME) by (apply A1; inks). rewrite <- EG in *.
  rewrite dh_zero in d0, d1. unfold smooth. rewrite takeoff_level in t0, t1 by lra. unfold smooth_horizon in *. rewrite h0, h1, d0, d1, t0, t1.
  rewrite (A1 DH) by inks. repeat split; try assumption; lra.
Qed.
Lemma smooth_call k0 k1 p w q r d : smooth_entries p w -> qlra RA k0 k1 p = Ok q -> 0 < d -> lrprop RA d q = Ok r ->
  smooth (vals r) /\ reference_params (vals r) false /\ regime_params (vals r) d /\ pn r AREF = Some (attenuation_at (vals r) d) /\ values r setup_keys (vals r) /\
  values q (ENS :: setup_inputs) (vals r).
Proof.
  intros S E P L. destruct (smooth_prep k0 k1 p w S) as (q' & u & kw & E' & VU & SU & PU & _ & _ & MQ & _). rewrite E in E'. apply ok_inj in E'. subst q'.
  assert (DD : pn r DIST = Some d) by exact (proj2 (lrprop_area RA _ _ r 1 L MQ Z.le_0_1)).
  destruct (lrprop_complete d d q r 1 MQ ltac:(lia) L DD P) as (V & V' & RP & RG & AR).
  assert (VE : values q (ENS :: setup_inputs) (vals r)).
  { intros k [<-|I]; [|apply V; exact I]. assert (F := lrprop_frame RA d q r L). cbn beta in F. assert (Y := fr_pn _ _ _ _ _ ENS F eq_refl). rewrite (VU ENS ltac:(inks)) in *. f_equal. symmetry. apply vals_some. exact Y. }
  split; [|repeat (split; [first [exact RP | exact RG | exact AR]|]); split; [intros k I; apply V'; right; exact I | exact VE]].
  assert (X : forall k, In k setup_inputs -> u k = vals r k) by (intros k I; assert (Y1 := VU k (or_intror I)); assert (Y2 := V k I); congruence).
  unfold smooth in SU |- *. rewrite !X in SU by inks. exact SU.
Qed.
Lemma smooth_monotone k0 k1 p w q rx ry (x y s ax ay : R) : smooth_entries p w -> qlra RA k0 k1 p = Ok q -> 0 < x -> x <= y -> lrprop RA x q = Ok rx -> lrprop RA y q = Ok ry ->
  (pn ry DLSA = Some s /\ y < s \/ pn ry DX = Some s /\ y <= s \/ pn ry EMS = Some s /\ 0 <= s) -> pn rx AREF = Some ax -> pn ry AREF = Some ay -> ax <= ay.
Proof.
  intros S E P Y LX LY C AX AY. destruct (smooth_call _ _ _ _ _ _ _ S E P LX) as (SX & RX & GX & BX & VX & VX'). assert (P' : 0 < y) by lra. destruct (smooth_call _ _ _ _ _ _ _ S E P' LY) as (SY & RY & GY & BY & VY & VY').
  assert (ax = attenuation_at (vals rx) x) by congruence. assert (ay = attenuation_at (vals ry) y) by congruence. subst ax ay.
  assert (I1 : forall k, In k (ENS :: setup_inputs) -> vals rx k = vals ry k) by (intros k I; assert (Y1 := VX' k I); assert (Y2 := VY' k I); congruence).
  apply (smooth_grows _ _ false); try assumption.
  - intros k [<-|I]; [apply I1; inks|]. apply (reference_unique (vals rx) (vals ry) false); try assumption; [intros j J; apply I1; right; exact J | unfold smooth in SX; lra | unfold smooth in SX; lra].
  - destruct C as [[C1 C2]|[[C1 C2]|[C1 C2]]]; rewrite (vals_some _ _ _ C1); tauto.
Qed.
Lemma smooth_positive k0 k1 p w q r (d emd aed s : R) : smooth_entries p w -> qlra RA k0 k1 p = Ok q -> 0 < d -> lrprop RA d q = Ok r -> pn r EMD = Some emd -> pn r AED = Some aed -> pn r DLSA = Some s ->
  0 < emd /\ 1 < aed + emd * s.
Proof.
  intros S E P L E1 E2 E3. destruct (smooth_call _ _ _ _ _ _ _ S E P L) as (SX & RX & _). destruct (smooth_line _ _ SX RX) as [A B]. rewrite (vals_some _ _ _ E1), (vals_some _ _ _ E2), (vals_some _ _ _ E3) in *. tauto.
Qed.
Lemma smooth_los v b : smooth v -> reference_params v b -> v ZGI <> 0 -> los_ok v.
Proof.
  intros S R Z. destruct (fit_inside v b S R) as ([D1 D1'] & _). destruct (smooth_line v b S R) as [EP _]. split; [right; lra|]. split; [lra|]. split; [left; exact Z|]. intros F. split; [lra | left; exact Z].
Qed.
Lemma smooth_answered k0 k1 p w (d : R) : smooth_entries p w -> w ZGI <> 0 -> 0 < d ->
  let h0 := effective_height k0 (w HG0) 0 in let h1 := effective_height k1 (w HG1) 0 in d < smooth_horizon h0 (w GME) + smooth_horizon h1 (w GME) ->
  exists q r a, qlra RA k0 k1 p = Ok q /\ lrprop RA d q = Ok r /\ pn r AREF = Some a.
Proof.
  intros S Z P h0 h1 B. assert (S' := S). destruct S' as (V & A & G & D & lv & mx & kx & kw & L & M & K & KW).
  destruct (area_total k0 k1 p w lv mx kx kw V L M K KW A) as (q & v & E & VV & RP & _ & T).
  destruct (smooth_prep k0 k1 p w S) as (q' & u & kw' & E' & VU & SU & PU & _ & A1 & MQ & _). rewrite E in E'. apply ok_inj in E'. subst q'.
  assert (X : forall k, In k (ENS :: setup_inputs) -> u k = v k) by (intros k I; assert (Y1 := VU k I); assert (Y2 := VV k I); congruence).
  assert (SV : smooth v) by (unfold smooth in SU |- *; rewrite !X in SU by inks; exact SU).
  assert (LV : v DLSA = smooth_horizon h0 (w GME) + smooth_horizon h1 (w GME)).
  { assert (QE : qlra_entries p w).
    { destruct A as (a1 & a2 & a3 & a4 & a5 & _). split; [intros k I; apply V; cbn in I |- *; repeat (destruct I as [<-|I]; [inks|]); destruct I|]. repeat (split; [lra|]). exists lv, mx, kx. tauto. }
    destruct (qlra_values k0 k1 p w QE) as (q' & E' & e0 & e1 & _). rewrite E in E'. apply ok_inj in E'. subst q'.
    destruct RP as ((g0 & g1 & g2 & _) & _). rewrite g2, g0, g1. rewrite D in e0, e1. assert (Y0 := VV HE0 ltac:(inks)). assert (Y1 := VV HE1 ltac:(inks)).
    rewrite <- (X GME), (A1 GME) by inks. unfold smooth_horizon, h0, h1. congruence. }
  destruct (T d []) as [r R].
  - intros x [<-|[]] _. apply (smooth_los v false SV RP). rewrite <- (X ZGI), (A1 ZGI) by inks. exact Z.
  - intros x [<-|[]] [N|N]; lra.
  - cbn [lr_calls] in R. apply bind_inv in R as [r' [R R2]]. apply ok_inj in R2. subst r'. exists q, r. destruct (smooth_call _ _ _ _ _ _ _ S E P R) as (_ & _ & _ & AR & _). eauto.
Qed.
