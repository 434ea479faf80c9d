(** Smooth earth: statements for area mode, for paths over straight ground and for the point-to-point script. *)
From Coq Require Import Lra Lia List.
From Verif Require Import RInst SpecLr SpecTotal SpecLoss SpecPathRun SpecSmooth RTac Frame LrProp Prep Scripts PfFrame PfStats PfRegime PfLrGen PfAvarReal PfAtten PfTotal3 PfTotal4 PfTotal6 PfTerminal PfLoss PfHzns PfFlat PfFlat2 PfFlatCases PfReverse4 PfReverseCases PfRealCases PfTilt3 PfPathRun2 PfPathRun3 PfFlight PfSmooth PfSmooth2 Arith.
Import ListNotations.
Open Scope R_scope.

Definition level (w : nkey -> R) : nkey -> R := fun k => match k with DH => 0 | _ => w k end.
Lemma link_smooth p w : link_entries p w -> pn p DH = Some 0 -> smooth_entries p (level w).
Proof.
  intros (V & W & G & H0 & H1 & Z & ZZ & C) D. split; [|split; [|split; [|split; [reflexivity | exact C]]]].
  - intros k I. cbn in I. repeat (destruct I as [<-|I]; [first [exact D | match goal with |- pn p ?j = _ => exact (V j ltac:(inks)) end]|]). destruct I.
  - unfold area_ranges. cbn [level]. repeat split; lra.
  - cbn [level]. lra.
Qed.
Definition sited k0 k1 (w : nkey -> R) : nkey -> R := fun k =>
  let h0 := effective_height k0 (w HG0) (w DH) in let h1 := effective_height k1 (w HG1) (w DH) in
  match k with HE0 => h0 | HE1 => h1 | DL0 => rough_horizon h0 (w GME) (w DH) | DL1 => rough_horizon h1 (w GME) (w DH)
  | THE0 => takeoff_angle h0 (w GME) (w DH) | THE1 => takeoff_angle h1 (w GME) (w DH) | _ => w k end.
Lemma sited_values k0 k1 p w q : smooth_entries p w -> qlra RA k0 k1 p = Ok q -> values q (ENS :: setup_inputs) (sited k0 k1 w).
Proof.
  intros S E. destruct (smooth_prep k0 k1 p w S) as (q' & u & kw & E' & VU & _ & _ & _ & A1 & _). rewrite E in E'. apply ok_inj in E'. subst q'.
  destruct S as (V & A & G & D & lv & mx & kx & kw' & L & M & K & KW).
  assert (QE : qlra_entries p w).
  { destruct A as (a1 & a2 & a3 & a4 & a5 & _). split; [intros k I; apply V; cbn in I |- *; repeat (destruct I as [<-|I]; [inks|]); destruct I|]. repeat (split; [lra|]). exists lv, mx, kx. tauto. }
  destruct (qlra_values k0 k1 p w QE) as (q' & E' & X). rewrite E in E'. apply ok_inj in E'. subst q'. destruct X as (h0 & h1 & d0 & d1 & t0 & t1).
  intros k I. cbn in I. repeat (destruct I as [<-|I]; [first [assumption | match goal with |- pn q ?j = _ => rewrite (VU j ltac:(inks)); cbn; rewrite (A1 j) by inks; reflexivity end]|]). destruct I.
Qed.
Lemma grows2 k0 k1 p p' w q q' rx ry (x y ax ay : R) : smooth_entries p w -> smooth_entries p' w -> qlra RA k0 k1 p = Ok q -> qlra RA k0 k1 p' = Ok q' ->
  0 < x -> x <= y -> lrprop RA x q = Ok rx -> lrprop RA y q' = Ok ry -> before_scatter ry y -> pn rx AREF = Some ax -> pn ry AREF = Some ay -> ax <= ay.
Proof.
  intros S S' E E' P Y LX LY [s C] AX AY. assert (P' : 0 < y) by lra. destruct (smooth_call _ _ _ _ _ _ _ S E P LX) as (SX & RX & GX & BX & VX & VX'). destruct (smooth_call _ _ _ _ _ _ _ S' E' P' LY) as (SY & RY & GY & BY & VY & VY').
  assert (ax = attenuation_at (vals rx) x) by congruence. assert (ay = attenuation_at (vals ry) y) by congruence. subst ax ay.
  assert (I1 : forall k, In k (ENS :: setup_inputs) -> vals rx k = vals ry k).
  { intros k I. assert (Y1 := VX' k I). assert (Y2 := VY' k I). rewrite (sited_values k0 k1 p w q S E k I) in Y1. rewrite (sited_values k0 k1 p' w q' S' E' k I) in Y2. congruence. }
  apply (smooth_grows _ _ false); try assumption.
  - intros k [<-|I]; [apply I1; inks|]. apply (reference_unique (vals rx) (vals ry) false); try assumption; [intros j J; apply I1; right; exact J | unfold smooth in SX; lra | unfold smooth in SX; lra].
  - destruct C as [[C1 C2]|[[C1 C2]|[C1 C2]]]; rewrite (vals_some _ _ _ C1); tauto.
Qed.
(** ** Area mode *)
Lemma area_grows k0 k1 p w q rx ry (x y ax ay : R) : link_entries p w -> pn p DH = Some 0 -> qlra RA k0 k1 p = Ok q -> 0 < x -> x <= y ->
  lrprop RA x q = Ok rx -> lrprop RA y q = Ok ry -> before_scatter ry y -> pn rx AREF = Some ax -> pn ry AREF = Some ay -> ax <= ay.
Proof. intros L D E. assert (S := link_smooth p w L D). exact (grows2 k0 k1 p p (level w) q q rx ry x y ax ay S S E E). Qed.
Lemma area_answered k0 k1 p w (x : R) : link_entries p w -> pn p DH = Some 0 -> w ZGI <> 0 -> 0 < x < common_horizon k0 k1 w ->
  exists q r a, qlra RA k0 k1 p = Ok q /\ lrprop RA x q = Ok r /\ pn r AREF = Some a.
Proof. intros L D Z [P X]. exact (smooth_answered k0 k1 p (level w) x (link_smooth p w L D) Z P X). Qed.
Lemma area_line k0 k1 p w q r (x emd aed s : R) : link_entries p w -> pn p DH = Some 0 -> qlra RA k0 k1 p = Ok q -> 0 < x -> lrprop RA x q = Ok r ->
  pn r EMD = Some emd -> pn r AED = Some aed -> pn r DLSA = Some s -> 0 < emd /\ 1 < aed + emd * s.
Proof. intros L D. exact (smooth_positive k0 k1 p (level w) q r x emd aed s (link_smooth p w L D)). Qed.
(** ** Point to point *)
Lemma link_level p w : link_entries p w -> smooth_entries (setn p DH (0 : num RA)) (level w).
Proof.
  intro L. apply link_smooth; [|reflexivity]. destruct L as (V & L). split; [|exact L]. intros k I. cbn in I. repeat (destruct I as [<-|I]; [match goal with |- pn _ ?j = _ => exact (V j ltac:(inks)) end|]). destruct I.
Qed.
Lemma no_siting (h : R) : effective_height 0 h 0 = h.
Proof. unfold effective_height. cbn. lra. Qed.
Lemma link_path p f w : link_entries p w -> ppfl p = Some f -> well_formed f -> path_entries p f w.
Proof. intros (V & _ & G & H0 & H1 & _) F W. split; [exact F|]. split; [exact W|]. split; [|lra]. intros k I. apply V. cbn in I |- *. tauto. Qed.
Lemma path_area p f w (c b : R) : link_entries p w -> ppfl p = Some f -> well_formed f -> straight f c b -> 0 <= b -> within_horizons f (w HG0) (w HG1) (w GME) ->
  forall r, qlrpfl RA p = Ok r -> exists q r', qlra RA 0 0 (setn p DH 0) = Ok q /\ lrprop RA (path_length f) q = Ok r' /\ same_but_mdp r r'.
Proof.
  intros L F W S B H r E. assert (X := flat_same p f w c b (link_path p f w L F W) S B H). rewrite E in X. unfold same_outcome in X.
  destruct (qlra RA 0 0 (setn p DH 0)) as [q|e]; [|contradiction X]. cbn [bind] in X. destruct (lrprop RA (path_length f) q) as [r'|e] eqn:Y; [|contradiction X]. exists q, r'. auto.
Qed.
Lemma path_grows p p' w f f' (c b c' b' ax ay : R) r r' : link_entries p w -> link_entries p' w -> ppfl p = Some f -> ppfl p' = Some f' -> well_formed f -> well_formed f' ->
  straight f c b -> straight f' c' b' -> 0 <= b -> 0 <= b' -> path_length f <= path_length f' -> within_horizons f' (w HG0) (w HG1) (w GME) ->
  qlrpfl RA p = Ok r -> qlrpfl RA p' = Ok r' -> before_scatter r' (path_length f') -> pn r AREF = Some ax -> pn r' AREF = Some ay -> ax <= ay.
Proof.
  intros L L' F F' W W' S S' B B' LE H' E E' BS AX AY. assert (H : within_horizons f (w HG0) (w HG1) (w GME)) by (unfold within_horizons in *; lra).
  destruct (path_area p f w c b L F W S B H r E) as (q & s & Q & R & SB). destruct (path_area p' f' w c' b' L' F' W' S' B' H' r' E') as (q' & s' & Q' & R' & SB').
  apply (grows2 0 0 (setn p DH (0 : num RA)) (setn p' DH (0 : num RA)) (level w) q q' s s' (path_length f) (path_length f')); try assumption; try (apply link_level; assumption); try (apply len_pos; assumption).
  - destruct BS as [u C]. exists u. destruct SB' as (N & _). rewrite !N. exact C.
  - rewrite (proj1 SB). exact AX.
  - rewrite (proj1 SB'). exact AY.
Qed.
Lemma path_answered p w f (c b : R) : link_entries p w -> ppfl p = Some f -> well_formed f -> straight f c b -> 0 <= b -> path_length f < smooth_horizon (w HG0) (w GME) + smooth_horizon (w HG1) (w GME) ->
  w ZGI <> 0 -> exists r a, qlrpfl RA p = Ok r /\ pn r AREF = Some a.
Proof.
  intros L F W S B H Z. assert (X := flat_same p f w c b (link_path p f w L F W) S B ltac:(unfold within_horizons; lra)).
  destruct (smooth_answered 0 0 _ (level w) (path_length f) (link_level p w L) Z (len_pos f W)) as (q & r & a & Q & RR & A); [cbn [level]; rewrite !no_siting; exact H|].
  rewrite Q in X. cbn [bind] in X. rewrite RR in X. unfold same_outcome in X. destruct (qlrpfl RA p) as [r'|e]; [|contradiction X]. exists r', a. split; [reflexivity|]. rewrite <- (proj1 X). exact A.
Qed.
(** ** The script *)
Lemma script_impedance (f : R) ipol wn g ens zr zi : 40 <= f -> qlrps RA f 0 314 ipol 15 (5 / 1000)%R = Ok (wn, g, ens, (zr, zi)) -> 0.838 <= wn /\ 1 / 50 <= sqrt (zr ^ 2 + zi ^ 2).
Proof.
  intros F E. destruct (qlrps_values f 0 314 15 (5 / 1000) ipol ltac:(lra) ltac:(intros; left; lra)) as (z & E' & PR). cbv zeta in PR. change (num RA) with R in *. rewrite E in E'. injection E' as E1 _ _ E4. subst z. 
  assert (W : 0.838 <= wn) by (rewrite E1; apply Rmult_le_reg_r with 47.7; [lra|]; unfold Rdiv; rewrite Rmult_assoc, Rinv_l by lra; lra). split; [exact W|].
  cbn [snd] in PR. rewrite <- E1 in PR. set (y := 376.62 * (5 / 1000) / wn) in *.
  assert (Y : 0 <= y <= 3). { assert (y * wn = 376.62 * (5 / 1000)) by (unfold y; field; lra). split; nra. }
  assert (B : 1 / 2500 <= zr ^ 2 + zi ^ 2).
  { destruct PR as (PR & _). unfold cmul in PR. destruct (ipol =? 0)%Z; cbn [fst snd] in PR; injection PR as P1 P2; [nra|].
    set (a := zr * 15 - zi * y) in *. set (c := zr * y + zi * 15) in *. assert (a * a + c * c = (zr ^ 2 + zi ^ 2) * (225 + y * y)) by (unfold a, c; ring).
    assert (14 <= a * a + c * c) by nra. nra. }
  replace (1 / 50) with (sqrt (1 / 2500)) by (replace (1 / 2500) with ((1 / 50) * (1 / 50)) by lra; apply sqrt_square; lra). apply sqrt_le_1_alt. exact B.
Qed.
Lemma straight_values z d f h0 h1 ipol v (c b : R) : 0 < d -> 0 < h0 -> 0 < h1 -> (2 <= length z)%nat -> 40 <= f -> path_values z d f h0 h1 ipol v -> 0 < v GME <= 157 / 1000000000 -> 0 < v ZGR -> straight (script_path d z) c b ->
  1000 * d <= smooth_horizon h0 (v GME) + smooth_horizon h1 (v GME) -> smooth v /\ h0 = v HE0 /\ h1 <= v HE1.
Proof.
  intros Pd P0 P1 Lz F (Q & E0 & E1 & GEO & _) G Zr S X. assert (W := script_wf d z Pd Lz). set (p := script_path d z) in *.
  destruct (script_impedance f ipol _ _ _ _ _ F Q) as [Bw Bz].
  assert (P : path_entries (path_dict p (v HG0) (v HG1) (v GME)) p v).
  { assert (GP : 0 < v GME) by lra. destruct (path_dict_ok p (v HG0) (v HG1) (v GME) W ltac:(lra) ltac:(lra) GP) as (A1 & A2 & A3 & A4 & A5 & A6).
    split; [exact A1|]. split; [exact A2|]. split; [|auto]. intros k K. rewrite (A3 k K). cbn in K. destruct K as [<-|[<-|[<-|[]]]]; reflexivity. }
  destruct (GEO _ P) as (r & Er & Vr).
  destruct (straight_geom _ p v c b P S) as (r' & Er' & Gr). { unfold within_horizons. rewrite E0, E1. unfold p. rewrite script_length by exact Lz. exact X. }
  rewrite Er in Er'. injection Er' as <-. assert (RB : v HG1 <= raised (v HG1) b) by (unfold raised; assert (0 <= Rmax (- b) 0) by apply Rmax_r; lra). unfold geom_entries in Gr. set (e1 := raised (v HG1) b) in *.
  rewrite !takeoff_level in Gr by lra. subst r. rename Vr into K. unfold values in K.
  assert (K1 := K DH ltac:(cbn; tauto)). assert (K2 := K HE0 ltac:(cbn; tauto)). assert (K3 := K HE1 ltac:(cbn; tauto)). assert (K4 := K DL0 ltac:(cbn; tauto)). assert (K5 := K DL1 ltac:(cbn; tauto)). assert (K6 := K THE0 ltac:(cbn; tauto)). assert (K7 := K THE1 ltac:(cbn; tauto)).
  cbn in K1, K2, K3, K4, K5, K6, K7. injection K1 as K1. injection K2 as K2. injection K3 as K3. injection K4 as K4. injection K5 as K5. injection K6 as K6. injection K7 as K7.
  unfold smooth_horizon in *. unfold smooth. rewrite <- K1, <- K2, <- K3, <- K4, <- K5, <- K6, <- K7. repeat split; try assumption; lra.
Qed.
Lemma script_answered p z (d f h0 h1 c b : R) ipol : path_request p z d f h0 h1 ipol -> 40 <= f -> straight (script_path d z) c b ->
  1000 * d < smooth_horizon h0 script_curvature + smooth_horizon h1 script_curvature -> exists out, itmlogic_p2p RA z p = Ok out /\ length (out_rows RA out) = 15%nat.
Proof.
  intros RQ F S X. destruct (path_exact p z d f h0 h1 ipol RQ) as (v & PV & _ & CO & _ & _ & T). assert (RQ' := RQ). destruct RQ' as (_ & _ & _ & _ & _ & Pf & Pd & P0 & P1 & Lz).
  destruct (prepare_runs p z d f h0 h1 ipol RQ) as (q & w & _ & _ & _ & _ & Q & _ & GW & _ & _ & Zw & _).
  assert (EQ : v GME = script_curvature /\ 0 < v ZGR). { destruct PV as (Q' & _). rewrite Q in Q'. injection Q' as _ EG _ EZ _. split; [congruence | lra]. }
  destruct EQ as [EG Zv]. assert (GP := curvature_pos). assert (GL := curvature_le). rewrite <- EG in *.
  destruct (straight_values z d f h0 h1 ipol v c b Pd P0 P1 Lz F PV ltac:(lra) Zv S ltac:(lra)) as (SM & H0 & H1).
  assert (RP : reference_params v true) by (destruct PV as (_ & _ & _ & _ & RP); exact RP).
  destruct (smooth_horizons v true SM RP) as (SL & TH & D0 & D1 & LA). destruct (fit_inside v true SM RP) as ([F1 F2] & F0). destruct (smooth_line v true SM RP) as [EP _].
  assert (BX : 1000 * d < v DLSA).
  { rewrite SL, LA. destruct SM as (_ & _ & _ & _ & _ & _ & _ & -> & -> & _). assert (A := smooth_le h1 (v HE1) (v GME) P1 GP H1). unfold smooth_horizon in *. rewrite <- H0. lra. }
  assert (GO : ground_ok v).
  { destruct SM as (s1 & s2 & s3 & s4 & s5 & s6 & s7 & s8 & s9 & s10 & s11 & s12 & s13). apply simple_ground.
    - unfold physical. repeat split; lra.
    - unfold ordinary, excess. rewrite <- s8, <- s9. rewrite s10, s11. rewrite Rmax_left by lra. repeat split; lra. }
  destruct T as (out & E & _ & M).
  - exact (CO GO).
  - intro N. lra.
  - intros [[C Z]|[C _]]; [|lra]. unfold los_coincidence in Z. cbn in Z. intuition lra.
  - exists out. split; [exact E|]. apply (f_equal (@length _)) in M. rewrite map_length in M. exact M.
Qed.
(** ** Within the common horizon *)
Lemma call_horizon k0 k1 p w q r (d : R) : smooth_entries p w -> qlra RA k0 k1 p = Ok q -> 0 < d -> lrprop RA d q = Ok r -> pn r DLSA = Some (common_horizon k0 k1 w).
Proof.
  intros S E P L. destruct (smooth_call _ _ _ _ _ _ _ S E P L) as (_ & ((G0 & G1 & G2 & _) & _) & _ & _ & VK & VI). rewrite (VK DLSA ltac:(inks)). f_equal. rewrite G2, G0, G1.
  assert (SV := sited_values k0 k1 p w q S E). assert (X : forall k, In k (ENS :: setup_inputs) -> vals r k = sited k0 k1 w k) by (intros k I; assert (Y1 := VI k I); assert (Y2 := SV k I); congruence).
  rewrite !X by inks. unfold sited, common_horizon, smooth_horizon. destruct S as (_ & _ & _ & D & _). rewrite D. reflexivity.
Qed.
Lemma area_within k0 k1 p w (x y : R) : link_entries p w -> pn p DH = Some 0 -> w ZGI <> 0 -> 0 < x -> x <= y -> y < common_horizon k0 k1 w ->
  exists q rx ry ax ay, qlra RA k0 k1 p = Ok q /\ lrprop RA x q = Ok rx /\ lrprop RA y q = Ok ry /\ pn rx AREF = Some ax /\ pn ry AREF = Some ay /\ ax <= ay.
Proof.
  intros L D Z P LE H. destruct (area_answered k0 k1 p w x L D Z ltac:(lra)) as (q & rx & ax & Q & X & AX). destruct (area_answered k0 k1 p w y L D Z ltac:(lra)) as (q' & ry & ay & Q' & Y & AY).
  rewrite Q in Q'. apply ok_inj in Q'. subst q'. exists q, rx, ry, ax, ay. repeat (split; [assumption|]). apply (area_grows k0 k1 p w q rx ry x y); try assumption.
  exists (common_horizon k0 k1 w). left. split; [|exact H]. assert (P' : 0 < y) by lra. exact (call_horizon k0 k1 p (level w) q ry y (link_smooth p w L D) Q P' Y).
Qed.
Lemma path_within p p' w f f' (c b c' b' : R) : link_entries p w -> link_entries p' w -> ppfl p = Some f -> ppfl p' = Some f' -> well_formed f -> well_formed f' ->
  straight f c b -> straight f' c' b' -> 0 <= b -> 0 <= b' -> path_length f <= path_length f' -> path_length f' < smooth_horizon (w HG0) (w GME) + smooth_horizon (w HG1) (w GME) -> w ZGI <> 0 ->
  exists r r' ax ay, qlrpfl RA p = Ok r /\ qlrpfl RA p' = Ok r' /\ pn r AREF = Some ax /\ pn r' AREF = Some ay /\ ax <= ay.
Proof.
  intros L L' F F' W W' S S' B B' LE H Z. destruct (path_answered p w f c b L F W S B ltac:(lra) Z) as (r & ax & E & AX). destruct (path_answered p' w f' c' b' L' F' W' S' B' H Z) as (r' & ay & E' & AY).
  exists r, r', ax, ay. repeat (split; [assumption|]). assert (H' : within_horizons f' (w HG0) (w HG1) (w GME)) by (unfold within_horizons; lra).
  apply (path_grows p p' w f f' c b c' b' ax ay r r'); try assumption. destruct (path_area p' f' w c' b' L' F' W' S' B' H' r' E') as (q & s & Q & R & SB).
  exists (common_horizon 0 0 w). left. split; [|unfold common_horizon; rewrite !no_siting; exact H]. rewrite <- (proj1 SB). exact (call_horizon 0 0 _ (level w) q s (path_length f') (link_level p' w L') Q (len_pos f' W') R).
Qed.
(** ** Cases *)
Definition smooth_link (f : profile RA) : prop RA :=
  setz (setz (setz (setz (setpfl (realns [(HG0, 10); (HG1, 20); (WN, 6); (ENS, 301); (GME, 1177 / 10000000000); (DH, 0); (ZGR, 24 / 100); (ZGI, -14 / 100)]) f) LVAR 5) MDVARX 12) KLIMX 5) KWX 0.
Definition smooth_v : nkey -> R := fun k => match k with HG0 => 10 | HG1 => 20 | WN => 6 | ENS => 301 | GME => 1177 / 10000000000 | ZGR => 24 / 100 | ZGI => -14 / 100 | _ => 0 end.
Lemma smooth_link_ok f : link_entries (smooth_link f) smooth_v /\ pn (smooth_link f) DH = Some 0 /\ ppfl (smooth_link f) = Some f.
Proof.
  split; [|split; reflexivity]. split; [intros k I; cbn in I; repeat (destruct I as [<-|I]; [reflexivity|]); destruct I|].
  assert (1 / 50 <= sqrt (smooth_v ZGR ^ 2 + smooth_v ZGI ^ 2)).
  { replace (1 / 50) with (sqrt (1 / 2500)) by (replace (1 / 2500) with ((1 / 50) * (1 / 50)) by lra; apply sqrt_square; lra). apply sqrt_le_1_alt. cbn [smooth_v]. lra. }
  repeat (split; [first [assumption | cbn [smooth_v]; lra]|]). exists 5%Z, 12%Z, 5%Z, 0%Z. repeat split; reflexivity.
Qed.
Lemma smooth_case_horizon k0 k1 : 30000 < common_horizon k0 k1 smooth_v.
Proof.
  unfold common_horizon. assert (P0 : 0 < smooth_v HG0) by (cbn [smooth_v]; lra). assert (P1 : 0 < smooth_v HG1) by (cbn [smooth_v]; lra). assert (G : 0 < smooth_v GME) by (cbn [smooth_v]; lra).
  assert (A := smooth_le _ _ (smooth_v GME) P0 G (eff_ge k0 (smooth_v HG0) 0 P0)). assert (B := smooth_le _ _ (smooth_v GME) P1 G (eff_ge k1 (smooth_v HG1) 0 P1)).
  assert (13000 < smooth_horizon (smooth_v HG0) (smooth_v GME)) by (unfold smooth_horizon; cbn [smooth_v]; rewrite <- (sqrt_square 13000) by lra; apply sqrt_lt_1_alt; lra).
  assert (18000 < smooth_horizon (smooth_v HG1) (smooth_v GME)) by (unfold smooth_horizon; cbn [smooth_v]; rewrite <- (sqrt_square 18000) by lra; apply sqrt_lt_1_alt; lra). lra.
Qed.
