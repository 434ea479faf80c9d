(** pimter.py over straight ground of any slope. *)
From Interval Require Import Tactic.
From Coq Require Import Lra Lia List.
From Verif Require Import Frame SpecRegime SpecPimter SpecPathRun SpecFlat SpecSmooth Scripts RTac PfRealRun PfRealScripts PfHzns PfPfl PfTotal PfTotal4 PfFlat PfReverseCases PfReverse4 PfTilt PfPimterRun PfPathRun3 PfFlight PfSmooth PfSmooth2 PfSmooth3 RInst Arith.
Open Scope R_scope.

Lemma flight_smooth (dist z : list R) (h c b : R) v : length z = length dist -> (2 <= length dist)%nat -> nth 0 dist 0 < nth 1 dist 0 -> straight (walked_path dist z) c b ->
  10 <= h -> path_length (walked_path dist z) <= 19800 -> flight_values dist z h v -> smooth v /\ v HE0 = 2.56 /\ h <= v HE1 /\ 19800 < smooth_horizon 2.56 (v GME) + smooth_horizon h (v GME).
Proof.
  intros L L2 D S H X (Q & E0 & E1 & GEO & _). assert (W := walked_wf dist z L L2 D). set (p := walked_path dist z) in *.
  destruct flight_ground as ([[[wn g] ens] [zr zi]] & Q' & B). assert (Q2 := Q). rewrite Q' in Q2. injection Q2 as -> -> -> -> ->. destruct B as (Bw & Bg & Bz & _).
  destruct (script_impedance 2488 1 _ _ _ _ _ ltac:(lra) Q) as [_ Bi].
  assert (S0 : 6670 <= smooth_horizon 2.56 (v GME)) by (unfold smooth_horizon; interval with (i_prec 53)).
  assert (S1 : 13195 <= smooth_horizon h (v GME)).
  { apply Rle_trans with (smooth_horizon 10 (v GME)); [unfold smooth_horizon; interval with (i_prec 53)|]. apply smooth_le; lra. }
  assert (P : path_entries (path_dict p (v HG0) (v HG1) (v GME)) p v).
  { assert (GP : 0 < v GME) by lra. destruct (path_dict_ok p (v HG0) (v HG1) (v GME) W ltac:(lra) ltac:(lra) GP) as (A1 & A2 & A3 & A4 & A5 & A6).
    split; [exact A1|]. split; [exact A2|]. split; [|auto]. intros k K. rewrite (A3 k K). cbn in K. destruct K as [<-|[<-|[<-|[]]]]; reflexivity. }
  destruct (GEO _ P) as (r & Er & Vr).
  destruct (straight_geom _ p v c b P S) as (r' & Er' & Gr). { unfold within_horizons. rewrite E0, E1. lra. }
  rewrite Er in Er'. injection Er' as <-. assert (RB : v HG1 <= raised (v HG1) b) by (unfold raised; assert (0 <= Rmax (- b) 0) by apply Rmax_r; lra). unfold geom_entries in Gr. set (e1 := raised (v HG1) b) in *.
  rewrite !takeoff_level in Gr by lra. subst r. rename Vr into K. unfold values in K.
  assert (K1 := K DH ltac:(cbn; tauto)). assert (K2 := K HE0 ltac:(cbn; tauto)). assert (K3 := K HE1 ltac:(cbn; tauto)). assert (K4 := K DL0 ltac:(cbn; tauto)). assert (K5 := K DL1 ltac:(cbn; tauto)). assert (K6 := K THE0 ltac:(cbn; tauto)). assert (K7 := K THE1 ltac:(cbn; tauto)).
  cbn in K1, K2, K3, K4, K5, K6, K7. injection K1 as K1. injection K2 as K2. injection K3 as K3. injection K4 as K4. injection K5 as K5. injection K6 as K6. injection K7 as K7.
  unfold smooth_horizon in *. unfold smooth. rewrite <- K1, <- K2, <- K3, <- K4, <- K5, <- K6, <- K7. repeat split; try assumption; lra.
Qed.
Lemma straight_flight (dist z : list R) (c b : R) : length z = length dist -> (2 <= length dist)%nat -> nth 0 dist 0 < nth 1 dist 0 -> straight (walked_path dist z) c b ->
  path_length (walked_path dist z) <= 19800 -> exists rows, run_itmlogic RA z dist = Ok rows /\
    map (fun r : R * R * R * R => let '(f, h, q, _) := r in (f, h, q)) rows = map (fun k => (2488, INR k, 50)) (seq 10 121).
Proof.
  intros L L2 D S X. destruct (pimter_exact dist z L L2 D) as (v & V & F & _). apply F. intros k K. destruct (V k K) as (FV & SC & CO). apply in_seq in K.
  assert (HK : 10 <= INR k) by (replace 10 with (INR 10) by (cbn; lra); apply le_INR; lia).
  destruct (flight_smooth dist z (INR k) c b (v k) L L2 D S HK X FV) as (SM & H0 & H1 & HZ). assert (RP : reference_params (v k) true) by (destruct FV as (_ & _ & _ & _ & RP); exact RP). set (u := v k) in *.
  destruct (smooth_horizons u true SM RP) as (SL & TH & D0 & D1 & LA). destruct (fit_inside u true SM RP) as ([F1 F2] & F0). destruct (smooth_line u true SM RP) as [EP _].
  assert (GP : 0 < u GME) by (destruct SM as (_ & G & _); lra).
  assert (BX : path_length (walked_path dist z) < u DLSA).
  { rewrite SL, LA. assert (SM' := SM). destruct SM' as (_ & _ & _ & _ & _ & _ & _ & -> & -> & _). assert (A := smooth_le (INR k) (u HE1) (u GME) ltac:(lra) GP H1). unfold smooth_horizon in *. rewrite H0. lra. }
  assert (GO : ground_ok u).
  { destruct SM as (s1 & s2 & s3 & s4 & s5 & s6 & s7 & s8 & s9 & s10 & s11 & s12 & s13). apply simple_ground.
    - unfold physical. repeat split; lra.
    - unfold ordinary, excess. rewrite <- s8, <- s9. rewrite s10, s11. rewrite Rmax_left by lra. repeat split; lra. }
  split; [exact (CO GO)|]. split; [apply SC; lra|].
  intros [[C Z]|[C _]]; [|lra]. unfold los_coincidence in Z. cbn in Z. intuition lra.
Qed.
(** A slope falling by 3 m in every kilometre. *)
Lemma straight_flight_case : let dist := [0; 1000; 2000] in let z := [60; 57; 54] in length z = length dist /\ (2 <= length dist)%nat /\ nth 0 dist 0 < nth 1 dist 0 /\ straight (walked_path dist z) 60 (-3) /\ path_length (walked_path dist z) <= 19800.
Proof.
  cbv zeta. split; [reflexivity|]. split; [cbn; lia|]. split; [cbn; lra|]. split.
  - intros j J. unfold intervals, walked_path in J. cbn [pf_np length] in J. change (Z.to_nat (Z.of_nat 3 - 1)) with 2%nat in J. unfold ground, walked_path. cbn [pf_z]. destruct j as [|[|[|j]]]; [cbn; lra.. | lia].
  - unfold path_length, walked_path, intervals. cbn. replace (Pos.to_nat 2) with 2%nat by reflexivity. cbn [INR]. lra.
Qed.
