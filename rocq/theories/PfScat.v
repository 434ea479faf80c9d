(** The scatter line of lrprop is that of the reference formulas. *)
From Verif Require Import Frame SpecLr PfFrame PfLrGen PfRegime PfCurves PfCurves2 PfH0f PfAtten PfAvarReal PfStats PfSetup SpecScat Arith.
Open Scope R_scope.

Lemma ahd_value (td y : R) : ahd RA td = Ok y -> y = distance_fn td.
Proof.
  intro H. destruct (Rle_dec td 0) as [N|N]; [rewrite ahd_fails in H by exact N; discriminate|].
  rewrite ahd_spec in H by lra. apply ok_inj in H. subst y. reflexivity.
Qed.
Lemma h0f_value (r e y : R) : h0f RA r e = Ok y -> r <> 0 /\ y = gain_at r e.
Proof.
  intro H. destruct (Req_dec r 0) as [->|N]; [rewrite h0f_r0 in H; discriminate|]. split; [exact N|].
  destruct (h0f_rows r N) as (R1 & R2 & R3 & R4 & R5). unfold gain_at.
  assert (I : forall k : nat, (1 <= k < 5)%nat -> INR k <= e <= INR k + 1 -> forall x z, h0f RA r (INR k) = Ok x -> h0f RA r (INR k + 1)%R = Ok z -> y = lerp x z (e - INR k)).
  { intros k K E x z X Z. destruct (h0f_interp r e k N K E) as (x' & z' & X' & Z' & Y). rewrite H in Y. apply ok_inj in Y.
    rewrite X in X'. apply ok_inj in X'. rewrite Z in Z'. apply ok_inj in Z'. subst. reflexivity. }
  destruct (Rle_dec e 1). { rewrite h0f_clamp_low, R1 in H by assumption. apply ok_inj in H. auto. }
  destruct (Rle_dec e 2). { apply (I 1%nat); [lia | simpl; lra | exact R1 | simpl; replace (1 + 1) with 2 by ring; exact R2]. }
  destruct (Rle_dec e 3). { specialize (I 2%nat). simpl in I. replace (1 + 1) with 2 in I by ring. apply I; [lia | lra | exact R2 | replace (2 + 1) with 3 by ring; exact R3]. }
  destruct (Rle_dec e 4). { specialize (I 3%nat). simpl in I. replace (1 + 1 + 1) with 3 in I by ring. apply I; [lia | lra | exact R3 | replace (3 + 1) with 4 by ring; exact R4]. }
  destruct (Rle_dec e 5). { specialize (I 4%nat). simpl in I. replace (1 + 1 + 1 + 1) with 4 in I by ring. apply I; [lia | lra | exact R4 | replace (4 + 1) with 5 by ring; exact R5]. }
  rewrite h0f_clamp_high, R5 in H by (assumption || lra). apply ok_inj in H. auto.
Qed.
Lemma r_powZ_4 x : r_powZ x 4 = Ok (x ^ 4).
Proof. reflexivity. Qed.
Lemma r_powZ_6 x : r_powZ x 6 = Ok (x ^ 6).
Proof. reflexivity. Qed.
Lemma h0_value (d h : R) (p : prop RA) (v : nkey -> R) :
  v AD = skew v -> v RR = ratio v -> v ETQ = (0.00000567 * v ENS - 0.00232) * v ENS + 0.031 ->
  values p [AD; RR; ETQ; H0S] v ->
  ascat_h0 RA d (scat_angle v d : num RA) (norm_h v d (v HE0) : num RA) (norm_h v d (v HE1) : num RA) p = Ok h ->
  h = if Rlt_dec 15 (path_gain v d) then if Rle_dec 0 (v H0S) then v H0S else path_gain v d else path_gain v d.
Proof.
  intros VA VR VQ V H. unfold ascat_h0 in H.
  assert (G : forall k, In k [AD; RR; ETQ; H0S] -> getn p k = Ok (v k)) by (intros k I; apply pn_getn; apply V; exact I).
  rewrite !(G AD), !(G RR), !(G ETQ), !(G H0S) in H by inks. clear G. cbn [bind] in H. rewrite VA, VR, VQ in H.
  set (r1 := norm_h v d (v HE0)) in *. set (r2 := norm_h v d (v HE1)) in *.
  apply bind_inv in H as [ss [E1 H]]. apply bind_inv in H as [q [E2 H]]. apply bind_inv in H as [z0 [E3 H]].
  apply bind_inv in H as [t [E4 H]]. apply bind_inv in H as [t6 [E5 H]]. apply bind_inv in H as [e [E6 H]]. apply bind_inv in H as [et [E7 H]].
  apply bind_inv in H as [h1 [E8 H]]. apply bind_inv in H as [h2 [E9 H]]. apply bind_inv in H as [l1 [E10 H]]. apply bind_inv in H as [l2 [E11 H]].
  apply bind_inv in H as [l3 [E12 H]]. apply bind_inv in H as [hh [E13 H]]. rewrite ?pymax_R, ?pymin_R in *. runfold.
  apply r_div_inv in E1 as [_ E1]. apply r_div_inv in E2 as [_ E2]. apply r_div_inv in E3 as [Nd E3]. apply r_div_inv in E4 as [_ E4].
  rewrite r_powZ_6 in E5. apply ok_inj in E5, E6. apply r_div_inv in E7 as [_ E7].
  apply h0f_value in E8 as [N1 E8]. apply h0f_value in E9 as [N2 E9].
  apply r_log_inv in E10 as [_ E10]. apply r_log_inv in E11 as [_ E11]. apply r_log_inv in E12 as [_ E12]. apply ok_inj in H.
  assert (Z0 : z0 = volume v d) by (rewrite E3; unfold volume; field; exact Nd).
  assert (ET : et = efficiency v d).
  { rewrite E7. unfold efficiency. rewrite <- Z0. rewrite E6, E5, E4. replace (17 / 10) with 1.7 by lra. replace (8000 / 1) with 8000 by lra. set (ex := exp _). set (k := (_ * v ENS + _)%R). replace (17556 / 10) with 1755.6 by lra. unfold Rdiv. ring. }
  set (x := 0.49 * (1.38 - l1) * l2 * l3).
  assert (EH : Rmax ((h1 + h2) * (5 / 10) + Rmin ((h1 + h2) * (5 / 10)) ((138 / 100 - l1) * l2 * l3 * (49 / 100))) 0
               = Rmax 0 ((h1 + h2) / 2 + Rmin ((h1 + h2) / 2) x)).
  { rewrite Rmax_comm. f_equal. replace ((h1 + h2) * (5 / 10)) with ((h1 + h2) / 2) by field. do 2 f_equal. unfold x. replace 0.49 with (49 / 100) by lra. replace 1.38 with (138 / 100) by lra. ring. }
  rewrite EH in E13. clear EH.
  assert (HH : hh = path_gain v d).
  { unfold path_gain. fold r1 r2. rewrite <- ET, <- E8, <- E9, <- E10, <- E1, <- E2.
    rewrite (Rmin_comm 10). replace (Rmax 0.1 ss) with (Rmax (1 / 10) ss) by (f_equal; lra). replace (Rmax 0.1 q) with (Rmax (1 / 10) q) by (f_equal; lra).
    rewrite <- E11, <- E12. fold x. unfold r_ltb in E13. destruct (Rlt_dec et 1).
    - apply bind_inv in E13 as [i1 [F1 G]]. apply bind_inv in G as [i2 [F2 G]]. apply bind_inv in G as [s [F3 G]]. apply bind_inv in G as [u [F4 G]]. apply bind_inv in G as [l [F5 G]].
      apply r_div_inv in F1 as [_ F1]. apply r_div_inv in F2 as [_ F2]. rewrite r_powZ_2 in F3. apply ok_inj in F3. apply r_div_inv in F4 as [_ F4]. apply r_log_inv in F5 as [_ F5].
      apply ok_inj in G. rewrite G, F5, F4, F3, F1, F2. replace (14142 / 10000) with 1.4142 by lra. replace (28284 / 10000) with 2.8284 by lra. replace (4343 / 1000) with 4.343 by lra. reflexivity.
    - apply ok_inj in E13. auto. }
  rewrite HH in H. subst h. unfold r_ltb, r_leb. destruct (Rlt_dec 15 (path_gain v d)); [|reflexivity]. destruct (Rle_dec 0 (v H0S)); reflexivity.
Qed.
Definition scat_pre (v : nkey -> R) : Prop := v AD = skew v /\ v RR = ratio v /\ v ETQ = (0.00000567 * v ENS - 0.00232) * v ENS + 0.031.
Definition chosen (v : nkey -> R) (d : R) : R :=
  if Rlt_dec 15 (v H0S) then v H0S
  else if Rlt_dec 15 (path_gain v d) then if Rle_dec 0 (v H0S) then v H0S else path_gain v d else path_gain v d.
Lemma ascat_value (d a : R) (p q : prop RA) : scat_pre (vals p) -> values p [AD; RR; ETQ; H0S] (vals p) -> pn p ASCAT1 = Some a ->
  ascat RA d p = Ok q ->
  pn q ASCAT1 = Some (scatter (vals p) d (chosen (vals p) d)) /\ values p [THA; GME; WN; ENS] (vals p) /\
  (vals p H0S <= 15 -> values p [THE0; THE1; HE0; HE1] (vals p) /\ (a <> 1001 ->
    pn q H0S = Some (if Rlt_dec (norm_h (vals p) d (vals p HE0)) 0.2 then if Rlt_dec (norm_h (vals p) d (vals p HE1)) 0.2 then vals p H0S
                       else chosen (vals p) d else chosen (vals p) d))).
Proof.
  intros (VA & VR & VQ) V A1 H. unfold ascat in H.
  rewrite (proj2 (pn_getn _ _ _ _) (V H0S ltac:(inks))) in H. cbn [bind] in H. apply bind_inv in H as [[h0 p1] [E1 H]].
  assert (X : h0 = chosen (vals p) d /\ (forall k, k <> ASCAT1 -> k <> H0S -> pn p1 k = pn p k) /\
    (vals p H0S <= 15 -> values p [THE0; THE1; HE0; HE1] (vals p) /\ (a <> 1001 ->
    pn p1 H0S = Some (if Rlt_dec (norm_h (vals p) d (vals p HE0)) 0.2 then if Rlt_dec (norm_h (vals p) d (vals p HE1)) 0.2 then vals p H0S
                       else chosen (vals p) d else chosen (vals p) d)))).
  { unfold chosen. runfold. unfold r_ltb in E1. destruct (Rlt_dec 15 (vals p H0S)).
    - apply ok_pair in E1 as [-> ->]. split; [reflexivity|]. split; [reflexivity | lra].
    - getv E1 the0. getv E1 the1. getv E1 gme. getv E1 wn. getv E1 he0. getv E1 he1.
      fold (scat_angle (vals p) d) in E1. 
      change (2 * vals p WN * scat_angle (vals p) d * vals p HE0) with (norm_h (vals p) d (vals p HE0)) in E1.
      change (2 * vals p WN * scat_angle (vals p) d * vals p HE1) with (norm_h (vals p) d (vals p HE1)) in E1.
      apply bind_inv in E1 as [h [E2 E1]]. apply bind_inv in E1 as [a1 [E3 E1]].
      replace (2 / 10) with 0.2 in * by lra.
      set (b := (_ && _)%bool) in *. set (p2 := if b then _ else p) in *.
      assert (K2 : forall k, k <> ASCAT1 -> pn p2 k = pn p k).
      { intros k N. unfold p2. destruct b; [|reflexivity]. unfold setn. cbn. destruct (nkey_eqb ASCAT1 k) eqn:Z; [|reflexivity]. apply nkey_eqb_eq in Z. congruence. }
      apply (h0_value d h p2 (vals p) VA VR VQ) in E2; [|intros k I; rewrite K2; [apply V; exact I | intro; subst; cbn in I; repeat (destruct I as [I|I]; [discriminate|]); exact I]].
      apply ok_pair in E1 as [-> ->]. split; [exact E2|].
      split; [|intros _; split].
      + intros k N1 N2. destruct (negb (r_eqb a1 1001)); [|apply K2; exact N1]. unfold setn. cbn. destruct (nkey_eqb H0S k) eqn:Z; [apply nkey_eqb_eq in Z; congruence | apply K2; exact N1].
      + intros k I; cbn in I; repeat (destruct I as [<-|I]; [assumption|]); destruct I.
      + intro NA. assert (B : r_eqb a1 1001 = b).
        { apply (proj1 (pn_getn RA p2 ASCAT1 a1)) in E3. unfold p2 in E3. destruct b; [|rewrite A1 in E3]; [apply r_eqb_true | apply r_eqb_false]; [|congruence]; unfold setn in E3; cbn in E3; congruence. }
        rewrite B.
        rewrite <- E2. unfold b in *. unfold r_ltb in *.
        destruct (Rlt_dec (norm_h (vals p) d (vals p HE0)) 0.2); [destruct (Rlt_dec (norm_h (vals p) d (vals p HE1)) 0.2)|]; cbn [andb negb].
        * rewrite K2 by discriminate. apply V. inks.
        * reflexivity.
        * reflexivity. }
  clear E1. destruct X as (-> & K & HV). getv H tha. getv H gme. apply bind_inv in H as [f [E1 H]]. getv H wn. apply bind_inv in H as [t4 [E2 H]].
  apply bind_inv in H as [l [E3 H]]. getv H ens. apply bind_inv in H as [t [E4 H]]. apply bind_inv in H as [e [E5 H]]. apply ok_inj in H.
  assert (KV : forall k, k <> ASCAT1 -> k <> H0S -> vals p1 k = vals p k) by (intros k N1 N2; unfold vals; rewrite K by assumption; reflexivity).
  rewrite (KV THA), (KV GME), ?(KV WN), ?(KV ENS) in * by discriminate. rewrite K in P, P0, P1, P2 by discriminate.
  runfold. change (vals p THA + d * vals p GME) with (angle_at (vals p) d) in *.
  apply ahd_value in E1. rewrite r_powZ_4 in E2. apply ok_inj in E2, E5. apply r_log_inv in E3 as [_ E3]. apply r_div_inv in E4 as [_ E4].
  split; [|split].
  - subst q. unfold setn. cbn. f_equal. unfold scatter. rewrite E1, E3, E2, E5, E4.
    replace (477 / 10) with 47.7 by lra. replace (4343 / 1000) with 4.343 by lra. replace (1 / 10) with 0.1 by lra.
    replace (- angle_at (vals p) d * d / (40000 / 1)) with (- (angle_at (vals p) d * d) / 40000) by field. reflexivity.
  - intros k I. cbn in I. repeat (destruct I as [<-|I]; [assumption|]). destruct I.
  - intro L. destruct (HV L) as [HV1 HV2]. split; [exact HV1|]. intro NA. rewrite <- (HV2 NA). subst q. reflexivity.
Qed.
Definition scat_ins : list nkey := [WN; GME; ENS; HE0; HE1; DL0; DL1; THE0; THE1; DLA; THA].
Section Ext.
Context (v w : nkey -> R).
Hypothesis E : forall k, In k scat_ins -> v k = w k.
Lemma norm_ext d he : norm_h v d he = norm_h w d he.
Proof using E. unfold norm_h, scat_angle. rewrite !(E WN), !(E THE0), !(E THE1), !(E GME) by inks. reflexivity. Qed.
Lemma skew_ext : skew v = skew w.
Proof using E. unfold skew. rewrite (E DL0), (E DL1) by inks. reflexivity. Qed.
Lemma ratio_ext : ratio v = ratio w.
Proof using E. unfold ratio. rewrite (E DL0), (E DL1), (E HE0), (E HE1) by inks. reflexivity. Qed.
Lemma eff_ext d : efficiency v d = efficiency w d.
Proof using E. unfold efficiency, volume, scat_angle. rewrite skew_ext, !(E ENS), !(E THE0), !(E THE1), !(E GME) by inks. reflexivity. Qed.
Lemma gain_ext d : path_gain v d = path_gain w d.
Proof using E. unfold path_gain. rewrite !norm_ext, !skew_ext, !ratio_ext, !eff_ext, !(E HE0), !(E HE1) by inks. reflexivity. Qed.
Lemma scatter_ext d h : scatter v d h = scatter w d h.
Proof using E. unfold scatter, angle_at. rewrite !(E THA), !(E GME), !(E WN), !(E ENS) by inks. reflexivity. Qed.
End Ext.

Lemma kept_eq v k6 : k6 = (if Rlt_dec (norm_h v (scat_d6 v) (v HE0)) 0.2 then if Rlt_dec (norm_h v (scat_d6 v) (v HE1)) 0.2 then -15
                       else path_gain v (scat_d6 v) else path_gain v (scat_d6 v)) -> k6 = kept_gain v.
Proof. intro H. exact H. Qed.
Lemma inv_ratio (a b : R) : b <> 0 -> a / b <> 0 -> 1 / (a / b) = b / a.
Proof. intros N0 N1. field. split; [|exact N0]. intro Z. apply N1. rewrite Z. unfold Rdiv. ring. Qed.
Lemma scat_setup_value (p q : prop RA) : pn p ASCAT1 = Some 0 -> lr_scat_setup RA p = Ok q ->
  scatter_params (vals q) /\ values q (scat_ins ++ [AED; EMD; EMS; AES; DX]) (vals q).
Proof.
  intros A1 H. assert (FS := H). apply lr_scat_setup_frame in FS. unfold lr_scat_setup in H. getv H dl0. getv H dl1. getv H he0. getv H he1.
  apply bind_inv in H as [rr [E1 H]]. apply bind_inv in H as [[ad rr'] [E2 H]]. getv H ens. dsimp_in H. getv H dla.
  cbn [RA n_div n_Z n_ltb n_sub n_opp] in E1, E2. unfold r_ltb in E2.
  assert (X : ad = skew (vals p) /\ rr' = ratio (vals p)).
  { apply r_div_inv in E1 as [N0 E1]. unfold skew, ratio. destruct (Rlt_dec (vals p DL0 - vals p DL1) 0).
    - apply bind_inv in E2 as [r2 [E3 E2]]. apply ok_pair in E2 as [-> ->]. apply r_div_inv in E3 as [N1 E3]. split.
      + rewrite Rabs_left by assumption. reflexivity.
      + destruct (Rlt_dec (vals p DL0) (vals p DL1)); [|lra]. rewrite E3, E1. rewrite E1 in N1. exact (inv_ratio _ _ N0 N1).
    - apply ok_pair in E2 as [-> ->]. split.
      + rewrite Rabs_right by lra. reflexivity.
      + destruct (Rlt_dec (vals p DL0) (vals p DL1)); [lra|]. exact E1. }
  destruct X as [-> ->]. clear E1 E2.
  change (@n_add RA (vals p DLA) (200000 // 1)%num) with (vals p DLA + 200000 / 1) in H.
  set (d5 := vals p DLA + 200000 / 1) in *. change (@n_add RA d5 (200000 // 1)%num) with (d5 + 200000 / 1) in H. set (q0 := setn _ H0S _) in H.
  assert (KV0 : forall k, In k scat_ins -> vals p k = vals q0 k) by (intros k I; cbn in I; repeat (destruct I as [<-|I]; [reflexivity|]); destruct I).
  assert (PRE : scat_pre (vals q0)).
  { split; [|split].
    - rewrite <- (skew_ext _ _ KV0). reflexivity.
    - rewrite <- (ratio_ext _ _ KV0). reflexivity.
    - rewrite <- (KV0 ENS) by inks. transitivity ((567 / 100000000 * vals p ENS - 232 / 100000) * vals p ENS + 31 / 1000); [reflexivity|].
      replace 0.00000567 with (567 / 100000000) by lra. replace 0.00232 with (232 / 100000) by lra. replace 0.031 with (31 / 1000) by lra. reflexivity. }
  assert (V0 : values q0 [AD; RR; ETQ; H0S] (vals q0)) by (intros k I; cbn in I; repeat (destruct I as [<-|I]; [reflexivity|]); destruct I).
  apply bind_inv in H as [q1 [A6 H]]. apply bind_inv in H as [a6 [E6 H]].
  assert (F6 := A6). apply ascat_frame in F6.
  assert (H0 : vals q0 H0S = -15) by reflexivity.
  apply (ascat_value (d5 + 200000 / 1) 0 q0 q1 PRE V0) in A6; [|exact A1]. destruct A6 as (B6 & VV1 & VV2).
  destruct VV2 as [VV2 K6]; [rewrite H0; lra|]. specialize (K6 ltac:(lra)). apply (proj1 (pn_getn RA q1 ASCAT1 a6)) in E6. rewrite B6 in E6. injection E6 as E6.
  assert (C6 : chosen (vals q0) (d5 + 200000 / 1) = path_gain (vals q0) (d5 + 200000 / 1)).
  { unfold chosen. rewrite H0. destruct (Rlt_dec 15 (-15)); [lra|]. destruct (Rle_dec 0 (-15)); [lra|]. destruct (Rlt_dec 15 (path_gain (vals q0) (d5 + 200000 / 1))); reflexivity. }
  rewrite C6 in *. rewrite H0 in K6. clear C6.
  assert (N01 : forall k, In k ([AD; RR; ETQ] ++ scat_ins) -> pn q1 k = pn q0 k).
  { intros k I. apply (fr_pn _ _ _ _ _ k F6). cbn in I. repeat (destruct I as [<-|I]; [reflexivity|]). destruct I. }
  assert (V01 : forall k, In k ([AD; RR; ETQ] ++ scat_ins) -> vals q0 k = vals q1 k) by (intros k I; unfold vals; rewrite N01 by exact I; reflexivity).
  assert (V01' : forall k, In k scat_ins -> vals q0 k = vals q1 k) by (intros k I; apply V01; apply in_or_app; right; exact I).
  assert (PRE1 : scat_pre (vals q1)).
  { destruct PRE as (X1 & X2 & X3). rewrite (V01 AD), (skew_ext _ _ V01') in X1 by inks. rewrite (V01 RR), (ratio_ext _ _ V01') in X2 by inks.
    rewrite (V01 ETQ), (V01 ENS) in X3 by inks. repeat split; assumption. }
  assert (V1 : values q1 [AD; RR; ETQ; H0S] (vals q1)).
  { intros k I. assert (exists x, pn q1 k = Some x) as [x Ex]; [|rewrite Ex; f_equal; symmetry; apply vals_some; exact Ex].
    cbn in I. destruct I as [<-|[<-|[<-|[<-|[]]]]]; try (rewrite N01 by inks; eexists; apply V0; inks). eexists; exact K6. }
  apply bind_inv in H as [q2 [A5 H]]. apply bind_inv in H as [a5 [E5 H]].
  assert (F5 := A5). apply ascat_frame in F5.
  apply (ascat_value d5 _ q1 q2 PRE1 V1 B6) in A5. destruct A5 as (B5 & VV3 & _).
  apply (proj1 (pn_getn RA q2 ASCAT1 a5)) in E5. rewrite B5 in E5. injection E5 as E5.
  assert (FV : forall k, In k scat_ins -> vals q k = vals p k).
  { intros k I. unfold vals. rewrite (fr_pn _ _ _ _ _ k FS); [reflexivity|]. cbn in I. repeat (destruct I as [<-|I]; [reflexivity|]). destruct I. }
  assert (V0q : forall k, In k scat_ins -> vals q0 k = vals q k) by (intros k I; rewrite FV, KV0 by exact I; reflexivity).
  assert (V1q : forall k, In k scat_ins -> vals q1 k = vals q k) by (intros k I; rewrite <- V01', V0q by exact I; reflexivity).
  assert (D5 : d5 = scat_d5 (vals q)) by (unfold d5, scat_d5; rewrite (FV DLA) by inks; lra).
  assert (D6 : d5 + 200000 / 1 = scat_d6 (vals q)) by (unfold d5, scat_d6; rewrite (FV DLA) by inks; lra).
  rewrite D6 in *. rewrite (scatter_ext _ _ V0q), (gain_ext _ _ V0q) in E6.
  assert (KG : vals q1 H0S = kept_gain (vals q)).
  { rewrite (vals_some _ _ _ K6). unfold kept_gain. rewrite !(norm_ext _ _ V0q), !(gain_ext _ _ V0q), (V0q HE0), (V0q HE1) by inks. reflexivity. }
  assert (NG : chosen (vals q1) d5 = near_gain (vals q)).
  { unfold chosen, near_gain. rewrite KG, (gain_ext _ _ V1q), <- D5. reflexivity. }
  rewrite NG, (scatter_ext _ _ V1q) in E5. clear NG KG. clearbody d5.
  apply bind_inv in H as [emd [G1 H]]. apply bind_inv in H as [aed [G2 H]]. apply bind_inv in H as [q3 [G3 H]]. apply ok_inj in H.
  assert (N2q : forall k, In k [EMD; AED; DLSA; XAE; WN] -> pn q2 k = pn q k).
  { intros k I. cbn in I. repeat (destruct I as [<-|I]; [rewrite (fr_pn _ _ _ _ _ _ F5), (fr_pn _ _ _ _ _ _ F6), (fr_pn _ _ _ _ _ _ FS) by reflexivity; reflexivity|]). destruct I. }
  assert (V2q : forall k x, In k [EMD; AED; DLSA; XAE; WN] -> pn q2 k = Some x -> pn q k = Some x /\ x = vals q k).
  { intros k x I E. rewrite N2q in E by exact I. split; [exact E | symmetry; apply vals_some; exact E]. }
  apply (proj1 (pn_getn RA q2 EMD emd)) in G1. apply (proj1 (pn_getn RA q2 AED aed)) in G2.
  apply V2q in G1, G2; try inks. destruct G1 as [G1 G1']. destruct G2 as [G2 G2'].
  split.
  - unfold scatter_params. rewrite <- D5, E6, E5. clear E6 E5 B5 B6 K6. cbn [RA n_ltb n_Z] in G3. unfold r_ltb in G3.
    change (IZR 1000) with 1000 in G3. destruct (Rlt_dec a5 1000).
    + apply bind_inv in G3 as [ems [T1 G3]]. apply bind_inv in G3 as [dlsa [T2 G3]]. apply bind_inv in G3 as [xae [T3 G3]]. apply bind_inv in G3 as [wn [T4 G3]].
      apply bind_inv in G3 as [l [T5 G3]]. apply bind_inv in G3 as [t [T6 G3]]. dsimp_in T2. dsimp_in T3. dsimp_in T4.
      apply (proj1 (pn_getn RA q2 DLSA dlsa)) in T2. apply (proj1 (pn_getn RA q2 XAE xae)) in T3. apply (proj1 (pn_getn RA q2 WN wn)) in T4.
      apply V2q in T2, T3, T4; try inks. destruct T2 as [_ T2]. destruct T3 as [_ T3]. destruct T4 as [_ T4].
      rewrite !pymax_R in G3. apply ok_inj in G3.
      set (dx := Rmax (Rmax dlsa _) t) in G3.
      assert (X1 : vals q EMS = ems) by (subst q q3; reflexivity). assert (X2 : vals q DX = dx) by (subst q q3; reflexivity).
      assert (X3 : vals q AES = (emd - ems) * dx + aed) by (subst q q3; reflexivity).
      apply r_div_inv in T1 as [_ T1]. apply r_log_inv in T5 as [_ T5]. apply r_div_inv in T6 as [_ T6].
      rewrite X1, X2, X3, <- G1', <- G2', <- T2, <- T3, <- T4. split; [|split].
      * rewrite T1. runfold. lra.
      * unfold dx. rewrite T6, T5. runfold. rewrite (FV DLA) by inks. replace 0.3 with (3 / 10) by lra. replace 47.7 with (477 / 10) by lra. reflexivity.
      * ring.
    + apply ok_inj in G3. rewrite <- G1', <- G2'. clear - H G3. subst q q3. split; [reflexivity|]. split; [reflexivity|].
      unfold vals. cbn. lra.
  - intros k I. assert (exists x, pn q k = Some x) as [x Ex]; [|rewrite Ex; f_equal; symmetry; apply vals_some; exact Ex].
    assert (Y : forall k, In k [EMS; AES; DX] -> exists x, pn q k = Some x).
    { clear - H G3. intros k I. cbn [RA n_ltb n_Z] in G3. destruct (r_ltb a5 _).
      - do 6 (apply bind_inv in G3 as [? [_ G3]]). apply ok_inj in G3. subst q q3. cbn in I. repeat (destruct I as [<-|I]; [eexists; reflexivity|]). destruct I.
      - apply ok_inj in G3. subst q q3. cbn in I. repeat (destruct I as [<-|I]; [eexists; reflexivity|]). destruct I. }
    assert (W1 := VV1 THA ltac:(inks)). assert (W2 := VV1 GME ltac:(inks)). assert (W3 := VV1 WN ltac:(inks)). assert (W4 := VV1 ENS ltac:(inks)).
    assert (W5 := VV2 THE0 ltac:(inks)). assert (W6 := VV2 THE1 ltac:(inks)).
    assert (Z : forall k, In k [THA; GME; WN; ENS; THE0; THE1; DL0; DL1; HE0; HE1; DLA] -> pn q k = pn p k).
    { intros j J. apply (fr_pn _ _ _ _ _ j FS). cbn in J. repeat (destruct J as [<-|J]; [reflexivity|]). destruct J. }
    cbn in I. repeat (destruct I as [<-|I]; [first [solve [apply Y; inks] | solve [eexists; eassumption] | solve [rewrite Z by inks; eexists; eassumption] | solve [rewrite Z by inks; eexists; exact W1]
      | solve [rewrite Z by inks; eexists; exact W2] | solve [rewrite Z by inks; eexists; exact W3] | solve [rewrite Z by inks; eexists; exact W4] | solve [rewrite Z by inks; eexists; exact W5]
      | solve [rewrite Z by inks; eexists; exact W6]]|]). destruct I.
Qed.
