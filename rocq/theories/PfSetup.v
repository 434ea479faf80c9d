(** The secondary parameters of lrprop are those of the reference formulas. *)
From Verif Require Import Frame SpecLr PfFrame PfLrGen PfRegime PfCurves PfAtten PfAvarReal PfStats SpecSetup Arith.
Open Scope R_scope.

Lemma fht_value (x k y : R) : fht RA x k = Ok y -> y = height_gain x k.
Proof.
  intro H. unfold height_gain. destruct (Rlt_dec x 200).
  - assert (0 < k). { unfold fht in H. runfold. unfold r_ltb in H. destruct (Rlt_dec x 200); [|lra]. apply bind_inv in H as [l [E _]]. apply r_log_inv in E as [E _]. exact E. }
    rewrite fht_near_eq in H by assumption. apply ok_inj in H. subst y.
    destruct (Rlt_dec k 0.00001); [reflexivity|]. destruct (Rlt_dec 5495 (x * (- ln k) ^ 3)); [reflexivity|]. lra.
  - destruct (Rlt_dec x 2000).
    + rewrite fht_mid in H by lra. apply ok_inj in H. subst y. reflexivity.
    + rewrite fht_far in H by lra. apply ok_inj in H. subst y. reflexivity.
Qed.
Lemma term_value (v : nkey -> R) (dl he q f : R) : adiff_term RA ((1 / 3)%R : num RA) (v QK : num RA) (v WN : num RA) dl he = Ok (q, f) ->
  he <> 0 /\ q = sphere_x v dl he /\ f = height_gain (sphere_x v dl he) (sphere_k v dl he).
Proof.
  intro H. unfold adiff_term in H. apply bind_inv in H as [d2 [E1 H]]. apply bind_inv in H as [a [E2 H]]. apply bind_inv in H as [w [E3 H]].
  apply bind_inv in H as [k [E4 H]]. apply bind_inv in H as [x [E5 H]]. apply bind_inv in H as [g [E6 H]]. apply ok_pair in H as [-> ->]. runfold.
  rewrite r_powZ_2 in E1. apply ok_inj in E1. subst d2. apply r_div_inv in E2 as [N ->]. apply r_div_inv in E4 as [Nw E4]. apply r_div_inv in E5 as [Na E5].
  apply fht_value in E6.
  assert (Ea : 5 / 10 * dl ^ 2 / he = dl ^ 2 / (2 * he)) by (field; exact N).
  apply r_pow_inv in E3. destruct E3 as [[Pw E3]|[[_ [_ Z]]|[_ [Z _]]]]; [|congruence|lra].
  rewrite Ea in *. fold (sphere v dl he) in E3. subst w. fold (sphere_k v dl he) in E4. subst k.
  assert (Nd : dl <> 0). { intro Z. apply Na. rewrite Z. unfold Rdiv. simpl. ring. }
  split; [exact N|]. assert (x = sphere_x v dl he).
  { rewrite E5. unfold sphere_x. replace (1607 / 1000) with 1.607 by lra. field. auto. }
  subst x. split; [assumption|]. rewrite <- H. exact E6.
Qed.
Lemma abs_value (a b z : R) : @c_abs RA (a, b) = Ok z -> z = sqrt (a ^ 2 + b ^ 2).
Proof. unfold c_abs. cbn [fst snd n_hypot RA]. intro H. apply ok_inj in H. subst z. f_equal. ring. Qed.

Definition init_in : list nkey := [HG0; HG1; HE0; HE1; DLA; THA; GME; DLSA; DH; WN; ZGR; ZGI; DL0; DL1].
Definition init_out : list nkey := [WD1; XD1; AFO; QK; XHT; AHT].
Lemma init_value (p q : prop RA) m : pz p MDP = Some m -> adiff_init RA ((1 / 3)%R : num RA) p = Ok q ->
  diffraction_params (vals q) (m <? 0)%Z /\ values q (init_in ++ init_out) (vals q).
Proof.
  intros M H. unfold adiff_init in H. getv H hg0. getv H hg1. getv H he0. getv H he1.
  rewrite (proj2 (pz_getz RA p MDP m) M) in H. cbn [bind] in H.
  apply bind_inv in H as [t [E1 H]]. apply bind_inv in H as [wd1 [E2 H]]. dsimp_in H.
  getv H dla. getv H tha. getv H gme. apply bind_inv in H as [t2 [E3 H]]. dsimp_in H. getv H dlsa. getv H dh.
  apply bind_inv in H as [q1 [E4 H]]. apply bind_inv in H as [q2 [E5 H]]. getv H wn. apply bind_inv in H as [l [E6 H]]. dsimp_in H.
  getv H zr. getv H zi. apply bind_inv in H as [za [E7 H]]. apply bind_inv in H as [qk [E8 H]]. dsimp_in H.
  getv H dl0. apply bind_inv in H as [[x0 f0] [T0 H]]. getv H dl1. apply bind_inv in H as [[x1 f1] [T1 H]]. apply ok_inj in H.
  apply dh_at_inv in E4. apply rough_inv in E5 as [_ E5]. apply abs_value in E7. rewrite pymin_R in H. runfold.
  apply r_div_inv in E1 as [N1 ->]. apply r_sqrt_inv in E2 as [_ ->]. apply r_div_inv in E3 as [_ ->]. apply r_log_inv in E6 as [_ ->].
  apply r_div_inv in E8 as [_ ->].
  assert (VQ : vals q QK = 1 / za) by (subst q; reflexivity).
  assert (VW : vals q WN = vals p WN) by (subst q; reflexivity).
  rewrite <- VQ, <- VW in T0, T1.
  apply term_value in T0 as (_ & X0 & F0). apply term_value in T1 as (_ & X1 & F1).
  assert (K : forall k, In k init_in -> pn q k = pn p k).
  { intros k I. subst q. cbn in I. repeat (destruct I as [<-|I]; [reflexivity|]). destruct I. }
  assert (KV : forall k, In k init_in -> vals q k = vals p k) by (intros k I; unfold vals; rewrite K by exact I; reflexivity).
  split.
  - unfold diffraction_params.
    rewrite !(KV HG0), !(KV HG1), !(KV HE0), !(KV HE1), !(KV DLA), !(KV THA), !(KV GME), !(KV DLSA), !(KV WN), !(KV ZGR), !(KV ZGI), !(KV DL0), !(KV DL1) by inks.
    assert (RO : roughness (vals q) (vals p DLSA) = q2).
    { unfold roughness, irregularity_at. rewrite (KV DH) by inks. rewrite E5, E4. reflexivity. }
    rewrite RO. rewrite <- F0, <- F1, <- X0, <- X1. clear F0 F1 X0 X1 RO. rewrite E7 in VQ. split; [|split; [|split; [|split; [|split]]]].
    + subst q. unfold vals at 1. cbn. do 3 f_equal. destruct (m <? 0)%Z; ring.
    + subst q. reflexivity.
    + replace 0.000477 with (477 / 1000000) by lra. replace 2.171 with (2171 / 1000) by lra. subst q. reflexivity.
    + exact VQ.
    + transitivity (0 + x0 + x1); [subst q; reflexivity | ring].
    + subst q. reflexivity.
  - intros k I. assert (exists x, pn q k = Some x) as [x Ex]; [|rewrite Ex; f_equal; symmetry; apply vals_some; exact Ex].
    apply in_app_or in I as [I|I].
    + rewrite K by exact I. cbn in I. repeat (destruct I as [<-|I]; [eexists; eassumption|]). destruct I.
    + subst q. cbn in I. repeat (destruct I as [<-|I]; [eexists; reflexivity|]). destruct I.
Qed.

(** ** The diffraction line *)
Lemma diffraction_ext v w d : (forall k, In k diff_keys -> v k = w k) -> diffraction v d = diffraction w d.
Proof.
  intro E. unfold diffraction, diff_weight, rounded_earth, double_knife, angle_at, irregularity_at.
  rewrite !(E THA), !(E GME), !(E DLA), !(E WN), !(E DL0), !(E DL1), !(E QK), !(E XHT), !(E AHT), !(E WD1), !(E XD1), !(E DH), !(E AFO) by inks.
  reflexivity.
Qed.
Lemma adiff_vals (d a : R) (p p' : prop RA) : d <> 0 -> adiff RA d p = Ok (a, p') -> a = diffraction (vals p) d /\ p' = p.
Proof.
  intros N H. split.
  - destruct (adiff_value d a p p' N H) as (v & V & _ & _ & E). cbv zeta in E. rewrite E. apply diffraction_ext.
    intros k I. symmetry. apply vals_some. apply V. exact I.
  - eapply adiff_frame_any; [|exact H]. cbn. apply r_eqb_false. exact N.
Qed.
Lemma adiff_zero (a : R) (p p' : prop RA) : adiff RA 0 p = Ok (a, p') -> adiff_init RA ((1 / 3)%R : num RA) p = Ok p'.
Proof.
  intro H. unfold adiff in H. apply bind_inv in H as [th [E3 H]]. apply r_div_inv in E3 as [_ ->].
  cbn [n_eqb RA n_Z] in H. rewrite (proj2 (r_eqb_true 0 0) eq_refl) in H. apply bind_inv in H as [x [H Hx]]. apply ok_pair in Hx as [_ ->]. exact H.
Qed.
Lemma diff_params_ext v w b : (forall k, In k (init_in ++ init_out) -> v k = w k) -> diffraction_params v b -> diffraction_params w b.
Proof.
  intro E. unfold diffraction_params, sphere_x, sphere_k, sphere, roughness, irregularity_at.
  rewrite !(E HG0), !(E HG1), !(E HE0), !(E HE1), !(E DLA), !(E THA), !(E GME), !(E DLSA), !(E DH), !(E WN), !(E ZGR), !(E ZGI), !(E DL0), !(E DL1),
    !(E WD1), !(E XD1), !(E AFO), !(E QK), !(E XHT), !(E AHT) by inks. auto.
Qed.
Lemma diff_value (p q : prop RA) m (s : R) : pz p MDP = Some m -> pn p DLSA = Some s -> 0 < s -> lr_diff RA ((1 / 3)%R : num RA) p = Ok q ->
  diffraction_params (vals q) (m <? 0)%Z /\ line_params (vals q) /\ vals q DMIN = Rabs (vals q HE0 - vals q HE1) / 0.2 /\
  values q (init_in ++ init_out ++ [DMIN; XAE; EMD; AED; WIS]) (vals q).
Proof.
  intros M S0 SP H. unfold lr_diff in H. getv H he0. getv H he1. apply bind_inv in H as [dm [E1 H]].
  apply bind_inv in H as [[a0 p1] [E2 H]]. 
  assert (A0 : adiff RA 0 (setn p DMIN dm) = Ok (a0, p1)) by exact E2. clear E2.
  apply adiff_zero in A0. assert (F1 := adiff_init_frame RA _ _ _ A0). cbn beta in F1.
  destruct (init_value (setn p DMIN dm) p1 m M A0) as [DP V1].
  getv H wn. getv H gme. apply bind_inv in H as [g2 [E3 H]]. apply bind_inv in H as [xae [E4 H]]. dsimp_in H.
  getv H dlsa. getv H dla. rewrite !pymax_R in H. runfold. rewrite r_powZ_2 in E3. apply ok_inj in E3. subst g2.
  assert (X : 0 < xae /\ xae = Rpower (vals p1 WN * vals p1 GME ^ 2) (- (1 / 3))).
  { apply r_pow_inv in E4. destruct E4 as [[_ ->]|[[_ [Z _]]|[_ [Z _]]]]; [|lra|lra]. split; [apply exp_pos | reflexivity]. }
  destruct X as [XP XE].
  set (d3 := Rmax (vals p1 DLSA) _) in H. set (d4 := d3 + _) in H.
  assert (S1 : vals p1 DLSA = s).
  { apply vals_some. rewrite (fr_pn _ _ _ _ _ _ F1) by reflexivity. exact S0. }
  assert (D3 : 0 < d3) by (unfold d3; eapply Rlt_le_trans; [|apply Rmax_l]; lra).
  assert (D4 : d3 < d4) by (unfold d4; lra).
  apply bind_inv in H as [[a3 p2] [B3 H]]. apply adiff_vals in B3 as [B3 ->]; [|lra].
  apply bind_inv in H as [[a4 p2] [B4 H]]. apply adiff_vals in B4 as [B4 ->]; [|lra].
  apply bind_inv in H as [emd [Ee H]]. dsimp_in H. apply r_div_inv in Ee as [_ Ee]. getv H dh. apply bind_inv in H as [t [Et H]]. apply bind_inv in H as [wis [Ew H]]. apply ok_inj in H.
  apply r_div_inv in Et as [_ Et]. apply r_div_inv in Ew as [_ Ew]. apply r_div_inv in E1 as [_ E1].
  assert (K : forall k, In k (init_in ++ init_out) -> pn q k = pn p1 k).
  { intros k I. subst q. cbn in I. repeat (destruct I as [<-|I]; [reflexivity|]). destruct I. }
  assert (KV : forall k, In k (init_in ++ init_out) -> vals q k = vals p1 k) by (intros k I; unfold vals; rewrite K by exact I; reflexivity).
  assert (VX : vals q XAE = xae) by (subst q; reflexivity).
  assert (VD3 : diff_d3 (vals q) = d3).
  { unfold diff_d3, d3. rewrite VX, (KV DLSA), (KV DLA) by inks. f_equal. replace 1.3787 with (13787 / 10000) by lra. lra. }
  assert (VD4 : diff_d4 (vals q) = d4).
  { unfold diff_d4. rewrite VD3, VX. unfold d4. replace 2.7574 with (27574 / 10000) by lra. lra. }
  clearbody d4. clearbody d3.
  assert (DF : forall d, diffraction (vals (setn p1 XAE xae)) d = diffraction (vals q) d).
  { intro d. apply diffraction_ext. intros k I. symmetry. transitivity (vals p1 k).
    - apply KV. cbn in I |- *. repeat (destruct I as [<-|I]; [inks|]). destruct I.
    - cbn in I. repeat (destruct I as [<-|I]; [reflexivity|]). destruct I. }
  rewrite DF in B3, B4.
  split; [|split; [|split]].
  - eapply diff_params_ext; [|exact DP]. intros k I. symmetry. apply KV. exact I.
  - unfold line_params. rewrite VX, VD3, VD4, !(KV WN), !(KV GME), !(KV DH), !(KV DLSA) by inks.
    rewrite <- B3, <- B4.
    assert (VE : vals q EMD = emd) by (subst q; reflexivity). assert (VA : vals q AED = a3 - emd * d3) by (subst q; reflexivity).
    assert (VW : vals q WIS = wis) by (subst q; reflexivity). rewrite VE, VA, VW. split; [exact XE|]. split; [ring|]. split.
    + rewrite Ee. field. lra.
    + rewrite Ew, Et. replace (21 / 1000) with 0.021 by lra. replace (10000 / 1) with 10000 by lra. reflexivity.
  - rewrite (KV HE0), (KV HE1) by inks. transitivity dm.
    + subst q. unfold vals at 1. cbn. rewrite (fr_pn _ _ _ _ _ _ F1) by reflexivity. reflexivity.
    + rewrite E1. replace 0.2 with (2 / 10) by lra. do 2 f_equal. unfold Rminus. f_equal; [|f_equal]; (unfold vals; rewrite (fr_pn _ _ _ _ _ _ F1) by reflexivity; reflexivity).
  - intros k I. assert (exists x, pn q k = Some x) as [x Ex]; [|rewrite Ex; f_equal; symmetry; apply vals_some; exact Ex].
    rewrite app_assoc in I. apply in_app_or in I as [I|I]; [exists (vals p1 k); rewrite K by exact I; apply V1; exact I|].
    destruct I as [<-|I].
    + exists dm. subst q. cbn. rewrite (fr_pn _ _ _ _ _ _ F1) by reflexivity. reflexivity.
    + subst q. cbn in I. repeat (destruct I as [<-|I]; [eexists; reflexivity|]). destruct I.
Qed.

Lemma geom_value (p q : prop RA) : lr_geom RA p = Ok q ->
  vals q DLS0 = sqrt (2 * vals q HE0 / vals q GME) /\ vals q DLS1 = sqrt (2 * vals q HE1 / vals q GME) /\
  vals q DLSA = vals q DLS0 + vals q DLS1 /\ vals q DLA = vals q DL0 + vals q DL1 /\
  vals q THA = Rmax (vals q THE0 + vals q THE1) (- vals q DLA * vals q GME) /\
  values q [HE0; HE1; GME; DL0; DL1; THE0; THE1; DLS0; DLS1; DLSA; DLA; THA] (vals q).
Proof.
  intro H. unfold lr_geom in H. getv H he0. getv H he1. getv H gme.
  apply bind_inv in H as [t0 [E0 H]]. apply bind_inv in H as [s0 [E1 H]]. apply bind_inv in H as [t1 [E2 H]]. apply bind_inv in H as [s1 [E3 H]].
  dsimp_in H. getv H dl0. getv H dl1. dsimp_in H. getv H the0. getv H the1. rewrite !pymax_R in H. runfold. apply ok_inj in H.
  apply r_div_inv in E0 as [_ ->]. apply r_div_inv in E2 as [_ ->]. apply r_sqrt_inv in E1 as [_ ->]. apply r_sqrt_inv in E3 as [_ ->].
  repeat split; try (subst q; reflexivity).
  intros k I. assert (exists x, pn q k = Some x) as [x Ex]; [|rewrite Ex; f_equal; symmetry; apply vals_some; exact Ex].
  subst q. cbn in I. repeat (destruct I as [<-|I]; [eexists; first [reflexivity | eassumption]|]). destruct I.
Qed.
Lemma setup_value (p q : prop RA) m : pz p MDP = Some m -> lr_setup RA ((1 / 3)%R : num RA) p = Ok q ->
  geometry_params (vals q) /\ diffraction_params (vals q) (m <? 0)%Z /\ line_params (vals q) /\ values q setup_keys (vals q) /\ 0 < vals q DLSA.
Proof.
  intros M H. destruct (lr_setup_dlsa _ _ _ H) as [s [S P]]. assert (F := H). apply lr_setup_frame in F. unfold lr_setup in H.
  apply bind_inv in H as [q1 [G H]]. apply bind_inv in H as [q2 [C H]].
  assert (FG := G). apply lr_geom_frame in FG. apply lr_checks_frame in C. assert (FD := H). apply lr_diff_frame in FD.
  apply geom_value in G. destruct G as (G1 & G2 & G3 & G4 & G5 & GV).
  assert (M2 : pz q2 MDP = Some m). { rewrite (fr_pz _ _ _ _ _ MDP C eq_refl). rewrite (fr_pz _ _ _ _ _ MDP FG eq_refl). exact M. }
  assert (S2 : pn q2 DLSA = Some s) by (rewrite <- (fr_pn _ _ _ _ _ DLSA FD eq_refl); exact S).
  destruct (diff_value q2 q m s M2 S2 P H) as (D1 & D2 & D3 & DV).
  assert (K : forall k, In k [HE0; HE1; GME; DL0; DL1; THE0; THE1; DLS0; DLS1; DLSA; DLA; THA] -> pn q k = pn q1 k).
  { intros k I. transitivity (pn q2 k).
    - apply (fr_pn _ _ _ _ _ k FD). cbn in I. repeat (destruct I as [<-|I]; [reflexivity|]). destruct I.
    - apply (fr_pn _ _ _ _ _ k C). reflexivity. }
  assert (KV : forall k, In k [HE0; HE1; GME; DL0; DL1; THE0; THE1; DLS0; DLS1; DLSA; DLA; THA] -> vals q1 k = vals q k) by (intros k I; unfold vals; rewrite K by exact I; reflexivity).
  rewrite !(KV DLS0), !(KV HE0), !(KV GME) in G1 by inks. rewrite !(KV DLS1), !(KV HE1), !(KV GME) in G2 by inks.
  rewrite !(KV DLSA), !(KV DLS0), !(KV DLS1) in G3 by inks. rewrite !(KV DLA), !(KV DL0), !(KV DL1) in G4 by inks.
  rewrite !(KV THA), !(KV THE0), !(KV THE1), !(KV DLA), !(KV GME) in G5 by inks.
  split; [repeat split; assumption|]. split; [exact D1|]. split; [exact D2|]. split.
  - intros k I. cbn in I. repeat (destruct I as [<-|I]; [first [ solve [apply DV; inks] | solve [rewrite K by inks; rewrite GV by inks; f_equal; apply KV; inks]]|]). destruct I.
  - rewrite (vals_some _ _ _ S). exact P.
Qed.
Lemma lrprop_params (d : R) (p p' : prop RA) m : pz p MDP = Some m -> m <> 0%Z -> lrprop RA d p = Ok p' ->
  exists v, values p setup_inputs v /\ values p' setup_keys v /\ geometry_params v /\ diffraction_params v (m <? 0)%Z /\ line_params v.
Proof.
  intros M N H. destruct (lrprop_stages RA d p p' H) as (th & m' & p1 & p2 & p3 & p4 & a & T & M' & S & D & Lo & Sc & _ & ->).
  rewrite M in M'. injection M' as <-. destruct S as [[S _]|[_ S]]; [contradiction|].
  cbn [n_div RA n_Z] in T. apply r_div_inv in T as [_ T]. change (IZR 1) with 1 in T. change (IZR 3) with 3 in T. subst th.
  assert (F1 := S). apply lr_setup_frame in F1.
  apply lr_dist_frame in D. apply lr_los_frame in Lo. apply lr_scat_frame in Sc.
  destruct (setup_value p p1 m M S) as (G & DP & LP & V & _). exists (vals p1).
  split; [|split; [|auto]].
  - intros k I. cbn in I. repeat (destruct I as [<-|I]; [rewrite <- (fr_pn _ _ _ _ _ _ F1) by reflexivity; apply V; inks|]). destruct I.
  - intros k I. rewrite <- (V k I). cbn in I. repeat (destruct I as [<-|I]; [cbn; rewrite (fr_pn _ _ _ _ _ _ Sc), (fr_pn _ _ _ _ _ _ Lo), (fr_pn _ _ _ _ _ _ D) by reflexivity; reflexivity|]). destruct I.
Qed.
