(** The line-of-sight coefficients of lrprop are those of the reference formulas. *)
From Verif Require Import Frame SpecLr PfFrame PfLrGen PfRegime PfAtten PfAvarReal PfStats PfLos SpecLosRef Arith.
Open Scope R_scope.

Definition alos_keys : list nkey := [DH; HE0; HE1; ZGR; ZGI; WN; EMD; AED; WIS].
Lemma los_at_ext v w d : (forall k, In k alos_keys -> v k = w k) -> los_at v d = los_at w d.
Proof.
  intro E. unfold los_at, reflection, rough_reflection, phase, graze, roughness, irregularity_at.
  rewrite !(E DH), !(E HE0), !(E HE1), !(E ZGR), !(E ZGI), !(E WN), !(E EMD), !(E AED), !(E WIS) by inks. reflexivity.
Qed.
Lemma alos_vals (d a : R) (p : prop RA) : alos RA d p = Ok a -> a = los_at (vals p) d /\ values p alos_keys (vals p).
Proof.
  intro H. destruct (alos_full d a p H) as (v & V & E & _). 
  assert (X : forall k, In k alos_keys -> vals p k = v k) by (intros k I; apply vals_some; apply V; exact I).
  split; [rewrite (los_at_ext _ _ d X); exact E|]. intros k I. rewrite X by exact I. apply V. exact I.
Qed.
Lemma coeffs_value (p : prop RA) (k1 k2 ael : R) : lr_los_coeffs RA p = Ok (k1, k2, ael) ->
  pn p AK1 = Some k1 -> pn p AK2 = Some k2 -> pn p AEL = Some ael -> los_params (vals p) /\ values p los_keys (vals p).
Proof.
  intros H K1 K2 KA. unfold lr_los_coeffs in H. getv H dd. getv H aed. getv H emd. getv H wn. getv H he0. getv H he1. getv H dla.
  apply bind_inv in H as [[d0 d1] [E1 H]]. apply bind_inv in H as [a1 [E2 H]]. apply bind_inv in H as [fit [E3 H]].
  apply bind_inv in H as [[x1 x2] [E4 H]]. apply bind_inv in H as [l [E5 H]]. apply ok_inj in H. 
  assert (X1 : k1 = x1) by congruence. assert (X2 : k2 = x2) by congruence.
  assert (X3 : ael = @n_sub RA (@n_sub RA (@n_add RA (vals p AED) (@n_mul RA (vals p DLSA) (vals p EMD))) (@n_mul RA x1 (vals p DLSA))) (@n_mul RA x2 l)) by congruence.
  clear H. subst k1 k2. apply r_log_inv in E5 as [D2 E5].
  apply alos_vals in E2 as [E2 V].
  assert (D0 : d0 = fit_d0 (vals p) /\ d1 = fit_d1 (vals p)).
  { cbn [RA n_leb n_Z] in E1. unfold fit_d0, fit_d1, los_d0, los_d1, los_d0. unfold r_leb in E1. change (IZR 0) with 0 in E1. destruct (Rle_dec 0 (vals p AED)).
    - apply ok_pair in E1 as [-> ->]. rewrite !pymin_R. runfold. replace 1.908 with (1908 / 1000) by lra. replace 0.5 with (5 / 10) by lra. replace 0.25 with (25 / 100) by lra. auto.
    - apply bind_inv in E1 as [t [Et E1]]. apply ok_pair in E1 as [-> ->]. rewrite !pymax_R. apply r_div_inv in Et as [_ ->]. runfold.
      replace 1.908 with (1908 / 1000) by lra. replace 0.25 with (25 / 100) by lra. auto. }
  destruct D0 as [D0 D1].
  assert (A2 : @n_add RA (vals p AED) (@n_mul RA (vals p DLSA) (vals p EMD)) = fit_a2 (vals p)) by (unfold fit_a2; runfold; ring).
  rewrite A2 in *. rewrite D1 in E2. 
  split; [|intros k I; assert (exists x, pn p k = Some x) as [x Ex]; [|rewrite Ex; f_equal; symmetry; apply vals_some; exact Ex];
           cbn in I; repeat (destruct I as [<-|I]; [first [eexists; eassumption | eexists; apply V; inks]|]); destruct I].
  assert (FIT : (fit_used (vals p) -> fit = Some (x1, x2) /\ (0 <= fit_ak1 (vals p) -> x1 = fit_ak1 (vals p) /\ x2 = fit_ak2 (vals p)) /\
     (fit_ak1 (vals p) < 0 -> x2 = Rmax 0 (fit_a2 (vals p) - los_at (vals p) (fit_d0 (vals p))) / ln (vals p DLSA / fit_d0 (vals p)) /\
                     x1 = if Req_EM_T x2 0 then vals p EMD else 0)) /\ (~ fit_used (vals p) -> fit = None)).
  { unfold lr_fit in E3. rewrite D0, D1 in E3. cbn [RA n_ltb] in E3. unfold r_ltb in E3. unfold fit_used.
    destruct (Rlt_dec (fit_d0 (vals p)) (fit_d1 (vals p))); [|apply ok_inj in E3; split; [lra | auto]].
    apply bind_inv in E3 as [a0 [F1 E3]]. apply alos_vals in F1 as [F1 _]. apply bind_inv in E3 as [t [F2 E3]]. apply bind_inv in E3 as [q [F3 E3]].
    apply bind_inv in E3 as [t' [F4 E3]]. apply bind_inv in E3 as [l' [F5 E3]]. apply bind_inv in E3 as [f [F6 E3]].
    apply r_div_inv in F2 as [_ F2]. apply r_log_inv in F3 as [_ F3]. apply r_div_inv in F4 as [_ F4]. apply r_log_inv in F5 as [_ F5]. apply r_div_inv in F6 as [_ F6].
    subst t t'. 
    assert (AK : @pymax RA (@n_Z RA 0) f = fit_ak2 (vals p)).
    { rewrite pymax_R. unfold fit_ak2. rewrite <- F1, <- E2, <- F3, <- F5. rewrite F6. reflexivity. }
    rewrite AK in E3. cbn [RA n_leb n_ltb n_Z] in E3. change (IZR 0) with 0 in E3. unfold r_leb, r_ltb in E3.
    assert (U : forall y : res (option (num RA * num RA)), (if ((if Rle_dec 0 (vals p AED) then true else false) || (if Rlt_dec 0 (fit_ak2 (vals p)) then true else false))%bool
       then y else Ok None) = Ok fit -> ((0 <= vals p AED \/ 0 < fit_ak2 (vals p)) /\ y = Ok fit) \/ (~ (0 <= vals p AED \/ 0 < fit_ak2 (vals p)) /\ fit = None)).
    { intros y Y. destruct (Rle_dec 0 (vals p AED)); [left; split; [left; assumption | exact Y]|].
      destruct (Rlt_dec 0 (fit_ak2 (vals p))); [left; split; [right; assumption | exact Y]|]. right. apply ok_inj in Y. split; [lra | exact Y]. }
    apply U in E3. clear U. destruct E3 as [[O E3]|[O ->]]; [|split; [tauto | auto]]. split; [|tauto]. intros _.
    apply bind_inv in E3 as [z1 [G1 E3]]. apply r_div_inv in G1 as [_ G1].
    assert (Z1 : z1 = fit_ak1 (vals p)) by (rewrite G1; unfold fit_ak1; rewrite <- F1, <- F3; reflexivity).
    subst z1. rewrite Z1 in E3. destruct (Rlt_dec (fit_ak1 (vals p)) 0).
    - apply bind_inv in E3 as [z2 [G2 E3]]. apply r_div_inv in G2 as [_ G2]. rewrite pymax_R, Rmax_comm in G2.
      assert (Z2 : z2 = Rmax 0 (fit_a2 (vals p) - los_at (vals p) (fit_d0 (vals p))) / ln (vals p DLSA / fit_d0 (vals p))) by (rewrite G2, <- F1, <- F3; reflexivity).
      cbn [RA n_eqb] in E3. unfold r_eqb in E3. destruct (Req_EM_T z2 0); apply ok_inj in E3; subst fit; apply ok_pair in E4 as [-> ->].
      + split; [reflexivity|]. split; [lra|]. intros _. split; [exact Z2|]. destruct (Req_EM_T z2 0); [reflexivity | contradiction].
      + split; [reflexivity|]. split; [lra|]. intros _. split; [exact Z2|]. destruct (Req_EM_T z2 0); [contradiction | reflexivity].
    - apply ok_inj in E3. subst fit. apply ok_pair in E4 as [-> ->]. split; [reflexivity|]. split; [auto | lra]. }
  destruct FIT as [FA FB]. rewrite <- (vals_some _ _ _ K1), <- (vals_some _ _ _ K2) in *.
  split; [intros U L; apply (proj1 (proj2 (FA U)) L)|]. split; [intros U L; apply (proj2 (proj2 (FA U)) L)|]. split.
  - intros U. rewrite (FB U) in E4. apply bind_inv in E4 as [k [G1 E4]]. apply r_div_inv in G1 as [_ G1]. rewrite pymax_R, Rmax_comm in G1.
    cbv zeta. assert (Z : k = Rmax 0 (fit_a2 (vals p) - los_at (vals p) (fit_d1 (vals p))) / (vals p DLSA - fit_d1 (vals p))) by (rewrite G1, <- D1, E2, <- D1; reflexivity).
    rewrite <- Z. cbn [RA n_eqb] in E4. unfold r_eqb in E4. cbn [RA n_Z] in E4. destruct (Req_EM_T k 0); apply ok_pair in E4 as [-> ->]; auto.
  - rewrite (vals_some _ _ _ KA), X3, E5. reflexivity.
Qed.
Lemma los_reference (d : R) ds (p p' : prop RA) m : pz p MDP = Some m -> m <> 0%Z -> lr_calls RA (d :: ds) p = Ok p' -> pb p' WLOS = Some true ->
  exists v, values p' los_keys v /\ los_params v.
Proof.
  intros M N H W. destruct (lr_calls_los_of d ds p p' m M N H W) as (k1 & k2 & ael & E & E1 & E2 & E3).
  exists (vals p'). destruct (coeffs_value p' k1 k2 ael E E1 E2 E3). auto.
Qed.
