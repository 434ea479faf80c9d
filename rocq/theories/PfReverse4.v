(** Reciprocity of area mode and of the scripts over the reals. *)
From Coq Require Import Lra Lia.
From Interval Require Import Tactic.
From Verif Require Import RTac Frame SpecReverse Stats Prep Scripts PfFrame PfRegime PfLrGen PfAvarReal PfSwap PfTerminal PfReverse PfReverse2 PfReverse3.
Open Scope R_scope.

(** ** Area mode *)
Lemma sw_qlra k0 k1 (p q p' : prop RA) : exchanged p q -> qlra RA k0 k1 p = Ok p' -> exists q', qlra RA k1 k0 q = Ok q' /\ exchanged p' q'.
Proof.
  intros S H. unfold qlra in *. exr S. apply bind_inv in H as (hg0 & E1 & H). invb H. invb H. apply bind_inv in H as (he0 & E2 & H). apply bind_inv in H as ([l0 t0] & E3 & H).
  apply bind_inv in H as (hg1 & E4 & H). apply bind_inv in H as (he1 & E5 & H). apply bind_inv in H as ([l1 t1] & E6 & H). repeat stepo.
  refine (sw_control _ _ _ _ _ H). do 3 (apply ex_pair; [|reflexivity | discriminate]). exact S.
Qed.
Definition he_values (p : prop RA) (h0 h1 : R) : Prop := pn p HE0 = Some h0 /\ pn p HE1 = Some h1.
Lemma qlra_he_values k0 k1 (p p' : prop RA) (h0 h1 : R) : pn p HG0 = Some h0 -> pn p HG1 = Some h1 -> 0 < h0 -> 0 < h1 -> qlra RA k0 k1 p = Ok p' -> heights_nonzero p'.
Proof.
  intros E0 E1 P0 P1 H. unfold qlra in H. unfold getn in H. rewrite E0, E1 in H. cbn [opt_res bind] in H. invb H. invb H. rewrite !qlra_he_R in H. cbn [bind] in H.
  apply bind_inv in H as ([l0 t0] & E3 & H). cbn [bind] in H. apply bind_inv in H as ([l1 t1] & E6 & H). apply (prep_control_frame RA) in H as (F & _).
  unfold heights_nonzero. rewrite !F by (intros []). cbn [pn setn nkey_eqb].
  pose proof (eff_ge k0 h0 x P0). pose proof (eff_ge k1 h1 x P1). split; intro X; injection X as X; lra.
Qed.
Lemma hn_avar zt zl zc (p p' : prop RA) a : heights_nonzero p -> avar RA zt zl zc p = Ok (a, p') -> heights_nonzero p'.
Proof.
  intros N H. apply (avar_frame RA) in H as (F & _). cbn [snd] in F. unfold heights_nonzero in *. rewrite !F by (apply memn_nIn; reflexivity). exact N.
Qed.
Lemma hn_lrprop d (p p' : prop RA) : heights_nonzero p -> lrprop RA d p = Ok p' -> heights_nonzero p'.
Proof.
  intros N H. apply (lrprop_frame RA) in H as (F & _). unfold heights_nonzero in *. rewrite !F by (apply memn_nIn; reflexivity). exact N.
Qed.
Lemma sw_area_rows (D FS ZT ZL : num RA) qz (p q p' : prop RA) rows : exchanged p q -> heights_nonzero p -> area_rows RA D FS ZT ZL qz p = Ok (rows, p') ->
  exists q', area_rows RA D FS ZT ZL qz q = Ok (rows, q') /\ exchanged p' q' /\ heights_nonzero p'.
Proof.
  revert p q p' rows. induction qz as [|[qc zc] l IH]; intros p q p' rows S N H; cbn [area_rows] in *.
  - apply ok_inj in H. injection H as -> ->. eauto.
  - apply bind_inv in H as ([a p1] & E & H). apply bind_inv in H as ([rs p2] & E2 & H). apply ok_inj in H. injection H as -> ->.
    destruct (sw_avar _ _ _ _ _ _ _ S E) as (q1 & F & S1). rewrite F. cbn [bind]. destruct (IH _ _ _ _ S1 (hn_avar _ _ _ _ _ _ N E) E2) as (q2 & F2 & S2 & N2).
    rewrite F2. cbn [bind]. eauto.
Qed.
Lemma sw_area_loop n JD NDC (D DT DS2 ZT ZL : num RA) qz (p q : prop RA) rows : exchanged p q -> heights_nonzero p ->
  area_loop RA n JD NDC D DT DS2 ZT ZL qz p = Ok rows -> area_loop RA n JD NDC D DT DS2 ZT ZL qz q = Ok rows.
Proof.
  revert JD D DT p q rows. induction n as [|n IH]; intros JD D DT p q rows S N H; cbn [area_loop] in *; [exact H|]. exr S.
  apply bind_inv in H as (lv & E & H). stepo. cbv zeta in H. apply bind_inv in H as (p1 & E1 & H).
  assert (S0 : exchanged (setz p LVAR (Z.max 1 lv)) (setz q LVAR (Z.max 1 lv))) by (exs S).
  destruct (sw_lrprop _ _ _ _ S0 N E1) as (q1 & F1 & S1). pose proof (hn_lrprop _ (setz p LVAR (Z.max 1 lv)) _ N E1) as N1. refine (bind_step _ _ _ _ F1 _). cbv beta. exr S1.
  do 3 invb H. repeat stepo. apply bind_inv in H as ([rs p2] & E5 & H). destruct (sw_area_rows _ _ _ _ _ _ _ _ _ S1 N1 E5) as (q2 & F5 & S2 & N2).
  refine (bind_step _ _ _ _ F5 _). cbv beta iota zeta. apply bind_inv in H as (rest & E6 & H). apply (IH _ _ _ _ _ _ S2 N2) in E6. stepo. exact H.
Qed.
Lemma sw_gme e0 g (p q p' : prop RA) : exchanged p q -> script_gme RA e0 g p = Ok p' -> exists q', script_gme RA e0 g q = Ok q' /\ exchanged p' q'.
Proof. intros S H. unfold script_gme in *. do 2 invb H. repeat stepo. apply ok_inj in H. subst p'. eexists. split; [reflexivity|]. exs S; reflexivity. Qed.
Lemma sw_area_env (p q p' : prop RA) : exchanged p q -> area_env RA p = Ok p' -> exists q', area_env RA q = Ok q' /\ exchanged p' q'.
Proof.
  intros S H. unfold area_env in *. dsimp_in H. dsimp. exr S. do 2 invb H. repeat stepo. apply bind_inv in H as (p1 & E1 & H).
  match type of E1 with script_gme RA ?e ?g ?a = _ => match goal with |- context [script_gme RA e g ?b] =>
    assert (S0 : exchanged a b) by (exs S; reflexivity) end end.
  destruct (sw_gme _ _ _ _ _ S0 E1) as (q1 & F1 & S1). refine (bind_step_ex _ _ _ _ F1 _). cbv beta. do 2 invb H. repeat stepo. dsimp_in H. dsimp. exr S1.
  invb H. stepo. apply bind_inv in H as ([zr zi] & E5 & H). stepo. apply ok_inj in H. subst p'. eexists. split; [reflexivity|]. exs S1; reflexivity.
Qed.
Definition turned (c : area_cfg RA) : area_cfg RA :=
  AreaCfg RA (cfg_QT RA c) (cfg_QL RA c) (cfg_QC RA c) (cfg_D0 RA c) (cfg_D1 RA c) (cfg_DS1 RA c) (cfg_D2 RA c) (cfg_DS2 RA c) (cfg_KST1 RA c) (cfg_KST0 RA c).
Lemma area_env_frame (p p' : prop RA) : area_env RA p = Ok p' -> pn p' HG0 = pn p HG0 /\ pn p' HG1 = pn p HG1.
Proof.
  intro H. unfold area_env in H. dsimp_in H. do 2 invb H. apply bind_inv in H as (p1 & E1 & H). unfold script_gme in E1. do 2 invb E1. apply ok_inj in E1. subst p1.
  do 2 invb H. dsimp_in H. repeat invb H. apply ok_inj in H. subst p'. split; reflexivity.
Qed.
Lemma sw_area_cfg c (p q : prop RA) (h0 h1 : R) rows : exchanged p q -> pn p HG0 = Some h0 -> pn p HG1 = Some h1 -> 0 < h0 -> 0 < h1 ->
  itmlogic_area_cfg RA c p = Ok rows -> itmlogic_area_cfg RA (turned c) q = Ok rows.
Proof.
  intros S E0 E1 P0 P1 H. unfold itmlogic_area_cfg in *. cbv zeta in *. cbn [cfg_QT cfg_QL cfg_QC cfg_KST0 cfg_KST1 cfg_DS2 turned].
  do 6 invb H. change (area_grid RA (turned c)) with (area_grid RA c). repeat stepo. apply bind_inv in H as ([[[D0 DS] ND] NDC] & E8 & H). stepo.
  apply bind_inv in H as (p1 & E9 & H). destruct (sw_area_env _ _ _ S E9) as (q1 & F1 & S1). refine (bind_step _ _ _ _ F1 _). cbv beta.
  apply bind_inv in H as (p2 & E10 & H). destruct (sw_qlra _ _ _ _ _ S1 E10) as (q2 & F2 & S2). refine (bind_step _ _ _ _ F2 _). cbv beta.
  destruct (area_env_frame _ _ E9) as [G0 G1]. assert (N : heights_nonzero p2) by (eapply (qlra_he_values _ _ p1 p2 h0 h1); try eassumption; congruence).
  invb H. stepo. eapply sw_area_loop; eassumption.
Qed.
Lemma sw_area (p q : prop RA) (h0 h1 : R) rows : exchanged p q -> pn p HG0 = Some h0 -> pn p HG1 = Some h1 -> 0 < h0 -> 0 < h1 ->
  itmlogic_area RA p = Ok rows -> itmlogic_area RA q = Ok rows.
Proof. intros S E0 E1 P0 P1 H. exact (sw_area_cfg (area_default RA) p q h0 h1 rows S E0 E1 P0 P1 H). Qed.

(** ** Point-to-point script *)
Lemma sw_p2p_rows (d fs qr zr : num RA) qz (p q p' : prop RA) rows : exchanged p q -> p2p_rows RA d fs qr zr qz p = Ok (rows, p') ->
  exists q', p2p_rows RA d fs qr zr qz q = Ok (rows, q') /\ exchanged p' q'.
Proof.
  revert p q p' rows. induction qz as [|[qc zc] l IH]; intros p q p' rows S H; cbn [p2p_rows] in *.
  - apply ok_inj in H. injection H as -> ->. eauto.
  - apply bind_inv in H as ([a p1] & E & H). apply bind_inv in H as ([rs p2] & E2 & H). apply ok_inj in H. injection H as -> ->.
    destruct (sw_avar _ _ _ _ _ _ _ S E) as (q1 & F & S1). rewrite F. cbn [bind]. destruct (IH _ _ _ _ S1 E2) as (q2 & F2 & S2).
    rewrite F2. cbn [bind]. eauto.
Qed.
Lemma sw_p2p_table (d fs : num RA) qrz qcz (p q : prop RA) rows : exchanged p q -> p2p_table RA d fs qrz qcz p = Ok rows -> p2p_table RA d fs qrz qcz q = Ok rows.
Proof.
  revert p q rows. induction qrz as [|[qr zr] l IH]; intros p q rows S H; cbn [p2p_table] in *; [exact H|].
  apply bind_inv in H as ([rs p1] & E & H). destruct (sw_p2p_rows _ _ _ _ _ _ _ _ _ S E) as (q1 & F & S1). refine (bind_step _ _ _ _ F _). cbv beta iota zeta.
  apply bind_inv in H as (rest & E2 & H). apply (IH _ _ _ S1) in E2. stepo. exact H.
Qed.
Lemma curvature_pos : 0 < script_curvature.
Proof. unfold script_curvature. replace 0.04665 with (4665 / 100000) by lra. replace (314 / 179.3) with (3140 / 1793) by lra. interval with (i_prec 53). Qed.
Lemma ex_setpfl (p q : prop RA) f g : exchanged p q -> exchanged (setpfl p f) (setpfl q g).
Proof. intro S. exact S. Qed.
Lemma sw_prepare (z : list R) (p q p' : prop RA) (d h0 h1 : R) : exchanged p q -> (2 <= length z)%nat -> pn p DKM = Some d -> 0 < d -> pn p HG0 = Some h0 -> pn p HG1 = Some h1 -> 0 < h0 -> 0 < h1 ->
  let f := script_path d z in single_horizons f h0 h1 script_curvature -> (obstructed f h0 h1 script_curvature \/ level_ends f) ->
  p2p_prepare RA z p = Ok p' -> exists q', p2p_prepare RA (rev z) q = Ok q' /\ other_way p' q'.
Proof.
  intros S L Ed Pd E0 E1 P0 P1 f SH C H. unfold p2p_prepare in *. cbv zeta in H |- *. dsimp_in H. dsimp. exr S.
  apply bind_inv in H as (d' & Ed' & H). assert (d' = d) by (apply pn_getn in Ed'; congruence). subst d'. stepo.
  apply bind_inv in H as (f' & Ef & H).
  assert (f' = f /\ p2p_profile RA d (rev z) = Ok (reverse_profile f)) as [-> Ef'].
  { clear H. unfold p2p_profile in *. cbv zeta in *. change (num RA) with R in *. rewrite rev_length. destruct (Z.eqb_spec (Z.of_nat (length z) - 1) 0); [lia|].
    runfold. cbn [num RA] in *. destruct (r_leb d 0) eqn:B; rbool; [lra|]. apply bind_inv in Ef as (xi & Ex & Ef). rewrite Ex. cbn [bind]. apply ok_inj in Ef. subst f'.
    rewrite r_div_ok in Ex by (apply not_0_IZR; lia). apply ok_inj in Ex. subst xi. split; reflexivity. }
  stepo. dsimp_in H. dsimp. exr S. do 2 invb H. repeat stepo.
  apply bind_inv in H as (p1 & E4 & H).
  match type of E4 with script_gme RA ?e ?g ?a = _ => match goal with |- context [script_gme RA e g ?b] =>
    assert (S0 : exchanged a b) by (apply ex_setn; [|reflexivity]; apply ex_setkwx, ex_setpfl; exs S; reflexivity) end end.
  destruct (sw_gme _ _ _ _ _ S0 E4) as (q1 & F1 & S1). refine (bind_step_ex _ _ _ _ F1 _). cbv beta. exr S1.
  apply bind_inv in H as (ip & E5 & H). stepo. apply bind_inv in H as ([zr zi] & E6 & H). stepo. cbv zeta in H.
  match type of H with qlrpfl RA ?a = _ => match goal with |- context [qlrpfl RA ?b] => set (pa := a) in *; set (pb := b) in * end end.
  assert (S2 : exchanged pa pb) by (unfold pa, pb; exs S1; reflexivity).
  set (v := fun k => match k with HG0 => h0 | HG1 => h1 | _ => script_curvature end).
  assert (Fp : ppfl pa = Some f /\ pn pa HG0 = Some h0 /\ pn pa HG1 = Some h1 /\ pn pa GME = Some script_curvature).
  { unfold script_gme in E4. cbv zeta in E4. runfold. rewrite r_div_ok in E4 by lra. cbn [bind] in E4. apply ok_inj in E4. unfold pa. rewrite E4.
    split; [reflexivity|]. split; [exact E0|]. split; [exact E1|]. transitivity (Some (157 / 1000000000 * (1 - 4665 / 100000 * exp (314 / (1793 / 10))))); [reflexivity|]. unfold script_curvature. f_equal.
    replace (314 / (1793 / 10)) with (314 / 179.3) by lra. lra. }
  assert (Fq : ppfl pb = Some (reverse_profile f)).
  { unfold script_gme in F1. cbv zeta in F1. runfold. rewrite r_div_ok in F1 by lra. cbn [bind] in F1. apply ok_inj in F1. unfold pb. rewrite F1. reflexivity. }
  destruct Fp as (G1 & G2 & G3 & G4).
  assert (W : well_formed f).
  { unfold well_formed, f, script_path. cbn [pf_np pf_xi pf_z]. change (num RA) with R. split; [lia|]. split; [|lia]. apply Rdiv_lt_0_compat; [lra | apply IZR_lt; lia]. }
  refine (sw_qlrpfl pa pb p' f v _ _ SH C H).
  - split; [exact G1|]. split; [exact W|]. split; [|cbn; split; [exact P0|split; [exact P1 | exact curvature_pos]]].
    intros k [<-|[<-|[<-|[]]]]; assumption.
  - split; [exact S2|]. exists f. split; assumption.
Qed.
Lemma sw_classify (xi : num RA) (p q : prop RA) r : exchanged p q -> p2p_classify RA xi p = Ok r -> p2p_classify RA xi q = Ok r.
Proof. intros S H. unfold p2p_classify in *. exr S. exact H. Qed.
Lemma sw_p2p (z : list R) (p q : prop RA) (d h0 h1 : R) out : exchanged p q -> (2 <= length z)%nat -> pn p DKM = Some d -> 0 < d -> pn p HG0 = Some h0 -> pn p HG1 = Some h1 -> 0 < h0 -> 0 < h1 ->
  let f := script_path d z in single_horizons f h0 h1 script_curvature -> (obstructed f h0 h1 script_curvature \/ level_ends f) ->
  itmlogic_p2p RA z p = Ok out -> itmlogic_p2p RA (rev z) q = Ok out.
Proof.
  intros S L Ed Pd E0 E1 P0 P1 f SH C H. unfold itmlogic_p2p in *. cbv zeta in H |- *. do 4 invb H. repeat stepo.
  apply bind_inv in H as (p1 & E7 & H). destruct (sw_prepare z p q p1 d h0 h1 S L Ed Pd E0 E1 P0 P1 SH C E7) as (q1 & F1 & S1 & f1 & G1 & G2). refine (bind_step _ _ _ _ F1 _). cbv beta. exr S1.
  do 3 invb H. repeat stepo. unfold getpfl in *. rewrite G1 in H. rewrite G2. cbn [opt_res bind] in *. change (pf_xi (reverse_profile f1)) with (pf_xi f1).
  apply bind_inv in H as ([kd md] & E9 & H). apply (sw_classify _ _ _ _ S1) in E9. stepo. invb H. stepo. apply bind_inv in H as (rows & E11 & H). apply (sw_p2p_table _ _ _ _ _ _ _ S1) in E11. stepo. exact H.
Qed.
