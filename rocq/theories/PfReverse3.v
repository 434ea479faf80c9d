(** Reciprocity of the point-to-point mode over the reals. *)
From Coq Require Import Lra Lia.
From Verif Require Import RTac Frame SpecReverse Stats Prep PfFrame PfRegime PfLrGen PfAvarReal PfSwap PfHzns PfLsq PfDlthx PfPfl PfReverse PfReverse2.
Open Scope R_scope.

Lemma sights_other f hg0 hg1 gme : well_formed f -> sights0 (reverse_profile f) hg1 hg0 gme = sights1 f hg0 hg1 gme /\ sights1 (reverse_profile f) hg1 hg0 gme = sights0 f hg0 hg1 gme.
Proof.
  intro W. unfold sights0, sights1. rewrite intervals_rev, !ground_rev by (assumption || lia). rewrite Nat.sub_diag, Nat.sub_0_r. split; [reflexivity|].
  unfold reverse_profile. cbn [pf_np pf_xi pf_z]. rewrite rev_involutive. destruct f. reflexivity.
Qed.
Lemma hzns_reverse_all (f : profile RA) (hg0 hg1 gme t0 t1 d0 d1 : R) : well_formed f -> single_horizons f hg0 hg1 gme ->
  hzns RA f (path_length f) hg0 hg1 gme = Ok (t0, t1, d0, d1) -> hzns RA (reverse_profile f) (path_length f) hg1 hg0 gme = Ok (t1, t0, d1, d0).
Proof.
  intros W [O0 O1] H. destruct (hzns_reverse f hg0 hg1 gme t0 t1 d0 d1 W H) as (e0 & e1 & E). rewrite E.
  destruct (hzns_spec f hg0 hg1 gme W) as (u0 & u1 & x0 & x1 & F & A0 & A1 & B0 & B1 & _). rewrite F in H.
  assert (u0 = t0 /\ u1 = t1 /\ x0 = d0 /\ x1 = d1) as (-> & -> & -> & ->) by (repeat split; congruence).
  destruct (hzns_spec (reverse_profile f) hg1 hg0 gme (wf_rev f W)) as (v0 & v1 & y0 & y1 & G & C0 & C1 & D0 & D1 & _). rewrite length_rev, E in G.
  assert (v0 = t1 /\ v1 = t0 /\ y0 = e0 /\ y1 = e1) as (-> & -> & -> & ->) by (repeat split; congruence).
  destruct (sights_other f hg0 hg1 gme W) as [R0 R1]. rewrite R0 in C0, D0. rewrite R1 in C1, D1.
  assert (e0 = d1) by (apply (O1 t1); [split; eauto | assumption..]). assert (e1 = d0) by (apply (O0 t0); [split; eauto | assumption..]). subst. reflexivity.
Qed.
Lemma los_reverse (f : profile RA) (D hg0 hg1 gme dh x0 x1 : R) h l t : well_formed f -> level_ends f -> D = path_length f -> proper f x0 x1 ->
  qlrpfl_los RA f D hg0 hg1 gme dh x0 x1 = Ok (h, l, t) ->
  qlrpfl_los RA (reverse_profile f) D hg1 hg0 gme dh (D - x1)%R (D - x0)%R = Ok ((snd h, fst h), (snd l, fst l), (snd t, fst t)).
Proof.
  intros W [L0 L1] -> P H. destruct (wf_len f W) as (L & N & N1). destruct (wf_len _ (wf_rev f W)) as (L' & _). rewrite intervals_rev in L'.
  unfold qlrpfl_los in *. apply bind_inv in H as ([za zb] & E & H). apply (zlsq1_reverse f x0 x1 za zb W P) in E.
  change (pf_np (reverse_profile f)) with (pf_np f). cbv zeta. refine (bind_step _ _ _ _ E _). cbv beta iota.
  rewrite (pfl_height f 0 ltac:(lia) : pflget f 2 = _) in H. rewrite (pfl_height (reverse_profile f) 0 ltac:(lia) : pflget (reverse_profile f) 2 = _). cbn [bind] in *.
  rewrite <- N in *. replace (Z.of_nat (intervals f) + 1)%Z with (Z.of_nat (intervals f - 1) + 2)%Z in * by lia. rewrite pfl_height in H by lia. rewrite pfl_height by lia.
  rewrite !ground_rev by (assumption || lia). rewrite Nat.sub_0_r. replace (intervals f - (intervals f - 1))%nat with 1%nat by lia. rewrite L0. rewrite L1 in H. cbn [bind] in *.
  apply bind_inv in H as (dl0 & E1 & H). apply bind_inv in H as (dl1 & E2 & H). repeat stepo. rewrite (add_comm dl1 dl0).
  apply bind_inv in H as ([[[he0 he1] l0] l1] & E3 & H).
  match goal with |- bind ?m _ = _ => assert (F : m = Ok (he1, he0, l1, l0)) end.
  { destruct (n_leb _ _).
    - do 2 invb E3. apply bind_inv in E3 as (m0 & E5 & E3). apply bind_inv in E3 as (m1 & E6 & E3). apply ok_inj in E3. injection E3 as -> -> -> ->. repeat stepo. reflexivity.
    - apply ok_inj in E3. injection E3 as -> -> -> ->. reflexivity. }
  refine (bind_step _ _ _ _ F _). cbv beta iota.
  apply bind_inv in H as (u0 & E5 & H). apply bind_inv in H as (q0 & E6 & H). apply bind_inv in H as (th0 & E7 & H).
  apply bind_inv in H as (u1 & E8 & H). apply bind_inv in H as (q1 & E9 & H). apply bind_inv in H as (th1 & E10 & H). apply ok_inj in H. injection H as -> -> ->.
  repeat stepo. reflexivity.
Qed.
Lemma obs_reverse (f : profile RA) (D hg0 hg1 d0 d1 x0 x1 : R) h : well_formed f -> D = path_length f -> proper f x0 (9 / 10 * d0) -> proper f (D - 9 / 10 * d1) x1 ->
  qlrpfl_obs RA f D hg0 hg1 d0 d1 x0 x1 = Ok h -> qlrpfl_obs RA (reverse_profile f) D hg1 hg0 d1 d0 (D - x1)%R (D - x0)%R = Ok (snd h, fst h).
Proof.
  intros W -> P0 P1 H. destruct (wf_len f W) as (L & N & N1). destruct (wf_len _ (wf_rev f W)) as (L' & _). rewrite intervals_rev in L'.
  unfold qlrpfl_obs in *. apply bind_inv in H as ([za za'] & E0 & H). apply bind_inv in H as ([zb' zb] & E1 & H).
  apply (zlsq1_reverse f _ _ za za' W P0) in E0. apply (zlsq1_reverse f _ _ zb' zb W P1) in E1.
  replace (path_length f - (path_length f - 9 / 10 * d1)) with (9 / 10 * d1) in E1 by ring.
  change (pf_np (reverse_profile f)) with (pf_np f). cbv zeta. refine (bind_step _ _ _ _ E1 _). cbv beta iota. refine (bind_step _ _ _ _ E0 _). cbv beta iota.
  rewrite (pfl_height f 0 ltac:(lia) : pflget f 2 = _) in H. rewrite (pfl_height (reverse_profile f) 0 ltac:(lia) : pflget (reverse_profile f) 2 = _). cbn [bind] in *.
  rewrite <- N in *. rewrite pfl_height in H by lia. rewrite pfl_height by lia. rewrite !ground_rev by (assumption || lia). rewrite Nat.sub_0_r, Nat.sub_diag. cbn [bind] in *.
  apply ok_inj in H. subst h. reflexivity.
Qed.
Lemma sw_geometry (p q p' : prop RA) f v : path_entries p f v -> other_way p q -> single_horizons f (v HG0) (v HG1) (v GME) ->
  (obstructed f (v HG0) (v HG1) (v GME) \/ level_ends f) -> qlrpfl_geom RA p = Ok p' ->
  exists q', qlrpfl_geom RA q = Ok q' /\ exchanged p' q'.
Proof.
  intros (Pf & W & V & H0 & H1 & G) (S & f' & Pf' & Qf) SH C H. assert (f' = f) by congruence. subst f'. pose proof (len_pos f W) as DP.
  destruct (hzns_spec f (v HG0) (v HG1) (v GME) W) as (t0 & t1 & d0 & d1 & Eh & I0 & I1 & B0 & B1 & _).
  assert (D0 : 0 < d0 <= path_length f) by (eapply sights_dist; [exact W | exact I0]).
  assert (D1 : 0 < d1 <= path_length f) by (change (path_length f) with (path_length (reverse_profile f)); eapply sights_dist; [apply wf_rev; exact W | exact I1]).
  assert (X0 : 0 < setback (v HG0) d0 <= d0 / 10) by (split; [apply Rmin_glb_lt; lra | apply Rmin_r]). assert (X1 : 0 < setback (v HG1) d1 <= d1 / 10) by (split; [apply Rmin_glb_lt; lra | apply Rmin_r]).
  pose proof (hzns_reverse_all f _ _ _ _ _ _ _ W SH Eh) as Fh.
  pose proof (dlthx_reverse f (setback (v HG0) d0) (path_length f - setback (v HG1) d1) W ltac:(lra) ltac:(lra)) as Fd.
  replace (path_length f - (path_length f - setback (v HG1) d1)) with (setback (v HG1) d1) in Fd by ring.
  unfold qlrpfl_geom in *. unfold getpfl in *. rewrite Pf in H. rewrite Qf. cbn [opt_res bind] in *. cbn [n_mul n_Z RA] in *. change (num RA) with R in *.
  change (pf_np (reverse_profile f)) with (pf_np f). change (pf_xi (reverse_profile f)) with (pf_xi f). rewrite path_length_Z in * by exact W. cbv zeta in *.
  dsimp_in H. dsimp. exr S. unfold getn in *. rewrite (V HG0), (V HG1), (V GME) in * by (cbn; tauto). cbn [opt_res bind] in *. cbn [num RA] in Eh, Fh, H |- *.
  rewrite Eh in H. rewrite Fh. cbn [bind] in *. rewrite !pymin_R in *. cbn [n_mul n_lit n_sub n_add n_leb RA] in *.
  replace (1 / 10 * d0) with (d0 / 10) in * by lra. replace (1 / 10 * d1) with (d1 / 10) in * by lra. fold (setback (v HG0) d0) (setback (v HG1) d1) in *.
  cbn [num RA] in Fd, H |- *. rewrite Fd. apply bind_inv in H as (dh & Ed & H). rewrite Ed. cbn [bind]. rewrite (Rplus_comm d1 d0).
  apply bind_inv in H as ([[[he0 he1] [l0 l1]] [th0 th1]] & E & H).
  match goal with |- exists _, bind ?m _ = _ /\ _ => assert (F : m = Ok ((he1, he0), (l1, l0), (th1, th0))) end.
  { clear H. destruct (r_leb (15 / 10 * path_length f) (d0 + d1)) eqn:B; rbool.
    - assert (LE : level_ends f). { destruct C as [C|C]; [|exact C]. exfalso. specialize (C t0 t1 d0 d1). assert (d0 + d1 < 3 / 2 * path_length f) by (apply C; [split; eauto | split; eauto | assumption..]). lra. }
      apply (los_reverse f _ _ _ _ _ _ _ _ _ _ W LE eq_refl) in E; [|unfold proper; lra]. cbn [fst snd] in E.
      replace (path_length f - (path_length f - setback (v HG1) d1)) with (setback (v HG1) d1) in E by ring. exact E.
    - apply bind_inv in E as (h & Eo & E). apply ok_inj in E. injection E as <- -> -> -> ->.
      apply (obs_reverse f _ _ _ _ _ _ _ _ W eq_refl) in Eo; [|unfold proper; lra..]. cbn [fst snd] in Eo.
      replace (path_length f - (path_length f - setback (v HG1) d1)) with (setback (v HG1) d1) in Eo by ring. cbn [num RA] in Eo |- *. rewrite Eo. reflexivity. }
  refine (bind_step_ex _ _ _ _ F _). cbv beta iota zeta. apply ok_inj in H. subst p'. eexists. split; [reflexivity|].
  do 3 (apply ex_pair; [|reflexivity | discriminate]). exs S; reflexivity.
Qed.
Lemma sw_control m (p q p' : prop RA) : exchanged p q -> prep_control RA m p = Ok p' -> exists q', prep_control RA m q = Ok q' /\ exchanged p' q'.
Proof.
  intros S H. unfold prep_control in *. dsimp_in H. dsimp. exr S. invb H. stepo. dsimp_in H. dsimp. exr S. invb H. stepo.
  apply bind_inv in H as (p1 & E1 & H).
  match goal with |- exists _, bind ?m _ = _ /\ _ => assert (X : exists q1, m = Ok q1 /\ exchanged p1 q1) end.
  { destruct (0 <=? x0)%Z.
    - dsimp_in E1. cbn [bind] in E1. apply ok_inj in E1. subst p1. dsimp. cbn [bind]. eexists. split; [reflexivity|]. exs S.
    - apply ok_inj in E1. subst p1. eexists. split; [reflexivity|]. exs S. }
  destruct X as (q1 & X & S1). refine (bind_step_ex _ _ _ _ X _). cbv beta. exr S1. invb H. stepo. destruct (0 <? x1)%Z; apply ok_inj in H; subst p'; eexists; (split; [reflexivity|]); exs S1.
Qed.
Lemma sw_qlrpfl (p q p' : prop RA) f v : path_entries p f v -> other_way p q -> single_horizons f (v HG0) (v HG1) (v GME) ->
  (obstructed f (v HG0) (v HG1) (v GME) \/ level_ends f) -> qlrpfl RA p = Ok p' ->
  exists q', qlrpfl RA q = Ok q' /\ other_way p' q'.
Proof.
  intros P O SH C H. pose proof H as H'. unfold qlrpfl in *. apply bind_inv in H as (p1 & E1 & H). destruct (sw_geometry _ _ _ _ _ P O SH C E1) as (q1 & F1 & S1). refine (bind_step_ex _ _ _ _ F1 _). cbv beta.
  apply bind_inv in H as (p2 & E2 & H). destruct (sw_control _ _ _ _ S1 E2) as (q2 & F2 & S2). refine (bind_step_ex _ _ _ _ F2 _). cbv beta.
  assert (HN : heights_nonzero p2).
  { destruct (pfl_heights p p' f v P H') as (he0 & he1 & K0 & K1 & L0 & L1). destruct P as (_ & _ & _ & P0 & P1 & _).
    pose proof (lrprop_frame RA (n_Z 0) p2 p' H) as (Fr & _). rewrite Fr in K0 by (apply memn_nIn; reflexivity). rewrite Fr in K1 by (apply memn_nIn; reflexivity).
    unfold heights_nonzero. rewrite K0, K1. split; intro X; injection X as X; lra. }
  destruct (sw_lrprop _ _ _ _ S2 HN H) as (q' & F3 & S3). exists q'. split; [exact F3|]. split; [exact S3|]. exists f.
  destruct P as (Pf & _). destruct O as (_ & f' & Pf' & Qf). assert (f' = f) by congruence. subst f'.
  pose proof (qlrpfl_geom_frame RA p p1 E1) as (_ & _ & _ & G1). pose proof (qlrpfl_geom_frame RA q q1 F1) as (_ & _ & _ & G2).
  pose proof (prep_control_frame RA _ p1 p2 E2) as (_ & _ & _ & G3). pose proof (prep_control_frame RA _ q1 q2 F2) as (_ & _ & _ & G4).
  pose proof (lrprop_frame RA _ p2 p' H) as (_ & _ & _ & G5). pose proof (lrprop_frame RA _ q2 q' F3) as (_ & _ & _ & G6). split; congruence.
Qed.
