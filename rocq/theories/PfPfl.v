(** qlrpfl's geometry over the reals. *)
From Verif Require Import RTac Frame SpecProfile Prep PfSort PfMisc PfRegime PfHzns PfLsq PfDlthx PfTerminal PfFrame.
Open Scope R_scope.

Lemma dl_smooth_R (he gme dh : R) : 0 < he -> 0 < gme -> 0 <= dh -> dl_smooth RA he gme dh = Ok (rough_horizon he gme dh).
Proof.
  intros H G D. unfold dl_smooth. rewrite pymax_R. runfold. rewrite r_div_ok by lra. cbn [bind].
  assert (Q : 0 <= 2 * he / gme) by (left; apply Rdiv_lt_0_compat; lra). rewrite r_sqrt_ok by exact Q. cbn [bind].
  assert (M : 0 < Rmax he 5) by (pose proof (Rmax_r he 5); lra). rewrite r_div_ok by lra. cbn [bind].
  rewrite r_sqrt_ok by (apply Rmult_le_pos; [lra | left; apply Rinv_0_lt_compat; lra]). cbn [bind].
  unfold rough_horizon, smooth_horizon. replace (- 0.07) with (-7 / 100) by lra. reflexivity.
Qed.
Lemma the_smooth_R (he gme dh : R) : 0 < he -> 0 < gme -> 0 <= dh ->
  the_smooth RA he (rough_horizon he gme dh) dh (smooth_horizon he gme) = Ok (takeoff_angle he gme dh).
Proof.
  intros H G D. pose proof (smooth_pos he gme H G) as S. destruct (rough_bounds he gme dh H G D) as [[B _] _]. unfold the_smooth. runfold.
  rewrite r_div_ok by lra. cbn [bind]. rewrite r_div_ok by lra. unfold takeoff_angle. replace 0.65 with (65 / 100) by lra. reflexivity.
Qed.
Lemma rough_scale he gme dh t : 0 < he -> 0 < gme -> 0 <= dh -> 1 <= t -> t * rough_horizon he gme dh <= rough_horizon (he * t ^ 2) gme dh.
Proof.
  intros H G D T. unfold rough_horizon, smooth_horizon. assert (T2 : 1 <= t ^ 2) by nra. assert (H2 : he <= he * t ^ 2) by nra.
  replace (2 * (he * t ^ 2) / gme) with (t ^ 2 * (2 * he / gme)) by (field; lra).
  assert (Q : 0 < 2 * he / gme) by (apply Rdiv_lt_0_compat; lra). rewrite sqrt_mult by nra. rewrite sqrt_pow2 by lra.
  rewrite Rmult_assoc. apply Rmult_le_compat_l; [lra|]. apply Rmult_le_compat_l; [apply sqrt_pos|].
  assert (M : 0 < Rmax he 5) by (pose proof (Rmax_r he 5); lra). assert (M2 : Rmax he 5 <= Rmax (he * t ^ 2) 5) by (apply Rle_max_compat_r; exact H2).
  assert (S : sqrt (dh / Rmax (he * t ^ 2) 5) <= sqrt (dh / Rmax he 5)). { apply sqrt_le_1_alt. apply Rmult_le_compat_l; [exact D|]. apply Rinv_le_contravar; assumption. }
  destruct S as [S|S]; [left; apply exp_increasing; lra | right; rewrite S; reflexivity].
Qed.
Lemma path_length_Z f : well_formed f -> IZR (pf_np f) * (pf_xi f : R) = path_length f.
Proof. intro W. destruct (wf_len f W) as (_ & N & _). unfold path_length. rewrite <- N, <- INR_IZR_INZ. reflexivity. Qed.
Lemma above_ge hg e z : hg <= above_trend hg e z.
Proof. unfold above_trend. pose proof (Rmax_r (e - z) 0). lra. Qed.

Lemma los_run (f : profile RA) (hg0 hg1 gme dh x0 x1 : R) : well_formed f -> 0 < hg0 -> 0 < hg1 -> 0 < gme -> 0 <= dh -> proper f x0 x1 ->
  exists za zb s : R, zlsq1 RA f x0 x1 = Ok (za, zb) /\ 1 <= s /\
    let he0 := above_trend hg0 (ground f 0) za * s in let he1 := above_trend hg1 (ground f (intervals f - 1)) zb * s in
    let dl0 := rough_horizon he0 gme dh in let dl1 := rough_horizon he1 gme dh in
    qlrpfl_los RA f (path_length f) hg0 hg1 gme dh x0 x1 = Ok ((he0, he1), (dl0, dl1), (takeoff_angle he0 gme dh, takeoff_angle he1 gme dh)) /\
    path_length f <= dl0 + dl1 /\
    (s = 1 \/ s = (path_length f / (rough_horizon (above_trend hg0 (ground f 0) za) gme dh + rough_horizon (above_trend hg1 (ground f (intervals f - 1)) zb) gme dh)) ^ 2).
Proof.
  intros W H0 H1 G D P. destruct (wf_len f W) as (L & N & N1). pose proof (len_pos f W) as DP.
  destruct (zlsq1_spec f x0 x1 W P) as (lo & hi & a & b & _ & _ & _ & E). unfold qlrpfl_los. rewrite E. cbn [bind].
  rewrite (pfl_height f 0 ltac:(lia) : pflget f 2 = _). cbn [bind]. rewrite <- N.
  replace (Z.of_nat (intervals f) + 1)%Z with (Z.of_nat (intervals f - 1) + 2)%Z by lia. rewrite pfl_height by lia. cbn [bind]. rewrite !pymax_R.
  set (zb := a + b * INR (intervals f)). cbn [n_add n_sub n_mul n_leb n_div n_Z RA].
  fold (above_trend hg0 (ground f 0) a). fold (above_trend hg1 (ground f (intervals f - 1)) zb).
  pose proof (above_ge hg0 (ground f 0) a) as A0. pose proof (above_ge hg1 (ground f (intervals f - 1)) zb) as A1.
  set (h0 := above_trend hg0 (ground f 0) a) in *. set (h1 := above_trend hg1 (ground f (intervals f - 1)) zb) in *.
  rewrite !dl_smooth_R by lra. cbn [bind].
  assert (B0 := proj1 (proj1 (rough_bounds h0 gme dh ltac:(lra) G D))). assert (B1 := proj1 (proj1 (rough_bounds h1 gme dh ltac:(lra) G D))).
  set (q := rough_horizon h0 gme dh + rough_horizon h1 gme dh).
  assert (Tail : forall s, 1 <= s -> let he0 := h0 * s in let he1 := h1 * s in let dl0 := rough_horizon he0 gme dh in let dl1 := rough_horizon he1 gme dh in
    (let! t := r_div (2 * he0) gme in let! q := @m_sqrt RA t in let! the0 := the_smooth RA he0 dl0 dh q in
     let! t := r_div (2 * he1) gme in let! q := @m_sqrt RA t in let! the1 := the_smooth RA he1 dl1 dh q in Ok ((he0, he1), (dl0, dl1), (the0, the1))) =
    Ok ((he0, he1), (dl0, dl1), (takeoff_angle he0 gme dh, takeoff_angle he1 gme dh))).
  { intros s S. cbv zeta. assert (P0 : 0 < h0 * s) by (apply Rmult_lt_0_compat; lra). assert (P1 : 0 < h1 * s) by (apply Rmult_lt_0_compat; lra).
    rewrite !r_div_ok by lra. cbn [bind]. cbn [m_sqrt RA]. rewrite r_sqrt_ok by (left; apply Rdiv_lt_0_compat; lra). cbn [bind]. fold (smooth_horizon (h0 * s) gme). rewrite the_smooth_R by lra. cbn [bind].
    rewrite r_sqrt_ok by (left; apply Rdiv_lt_0_compat; lra). cbn [bind]. fold (smooth_horizon (h1 * s) gme). rewrite the_smooth_R by lra. reflexivity. }
  destruct (r_leb q (path_length f)) eqn:B; rbool.
  - assert (Q0 : 0 < q) by (unfold q; lra). rewrite r_div_ok by lra. cbn [bind]. set (t := path_length f / q).
    assert (T1 : 1 <= t). { unfold t. apply Rmult_le_reg_r with (1 := Q0). unfold Rdiv. rewrite Rmult_assoc, Rinv_l by lra. lra. }
    cbn [n_powZ RA]. rewrite (r_powZ_2 t). cbn [bind]. assert (T2 : 1 <= t ^ 2) by nra. exists a, zb, (t ^ 2). cbv zeta. fold h0 h1. split; [reflexivity|]. split; [exact T2|].
    assert (P0 : 0 < h0 * t ^ 2) by (apply Rmult_lt_0_compat; lra). assert (P1 : 0 < h1 * t ^ 2) by (apply Rmult_lt_0_compat; lra).
    rewrite !dl_smooth_R by lra. cbn [bind]. split; [apply (Tail (t ^ 2) T2)|]. split; [|right; reflexivity].
    pose proof (rough_scale h0 gme dh t ltac:(lra) G D T1). pose proof (rough_scale h1 gme dh t ltac:(lra) G D T1).
    assert (path_length f = t * q) by (unfold t; field; lra). unfold q in H3. lra.
  - cbn [bind]. exists a, zb, 1. cbv zeta. fold h0 h1. split; [reflexivity|]. split; [lra|]. specialize (Tail 1 ltac:(lra)). cbv zeta in Tail. rewrite !Rmult_1_r in *. split; [exact Tail|]. split; [fold q; lra | left; reflexivity].
Qed.
Lemma obs_run (f : profile RA) (hg0 hg1 d0 d1 : R) : well_formed f -> 0 < hg0 -> 0 < hg1 -> 0 < d0 <= path_length f -> 0 < d1 <= path_length f ->
  let x0 := setback hg0 d0 in let x1 := path_length f - setback hg1 d1 in
  exists za za' zb' zb : R, zlsq1 RA f x0 (9 / 10 * d0)%R = Ok (za, za') /\ zlsq1 RA f (path_length f - 9 / 10 * d1)%R x1 = Ok (zb', zb) /\
    qlrpfl_obs RA f (path_length f) hg0 hg1 d0 d1 x0 x1 = Ok (above_trend hg0 (ground f 0) za, above_trend hg1 (ground f (intervals f)) zb).
Proof.
  intros W H0 H1 D0 D1. cbv zeta. destruct (wf_len f W) as (L & N & N1).
  assert (X0 : setback hg0 d0 <= d0 / 10) by apply Rmin_r. assert (X1 : setback hg1 d1 <= d1 / 10) by apply Rmin_r.
  assert (Y0 : 0 < setback hg0 d0) by (apply Rmin_glb_lt; lra). assert (Y1 : 0 < setback hg1 d1) by (apply Rmin_glb_lt; lra).
  destruct (zlsq1_spec f (setback hg0 d0) (9 / 10 * d0) W) as (lo & hi & a & b & _ & _ & _ & E); [unfold proper; lra|].
  destruct (zlsq1_spec f (path_length f - 9 / 10 * d1) (path_length f - setback hg1 d1) W) as (lo' & hi' & a' & b' & _ & _ & _ & E'); [unfold proper; lra|].
  do 4 eexists. split; [exact E|]. split; [exact E'|]. unfold qlrpfl_obs. cbn [n_mul n_sub n_lit RA]. cbn [num RA] in E, E' |- *. rewrite E. cbn [bind]. rewrite E'. cbn [bind].
  rewrite (pfl_height f 0 ltac:(lia) : pflget f 2 = _). cbn [bind]. rewrite <- N. rewrite pfl_height by lia. cbn [bind]. rewrite !pymax_R. reflexivity.
Qed.
Definition pfl_outcome (f : profile RA) (v : nkey -> R) (q : prop RA) (t0 t1 d0 d1 dh : R) : Prop :=
  let D := path_length f in let x0 := setback (v HG0) d0 in let x1 := D - setback (v HG1) d1 in
  hzns RA f D (v HG0) (v HG1) (v GME) = Ok (t0, t1, d0, d1) /\ dlthx RA f x0 x1 = Ok dh /\ pn q DH = Some dh /\
  (d0 + d1 < 3 / 2 * D -> exists za za' zb' zb : R, zlsq1 RA f x0 (9 / 10 * d0)%R = Ok (za, za') /\ zlsq1 RA f (D - 9 / 10 * d1)%R x1 = Ok (zb', zb) /\
     pn q HE0 = Some (above_trend (v HG0) (ground f 0) za) /\ pn q HE1 = Some (above_trend (v HG1) (ground f (intervals f)) zb) /\
     pn q DL0 = Some d0 /\ pn q DL1 = Some d1 /\ pn q THE0 = Some t0 /\ pn q THE1 = Some t1) /\
  (3 / 2 * D <= d0 + d1 -> exists za zb s : R, zlsq1 RA f x0 x1 = Ok (za, zb) /\ 1 <= s /\
     let he0 := above_trend (v HG0) (ground f 0) za * s in let he1 := above_trend (v HG1) (ground f (intervals f - 1)) zb * s in
     let dl0 := rough_horizon he0 (v GME) dh in let dl1 := rough_horizon he1 (v GME) dh in
     pn q HE0 = Some he0 /\ pn q HE1 = Some he1 /\ pn q DL0 = Some dl0 /\ pn q DL1 = Some dl1 /\
     pn q THE0 = Some (takeoff_angle he0 (v GME) dh) /\ pn q THE1 = Some (takeoff_angle he1 (v GME) dh) /\ D <= dl0 + dl1 /\
     (s = 1 \/ s = (D / (rough_horizon (above_trend (v HG0) (ground f 0) za) (v GME) dh + rough_horizon (above_trend (v HG1) (ground f (intervals f - 1)) zb) (v GME) dh)) ^ 2)).
Lemma geom_run (p : prop RA) f v : path_entries p f v -> exists q t0 t1 d0 d1 dh, qlrpfl_geom RA p = Ok q /\ pfl_outcome f v q t0 t1 d0 d1 dh.
Proof.
  intros (Pf & W & V & H0 & H1 & G). pose proof (len_pos f W) as DP.
  destruct (hzns_spec f (v HG0) (v HG1) (v GME) W) as (t0 & t1 & d0 & d1 & Eh & I0 & I1 & _).
  assert (D0 : 0 < d0 <= path_length f) by (eapply sights_dist; [exact W | exact I0]).
  assert (D1 : 0 < d1 <= path_length f) by (change (path_length f) with (path_length (reverse_profile f)); eapply sights_dist; [apply wf_rev; exact W | exact I1]).
  assert (X0 : 0 < setback (v HG0) d0 <= d0 / 10) by (split; [apply Rmin_glb_lt; lra | apply Rmin_r]). assert (X1 : 0 < setback (v HG1) d1 <= d1 / 10) by (split; [apply Rmin_glb_lt; lra | apply Rmin_r]).
  destruct (dlthx_total f (setback (v HG0) d0) (path_length f - setback (v HG1) d1) W ltac:(lra) ltac:(lra)) as (dh & Ed & Dh).
  unfold qlrpfl_geom. unfold getpfl. rewrite Pf. cbn [opt_res bind]. cbn [n_mul n_Z RA]. change (num RA) with R. rewrite path_length_Z by exact W.
  dsimp. unfold getn. rewrite (V HG0), (V HG1), (V GME) by (cbn; tauto). cbn [opt_res]. cbn [bind]. cbn [num RA] in Eh |- *. rewrite Eh. cbn [bind]. rewrite !pymin_R. cbn [n_mul n_lit n_sub n_add n_leb RA].
  replace (1 / 10 * d0) with (d0 / 10) by lra. replace (1 / 10 * d1) with (d1 / 10) by lra. fold (setback (v HG0) d0) (setback (v HG1) d1). cbn [num RA] in Ed |- *. rewrite Ed. cbn [bind].
  unfold pfl_outcome. destruct (r_leb (15 / 10 * path_length f) (d0 + d1)) eqn:B; rbool.
  - destruct (los_run f (v HG0) (v HG1) (v GME) dh (setback (v HG0) d0) (path_length f - setback (v HG1) d1) W H0 H1 G Dh) as (za & zb & s & Ez & S1 & El & Cov & Sv); [unfold proper; lra|].
    cbv zeta in El, Cov. cbn [num RA] in El |- *. rewrite El. cbn [bind]. eexists _, t0, t1, d0, d1, dh. split; [reflexivity|]. cbv zeta. split; [exact Eh|]. split; [exact Ed|]. split; [reflexivity|].
    split; [intro; exfalso; lra|]. intros _. exists za, zb, s. split; [exact Ez|]. split; [exact S1|]. repeat split; try reflexivity; assumption.
  - destruct (obs_run f (v HG0) (v HG1) d0 d1 W H0 H1 D0 D1) as (za & za' & zb' & zb & Ea & Eb & Eo). cbv zeta in Eb, Eo. cbn [num RA] in Eo |- *. rewrite Eo. cbn [bind].
    eexists _, t0, t1, d0, d1, dh. split; [reflexivity|]. cbv zeta. split; [exact Eh|]. split; [exact Ed|]. split; [reflexivity|].
    split; [|intro; exfalso; lra]. intros _. exists za, za', zb', zb. repeat split; try reflexivity; assumption.
Qed.
Lemma pfl_run (p q : prop RA) f v : path_entries p f v -> qlrpfl RA p = Ok q -> exists t0 t1 d0 d1 dh, pfl_outcome f v q t0 t1 d0 d1 dh.
Proof.
  intros E H. destruct (geom_run p f v E) as (q0 & t0 & t1 & d0 & d1 & dh & G & O). exists t0, t1, d0, d1, dh.
  unfold qlrpfl in H. rewrite G in H. cbn [bind] in H. apply bind_inv in H as (q1 & C & H). 
  pose proof (prep_control_frame RA (-1) q0 q1 C) as F1. pose proof (lrprop_frame RA (n_Z 0) q1 q H) as F2.
  assert (K : forall k, In k [DH; HE0; HE1; DL0; DL1; THE0; THE1] -> pn q k = pn q0 k).
  { intros k I. destruct F1 as [F1 _], F2 as [F2 _]. rewrite F2, F1; [reflexivity | intros [] |]. apply memn_nIn. cbn [In] in I. repeat (destruct I as [<-|I]; [try reflexivity|]); try contradiction. }
  unfold pfl_outcome in *. cbv zeta in *. rewrite !K by (cbn; tauto). exact O.
Qed.

(** ** The property statements *)
Lemma pfl_heights (p q : prop RA) f v : path_entries p f v -> qlrpfl RA p = Ok q ->
  exists he0 he1, pn q HE0 = Some he0 /\ pn q HE1 = Some he1 /\ v HG0 <= he0 /\ v HG1 <= he1.
Proof.
  intros E H. pose proof E as (_ & _ & _ & H0 & H1 & _). destruct (pfl_run p q f v E H) as (t0 & t1 & d0 & d1 & dh & O). unfold pfl_outcome in O. cbv zeta in O. destruct O as (_ & _ & _ & Ob & Lo).
  destruct (Rlt_dec (d0 + d1) (3 / 2 * path_length f)) as [B|B].
  - destruct (Ob B) as (za & za' & zb' & zb & _ & _ & -> & -> & _). do 2 eexists. split; [reflexivity|]. split; [reflexivity|]. split; apply above_ge.
  - destruct (Lo ltac:(lra)) as (za & zb & s & _ & S & -> & -> & _). do 2 eexists. split; [reflexivity|]. split; [reflexivity|].
    pose proof (above_ge (v HG0) (ground f 0) za). pose proof (above_ge (v HG1) (ground f (intervals f - 1)) zb).
    split; match goal with |- _ <= ?x * s => enough (x * 1 <= x * s) by lra; apply Rmult_le_compat_l; lra end.
Qed.
Lemma pfl_los (p q : prop RA) f v t0 t1 d0 d1 : path_entries p f v -> qlrpfl RA p = Ok q ->
  hzns RA f (path_length f) (v HG0) (v HG1) (v GME) = Ok (t0, t1, d0, d1) -> 3 / 2 * path_length f <= d0 + d1 ->
  exists za zb s dh he0 he1 dl0 dl1 : R,
    zlsq1 RA f (setback (v HG0) d0) (path_length f - setback (v HG1) d1)%R = Ok (za, zb) /\
    dlthx RA f (setback (v HG0) d0) (path_length f - setback (v HG1) d1)%R = Ok dh /\
    he0 = above_trend (v HG0) (ground f 0) za * s /\ he1 = above_trend (v HG1) (ground f (intervals f - 1)) zb * s /\
    dl0 = rough_horizon he0 (v GME) dh /\ dl1 = rough_horizon he1 (v GME) dh /\
    1 <= s /\ path_length f <= dl0 + dl1 /\
    (let q0 := rough_horizon (above_trend (v HG0) (ground f 0) za) (v GME) dh + rough_horizon (above_trend (v HG1) (ground f (intervals f - 1)) zb) (v GME) dh in
     s = 1 \/ s = (path_length f / q0) ^ 2) /\
    pn q DH = Some dh /\ pn q HE0 = Some he0 /\ pn q HE1 = Some he1 /\ pn q DL0 = Some dl0 /\ pn q DL1 = Some dl1 /\
    pn q THE0 = Some (takeoff_angle he0 (v GME) dh) /\ pn q THE1 = Some (takeoff_angle he1 (v GME) dh).
Proof.
  intros E H Eh L. destruct (pfl_run p q f v E H) as (u0 & u1 & e0 & e1 & dh & O). unfold pfl_outcome in O. cbv zeta in O. destruct O as (Eh' & Ed & D & _ & Lo).
  rewrite Eh in Eh'. injection Eh' as <- <- <- <-. destruct (Lo L) as (za & zb & s & Ez & S & A0 & A1 & B0 & B1 & C0 & C1 & Cov & Sv).
  do 8 eexists. split; [exact Ez|]. split; [exact Ed|]. do 4 (split; [reflexivity|]). cbv zeta. repeat split; eassumption.
Qed.
Lemma pfl_obstructed (p q : prop RA) f v t0 t1 d0 d1 : path_entries p f v -> qlrpfl RA p = Ok q ->
  hzns RA f (path_length f) (v HG0) (v HG1) (v GME) = Ok (t0, t1, d0, d1) -> d0 + d1 < 3 / 2 * path_length f ->
  exists za za' zb' zb dh : R, zlsq1 RA f (setback (v HG0) d0) (9 / 10 * d0)%R = Ok (za, za') /\
    zlsq1 RA f (path_length f - 9 / 10 * d1)%R (path_length f - setback (v HG1) d1)%R = Ok (zb', zb) /\
    dlthx RA f (setback (v HG0) d0) (path_length f - setback (v HG1) d1)%R = Ok dh /\ pn q DH = Some dh /\
    pn q HE0 = Some (above_trend (v HG0) (ground f 0) za) /\ pn q HE1 = Some (above_trend (v HG1) (ground f (intervals f)) zb) /\
    pn q DL0 = Some d0 /\ pn q DL1 = Some d1 /\ pn q THE0 = Some t0 /\ pn q THE1 = Some t1.
Proof.
  intros E H Eh L. destruct (pfl_run p q f v E H) as (u0 & u1 & e0 & e1 & dh & O). unfold pfl_outcome in O. cbv zeta in O. destruct O as (Eh' & Ed & D & Ob & _).
  rewrite Eh in Eh'. injection Eh' as <- <- <- <-. destruct (Ob L) as (za & za' & zb' & zb & Ea & Eb & A0 & A1 & B0 & B1 & C0 & C1).
  exists za, za', zb', zb, dh. repeat split; assumption.
Qed.
(** Geometry alone never fails. *)
Lemma pfl_total (p : prop RA) f v : path_entries p f v -> exists q, qlrpfl_geom RA p = Ok q.
Proof. intro E. destruct (geom_run p f v E) as (q & _ & _ & _ & _ & _ & H & _). exists q. exact H. Qed.

(** Flat ground with the receiver on a mound of 20 m. *)
Definition mound : profile RA := @Profile RA 20 100 (repeat 0 20 ++ [20]).
Lemma mound_wf : well_formed mound.
Proof. unfold well_formed, mound. cbn. repeat split; try lia. change (num RA) with R. lra. Qed.
Lemma mound_flat k : (k < 20)%nat -> ground mound k = 0.
Proof. intro K. unfold ground, mound. cbn [pf_z]. change (num RA) with R. rewrite app_nth1 by (rewrite repeat_length; exact K). apply nth_repeat. Qed.
Lemma mound_top : ground mound 20 = 20. Proof. reflexivity. Qed.
Lemma mound_length : path_length mound = 2000.
Proof. unfold path_length. change (intervals mound) with 20%nat. change (pf_xi mound : R) with 100. cbn [INR]. lra. Qed.
Definition mound_entries : prop RA := setpfl (setn (setn (setn (empty_prop RA) HG0 10) HG1 10) GME (1 / 10000000)) mound.
Definition mound_v (k : nkey) : R := match k with GME => 1 / 10000000 | _ => 10 end.
Lemma mound_ok : path_entries mound_entries mound mound_v.
Proof.
  split; [reflexivity|]. split; [exact mound_wf|]. split; [intros k [<-|[<-|[<-|[]]]]; reflexivity|]. cbn [mound_v]. lra.
Qed.
Lemma mound_clear : unobstructed mound 10 10 (1 / 10000000).
Proof.
  intros d a I. apply in_sights in I as [[_ ->]|[j [J [_ ->]]]]; [apply Rle_refl|]. change (intervals mound) with 20%nat in *. rewrite mound_top, mound_length, !mound_flat by lia. change (pf_xi mound : R) with 100.
  unfold sight_angle. assert (1 <= INR j) by (change 1 with (INR 1); apply le_INR; lia). assert (INR j <= 19) by (replace 19 with (INR 19) by (cbn [INR]; lra); apply le_INR; lia).
  set (x := INR j) in *. assert (I : / x <= 1 / 1) by (unfold Rdiv; rewrite Rmult_1_l; apply Rinv_le_contravar; lra). 
  assert (I19 : / 19 <= / x) by (apply Rinv_le_contravar; lra). replace ((0 - (0 + 10)) / (x * 100)) with (- (1 / 10) * / x) by (field; lra). nra.
Qed.
Lemma mound_case : exists (p : prop RA) f v q he0 he1 za zb s, path_entries p f v /\ qlrpfl_geom RA p = Ok q /\ unobstructed f (v HG0) (v HG1) (v GME) /\
  zlsq1 RA f (setback (v HG0) (path_length f)) (path_length f - setback (v HG1) (path_length f))%R = Ok (za, zb) /\
  pn q HE0 = Some he0 /\ pn q HE1 = Some he1 /\ 1 <= s /\ he0 = above_trend (v HG0) (ground f 0) za * s /\ he1 = 10 * s /\
  above_trend (v HG1) (ground f (intervals f)) zb * s = 30 * s.
Proof.
  destruct (geom_run mound_entries mound mound_v mound_ok) as (q & t0 & t1 & d0 & d1 & dh & E & O). unfold pfl_outcome in O. cbv zeta in O. destruct O as (Eh & _ & _ & _ & Lo).
  destruct (hzns_spec mound 10 10 (1 / 10000000) mound_wf) as (u0 & u1 & e0 & e1 & Eh' & _ & _ & _ & _ & U). cbn [mound_v] in *. rewrite Eh in Eh'. injection Eh' as <- <- <- <-.
  destruct (U mound_clear) as [-> ->]. rewrite mound_length in *. destruct (Lo ltac:(lra)) as (za & zb & s & Ez & S & A0 & A1 & _).
  assert (Ez' : zlsq1 RA mound (setback 10 2000) (2000 - setback 10 2000)%R = Ok (0, (0 + 0 * INR (intervals mound))%R)).
  { assert (N : setback 10 2000 = 150) by (unfold setback; rewrite Rmin_left; lra). rewrite N. apply (zlsq1_straight mound 150 (2000 - 150) 1 19 0 0 mound_wf).
    - unfold proper. rewrite mound_length. lra.
    - unfold window. change (pf_xi mound : R) with 100. change (intervals mound) with 20%nat. rewrite Rmax_left by lra. rewrite Rmin_left by (cbn [INR]; lra). cbn [INR]. lra.
    - intros k K. rewrite mound_flat by lia. ring. }
  cbn [num RA] in Ez, Ez'. rewrite Ez in Ez'. injection Ez' as -> ->.
  exists mound_entries, mound, mound_v, q. do 5 eexists. split; [exact mound_ok|]. split; [exact E|]. split; [exact mound_clear|]. split; [cbn [mound_v]; rewrite mound_length; exact Ez|].
  split; [exact A0|]. split; [exact A1|]. split; [exact S|]. split; [reflexivity|]. change (intervals mound - 1)%nat with 19%nat. change (intervals mound) with 20%nat. rewrite mound_flat by lia. rewrite mound_top. cbn [mound_v]. unfold above_trend.
  rewrite Rmult_0_l, Rplus_0_r. split; f_equal; unfold Rmax; destruct (Rle_dec _ _); lra.
Qed.
