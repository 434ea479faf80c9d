(** pimter.py: the deviates actually used. *)
From Verif Require Import RTac Frame SpecAvar SpecQuant SpecScripts Scripts PfFrame PfLrGen PfAtten PfAvarGen PfAvarApi PfPrepGen PfQuant PfAvarReal PfMisc.
Open Scope R_scope.

Lemma pimter_dev_value : pimter_dev RA = Ok (- (47533 / 10000)).
Proof.
  unfold pimter_dev. change (n_Z (a:=RA) 50) with 50. destruct (qerfi1_total 50) as [v V]. rewrite V. f_equal.
  destruct (qerfi1_total (1 - 50)) as [w W]. pose proof (qerfi1_odd 50 v w V W) as E.
  rewrite (qerfi1_sat (1 - 50) (1 / 1000000)) in W by lra. rewrite qerfi1_max in W.
  apply ok_inj in W. lra.
Qed.
Lemma av_quant_zero (t l c : R) (p p' : prop RA) (a : R) : cache_ok p -> av_quant RA t l c p = Ok (a, p') -> exists r, av_quant RA 0 0 0 p = Ok r.
Proof.
  intros C H. assert (F := av_quant_frame RA t l c p (a, p') H). cbn [snd] in F.
  assert (KD : exists kd, pz p KDV = Some kd) by (unfold av_quant in H; apply bind_inv in H as [kd [K _]]; apply pz_getz in K; eauto).
  assert (AR : exists ar : R, pn p AREF = Some ar).
  { unfold av_quant in H. apply bind_inv in H as [kd [_ H]]. destruct (av_fold RA kd t l c) as [[zt zl] zc]. apply bind_inv in H as [p1 [E H]].
    apply bind_inv in H as [s [_ H]]. apply bind_inv in H as [r [H _]].
    assert (N : forall k, pn p1 k = pn p k).
    { intro k. destruct (_ || _)%bool; [apply bind_inv in E as [kw [_ E]]|]; apply ok_inj in E; subst p1; reflexivity. }
    unfold av_raw in H. repeat (apply bind_inv in H as [? [? H]]). match type of H with (let '(_, _) := ?x in _) = _ => destruct x end.
    repeat (apply bind_inv in H as [? [? H]]).
    match goal with K : getn p1 AREF = Ok ?x |- _ => exists x; rewrite <- N; apply pn_getn; exact K end. }
  destruct KD as [kd KD], AR as [ar AR].
  destruct (av_quant_run 0 0 0 ar (setz p KWX 0) kd 0%Z) as [r0 R0]; [eapply cache_same; [|exact C]; intros k I; reflexivity | exact AR | exact KD | reflexivity |].
  unfold av_quant in R0 |- *. rewrite (proj2 (pz_getz RA p KDV kd) KD). rewrite (proj2 (pz_getz RA (setz p KWX 0) KDV kd) KD) in R0. cbn [bind] in *.
  assert (Z0 : av_fold RA kd 0 0 0 = (0, 0, 0)) by (unfold av_fold; repeat destruct (_ =? _)%Z; reflexivity).
  rewrite Z0 in *.
  assert (B : (@n_ltb RA (310 // 100) (@n_abs RA (0%R : num RA)))%num = false).
  { cbn. apply r_ltb_false. rewrite Rabs_R0. lra. }
  rewrite B in *. cbn [orb bind] in *.
  change (av_sgt RA 0 (setz p KWX 0)) with (av_sgt RA 0 p) in R0. apply bind_inv in R0 as [s [S R0]].
  match goal with |- exists r, bind ?m _ = _ => replace m with (Ok s) by (symmetry; exact S) end. cbn [bind].
  apply bind_inv in R0 as [b [B0 R0]].
  match goal with |- exists r, bind ?m _ = _ => replace m with (Ok b) by (symmetry; exact B0) end. cbn [bind].
  apply bind_inv in R0 as [a1 [A1 R0]].
  match goal with |- exists r, bind ?m _ = _ => replace m with (Ok a1) by (symmetry; exact A1) end. cbn [bind]. eauto.
Qed.
Lemma avar_zero (t l c a : R) (p q : prop RA) : stat_state p -> avar RA t l c p = Ok (a, q) -> exists m q', avar RA 0 0 0 p = Ok (m, q').
Proof.
  intros S H. assert (C := stat_cache _ _ _ _ _ _ S H). destruct (avar_inv _ _ _ _ _ _ H) as (p1 & k & E & Q & K & _).
  assert (F := av_quant_frame RA t l c p1 (a, q) Q). cbn [snd] in F.
  assert (C1 : cache_ok p1). { eapply cache_same; [|exact C]. intros x I. destruct F as [F _]. symmetry. apply F. intros []. }
  destruct (av_quant_zero _ _ _ _ _ _ C1 Q) as [[m q'] M]. exists m, q'. unfold avar. rewrite third_R. cbn [bind].
  match goal with |- bind ?m0 _ = _ => replace m0 with (Ok p1) by (symmetry; exact E) end. exact M.
Qed.
Lemma pimter_worse (z m a : R) (p q q' : prop RA) k : z <= 0 -> stat_state p -> avar RA z 0 z p = Ok (a, q) -> avar RA 0 0 0 p = Ok (m, q') ->
  pz q KDV = Some k -> k <> 0%Z -> m <= a.
Proof.
  intros L S H H' Kq N. assert (C := cache_factsI q (stat_cache _ _ _ _ _ _ S H)).
  destruct (avar_same_cache _ _ _ _ _ _ _ _ _ _ _ H H') as [EK EV].
  apply avar_inv in H as (_ & k1 & _ & _ & K & ->). apply avar_inv in H' as (_ & k' & _ & _ & K' & ->).
  assert (k' = k) by congruence. assert (k1 = k) by congruence. subst k' k1. rewrite (raw_ext (vals q') (vals q)) by exact EV. apply squash_le.
  eapply Rle_trans; [apply (raw_conf (vals q) k 0 0 z 0 C L) | apply (raw_time (vals q) k z 0 0 z C N L)].
Qed.

(** Row by row. *)
Definition pimter_row (z : R) (hg : R) (row : R * R * R * R) : Prop :=
  exists (p q q' q'' : prop RA) (wn dist a m : R), qlrpfl RA p = Ok q /\ pn p HG1 = Some hg /\
    pn q WN = Some wn /\ pn q DIST = Some dist /\
    avar RA z 0 z q = Ok (a, q') /\ row = (2488, hg, 50, 8685890 / 1000000 * ln (2 * wn * dist) + a) /\
    avar RA 0 0 0 q = Ok (m, q'') /\ m <= a.
Lemma pimter_rows (z : R) (l : list R) (p : prop RA) rows : z <= 0 -> pimter_loop RA 2488 z z l p = Ok rows -> Forall2 (pimter_row z) l rows.
Proof.
  intros Z. revert p rows. induction l as [|hg l IH]; intros p rows H; cbn [pimter_loop] in H.
  - apply ok_inj in H. subst. constructor.
  - apply bind_inv in H as [q [E H]]. apply bind_inv in H as [wn [W H]]. apply bind_inv in H as [dist [D H]]. apply bind_inv in H as [t [T H]].
    apply bind_inv in H as [[a q'] [V H]]. cbn [fst snd] in H. apply bind_inv in H as [rest [E2 H]]. apply ok_inj in H. subst rows.
    constructor; [|eapply IH; exact E2].
    destruct (qlrpfl_control RA _ _ E) as (lv & mx & kx & L & M & K & _ & L' & M' & _).
    cbn in L, M, K. injection L as <-. injection M as <-. injection K as <-. cbn in L', M'.
    assert (SS : stat_state q) by (eapply st_full; [exact L' | lia]).
    destruct (avar_zero _ _ _ _ _ _ SS V) as (m & q'' & Mm).
    assert (KV : pz q' KDV = Some 1%Z) by (destruct (avar_mode_api RA z 0 z q a q' 5%Z 11%Z V L' ltac:(lia) M') as (_ & _ & _ & _ & K0); exact (proj1 K0) || exact K0).
    eexists _, q, q', q'', wn, dist, a, m. split; [exact E|]. split; [reflexivity|]. split; [apply pn_getn; exact W|]. split; [apply pn_getn; exact D|].
    split; [exact V|]. split. { apply r_log_inv in T as [_ ->]. reflexivity. }
    split; [exact Mm|]. eapply pimter_worse; [exact Z | exact SS | exact V | exact Mm | exact KV | lia].
Qed.
Lemma pimter_spec (terrain distance : list R) rows : run_itmlogic RA terrain distance = Ok rows ->
  Forall2 (pimter_row (- (47533 / 10000))) (pimter_txht RA) rows.
Proof.
  unfold run_itmlogic. rewrite pimter_dev_value. cbn [bind]. generalize (pimter_txht RA). intros l H.
  apply bind_inv in H as ([fmhz p] & P & H).
  assert (fmhz = (2488 : R)) as ->.
  { unfold pimter_prepare in P. repeat (apply bind_inv in P as [? [_ P]]; try (match type of P with (let '(_, _) := ?x in _) = _ => destruct x end)).
    apply ok_pair in P as [-> _]. cbn. lra. }
  eapply pimter_rows; [|exact H]. lra.
Qed.
