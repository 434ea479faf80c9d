(** avar in any arithmetic: the decoded mode, the climate and the removed variabilities, as seen by a caller. *)
From Verif Require Import Frame SpecAvar Scripts PfFrame PfLrGen PfAvarGen.

Section Api.
Context (A : arith).
Implicit Types p q : prop A.
Local Open Scope num_scope.

(** The stages of a refresh at a level above 3. *)
Lemma avar_stages t l c p a q lv : avar A t l c p = Ok (a, q) -> pz p LVAR = Some lv -> (3 < lv)%Z ->
  exists th p1 p2 p3 p4 p5, #1 /? #3 = Ok th /\
    (if (4 <? lv)%Z then av_klim A p else Ok p) = Ok p1 /\ av_mode A p1 = Ok p2 /\ av_freq A p2 = Ok p3 /\
    av_he A th p3 = Ok p4 /\ av_dist A p4 = Ok p5 /\ av_quant A t l c p5 = Ok (a, q).
Proof.
  intros H E L. unfold avar in H. apply bind_inv in H as [th [T H]]. apply bind_inv in H as [p5 [R Q]].
  unfold av_refresh in R. rewrite (proj2 (pz_getz A p LVAR lv) E) in R. cbn [bind] in R.
  replace (0 <? lv)%Z with true in R by lia. replace (3 <? lv)%Z with true in R by lia.
  replace (2 <? lv)%Z with true in R by lia. replace (1 <? lv)%Z with true in R by lia.
  apply bind_inv in R as [p1 [R1 R]]. apply bind_inv in R as [p2 [R2 R]].
  apply bind_inv in R as [p3 [R3 R]]. apply bind_inv in R as [p4 [R4 R]].
  exists th, p1, p2, p3, p4, p5. auto 10.
Qed.
Lemma av_dist_zero p q : av_dist A p = Ok q ->
  (pb p WL = Some true -> pn q SGL = Some #0) /\ (pb p WS = Some true -> pn q VS0 = Some #0).
Proof.
  intro H. unfold av_dist in H.
  repeat match type of H with
    | bind (getb ?p0 WL) _ = _ => fail 1
    | bind ?m _ = Ok _ => apply bind_inv in H; destruct H as [? [_ H]]
    end.
  dsimp_in H. apply bind_inv in H as [wl [EW H]]. apply bind_inv in H as [sgl [ES H]].
  dsimp_in H. apply bind_inv in H as [ws [EV H]]. apply bind_inv in H as [vs0 [E0 H]].
  inversion H; subst q. apply pb_getb in EW. apply pb_getb in EV. cbn [pn setn setz nkey_eqb nkey_id Pos.eqb].
  split; intro X.
  - rewrite X in EW. inversion EW; subst wl. inversion ES. reflexivity.
  - rewrite X in EV. inversion EV; subst ws. inversion E0. reflexivity.
Qed.
Lemma kwx_quant t l c p a q : av_quant A t l c p = Ok (a, q) -> forall k, pz p KWX = Some k ->
  exists k', pz q KWX = Some k' /\ (k <= k')%Z.
Proof.
  intros H k K. unfold av_quant in H. apply bind_inv in H as [kdv [_ H]].
  destruct (av_fold A kdv t l c) as [[zt zl] zc]. cbn [fst snd] in H. apply bind_inv in H as [p1 [E1 H]].
  apply bind_inv in H as [sgt [_ H]]. apply bind_inv in H as [a1 [_ H]]. apply bind_inv in H as [a2 [_ H]].
  inversion H; subst. destruct (_ || _ || _).
  - apply bind_inv in E1 as [k1 [K1 E1]]. apply pz_getz in K1. rewrite K in K1. inversion K1; subst.
    inversion E1. eexists. split; [reflexivity | lia].
  - inversion E1; subst. exists k. split; [assumption | lia].
Qed.

(** C21 *)
Lemma avar_mode_api t l c p a q lv m : avar A t l c p = Ok (a, q) -> pz p LVAR = Some lv -> (3 < lv)%Z ->
  pz p MDVAR = Some m ->
  let interf := (20 <=? m)%Z in
  let m1 := if interf then (m - 20)%Z else m in
  let pp := (10 <=? m1)%Z in
  let m2 := if pp then (m1 - 10)%Z else m1 in
  pb q WS = Some interf /\ pb q WL = Some pp /\
  (interf = true -> pn q VS0 = Some #0) /\ (pp = true -> pn q SGL = Some #0) /\
  (if (0 <=? m2)%Z && (m2 <=? 3)%Z then pz q KDV = Some m2
   else pz q KDV = Some 0%Z /\ exists k, pz q KWX = Some k /\ (2 <= k)%Z).
Proof.
  intros H E L M interf m1 pp m2.
  destruct (avar_stages t l c p a q lv H E L) as (th & p1 & p2 & p3 & p4 & p5 & _ & R1 & R2 & R3 & R4 & R5 & Q).
  assert (M1 : pz p1 MDVAR = Some m).
  { destruct (4 <? lv)%Z; [|inversion R1; subst; assumption]. apply av_klim_frame in R1.
    destruct R1 as [_ [R1 _]]. rewrite R1; [assumption|]. cbn. intuition congruence. }
  destruct (av_mode_spec A p1 p2 m M1 R2) as [S1 [S2 S3]]. fold interf m1 pp m2 in S1, S2, S3.
  assert (F3 := av_freq_frame A p2 p3 R3). assert (F4 := av_he_frame A th p3 p4 R4).
  assert (F5 := av_dist_frame A p4 p5 R5). assert (FQ := av_quant_frame A t l c p5 (a, q) Q). cbn [snd] in FQ.
  assert (B : forall k, pb p4 k = pb p2 k).
  { intro k. destruct F3 as [_ [_ [F3 _]]], F4 as [_ [_ [F4 _]]]. rewrite F4, F3 by (intros []). reflexivity. }
  assert (B' : forall k, pb q k = pb p2 k).
  { intro k. destruct F5 as [_ [_ [F5 _]]], FQ as [_ [_ [FQ _]]]. rewrite FQ, F5 by (intros []). apply B. }
  assert (N : forall k, pn q k = pn p5 k).
  { intro k. destruct FQ as [FQ _]. apply FQ. intros []. }
  assert (K : pz p5 KDV = pz p2 KDV /\ pz q KDV = pz p5 KDV /\ pz p5 KWX = pz p2 KWX).
  { destruct F3 as [_ [F3 _]], F4 as [_ [F4 _]], F5 as [_ [F5 _]], FQ as [_ [FQ _]].
    rewrite !F5, !F4, !F3, !FQ by (cbn; intuition congruence). rewrite F5, F4, F3 by (cbn; intuition congruence). auto. }
  destruct K as [K1 [K2 K3]]. destruct (av_dist_zero p4 p5 R5) as [Z1 Z2].
  rewrite !B', !N, K2, K1. split; [assumption|]. split; [assumption|].
  split; [intro X; apply Z2; rewrite B; congruence|]. split; [intro X; apply Z1; rewrite B; congruence|].
  destruct ((0 <=? m2)%Z && (m2 <=? 3)%Z); [apply S3|]. destruct S3 as [S3 [k [_ Kk]]]. split; [assumption|].
  destruct (kwx_quant t l c p5 a q Q (Z.max k 2)) as [k' [X Y]]; [congruence|].
  exists k'. split; [assumption | lia].
Qed.
(** C22 *)
Lemma avar_klim_api t l c p a q lv k : avar A t l c p = Ok (a, q) -> pz p LVAR = Some lv -> (4 < lv)%Z ->
  pz p KLIM = Some k ->
  map (pn q) climate_keys = map Some (climate_row (climate_used k)) /\
  pz q KLIM = Some (climate_used k) /\
  (climate_used k <> k -> exists x, pz q KWX = Some x /\ (2 <= x)%Z).
Proof.
  intros H E L K.
  destruct (avar_stages t l c p a q lv H E ltac:(lia)) as (th & p1 & p2 & p3 & p4 & p5 & _ & R1 & R2 & R3 & R4 & R5 & Q).
  replace (4 <? lv)%Z with true in R1 by lia.
  destruct (av_klim_spec A p p1 k K R1) as [S1 [S2 [S3 _]]].
  assert (F2 := av_mode_frame A p1 p2 R2).
  assert (F3 := av_freq_frame A p2 p3 R3). assert (F4 := av_he_frame A th p3 p4 R4).
  assert (F5 := av_dist_frame A p4 p5 R5). assert (FQ := av_quant_frame A t l c p5 (a, q) Q). cbn [snd] in FQ.
  assert (F : same_except [GM; GP; DEXA; VMD; SGTM; SGTP; SGTD; TGTD; SGL; VS0] [KDV; KWX; LVAR] [WS; WL] p1 q).
  { clear - F2 F3 F4 F5 FQ. frames. }
  split; [|split].
  - rewrite <- S1. apply map_ext_in. intros x I. destruct F as [F _]. apply F. clear - I.
    cbn in I |- *. intuition (subst; congruence).
  - rewrite <- S2. destruct F as [_ [F _]]. apply F. cbn. intuition congruence.
  - intro N. destruct ((1 <=? k)%Z && (k <=? 7)%Z) eqn:B.
    + exfalso. apply N. unfold climate_used. rewrite B. reflexivity.
    + destruct S3 as [x [_ X]].
      assert (Kp : exists x2, pz p2 KWX = Some x2 /\ (2 <= x2)%Z).
      { destruct (av_klim_frame A p p1 R1) as [_ [FK _]].
        assert (exists m, pz p1 MDVAR = Some m) as [m M].
        { unfold av_mode in R2. apply bind_inv in R2 as [m [M _]]. exists m. apply pz_getz. assumption. }
        destruct (av_mode_spec A p1 p2 m M R2) as [_ [_ S]].
        destruct (_ && _) in S.
        - destruct S as [_ S]. rewrite S, X. eexists. split; [reflexivity | lia].
        - destruct S as [_ [y [Y1 Y2]]]. rewrite X in Y1. inversion Y1; subst. rewrite Y2. eexists. split; [reflexivity | lia]. }
      destruct Kp as [x2 [X2 L2]].
      assert (X5 : pz p5 KWX = Some x2).
      { destruct F3 as [_ [F3 _]], F4 as [_ [F4 _]], F5 as [_ [F5 _]].
        rewrite F5, F4, F3 by (cbn; intuition congruence). assumption. }
      destruct (kwx_quant t l c p5 a q Q x2 X5) as [x' [Y1 Y2]]. exists x'. split; [assumption | lia].
Qed.
End Api.
