(** lrprop in any arithmetic: sign of aref, error indicator, mode protocol. *)
From Verif Require Import Frame Scripts SpecLr PfFrame.

Section PfLrGen.
Context (A : arith).
Implicit Types p q : prop A.
Local Open Scope num_scope.

Lemma pn_getn p k v : getn p k = Ok v <-> pn p k = Some v.
Proof. unfold getn. destruct (pn p k); cbn; split; congruence. Qed.
Lemma pz_getz p k v : getz p k = Ok v <-> pz p k = Some v.
Proof. unfold getz. destruct (pz p k); cbn; split; congruence. Qed.
Lemma pb_getb p k v : getb p k = Ok v <-> pb p k = Some v.
Proof. unfold getb. destruct (pb p k); cbn; split; congruence. Qed.

(** ** C01 *)
Lemma lrprop_aref_nonneg d p p' : (@n_Z A 0 <? #0) = false -> lrprop A d p = Ok p' ->
  exists a, pn p' AREF = Some a /\ (a <? #0) = false.
Proof.
  intros Z. revert p'. change (wp (lrprop A d p) (fun p' => exists a, pn p' AREF = Some a /\ (a <? #0) = false)).
  unfold lrprop. do 6 (apply wp_bind; apply wp_any; intro).
  apply wp_bind; apply wp_any; intro aref. apply wp_ok. eexists. split; [reflexivity|].
  unfold pymax. destruct (aref <? #0) eqn:E; assumption.
Qed.

(** ** C02 *)
Definition kwx_step p q : Prop :=
  forall k, pz p KWX = Some k -> (k <= 4)%Z -> exists k', pz q KWX = Some k' /\ (k <= k' <= 4)%Z.
Lemma kwx_refl p : kwx_step p p.
Proof. intros k H L. exists k. split; [assumption | lia]. Qed.
Lemma kwx_trans p q r : kwx_step p q -> kwx_step q r -> kwx_step p r.
Proof.
  intros H K k E L. destruct (H k E L) as [k' [E' L']]. destruct (K k' E' ltac:(lia)) as [k'' [E'' L'']].
  exists k''. split; [assumption | lia].
Qed.
Lemma kwx_frame nk zk bk p q : memz KWX zk = false -> same_except nk zk bk p q -> kwx_step p q.
Proof.
  intros M [_ [H _]] k E L. exists k. split; [|lia]. rewrite H; [assumption|].
  apply memz_nIn. assumption.
Qed.
Lemma warn_max_range b c k : (c <= 4 -> k <= 4 -> k <= warn_max b c k <= 4)%Z.
Proof. unfold warn_max. destruct b; lia. Qed.
Lemma warn_set_range b k : (k <= 4 -> k <= warn_set b 4 k <= 4)%Z.
Proof. unfold warn_set. destruct b; lia. Qed.
Lemma warn_set_max b k : (k <= 4 -> warn_set b 4 k = warn_max b 4 k)%Z.
Proof. unfold warn_set, warn_max. destruct b; lia. Qed.

(** The value of kwx left by the set-up checks. *)
Lemma lr_checks_worst p p' k : lr_checks A p = Ok p' -> pz p KWX = Some k -> (k <= 4)%Z ->
  exists wn hg0 hg1 the0 the1 dl0 dl1 dls0 dls1 ens gme zr zi,
    getn p WN = Ok wn /\ getn p HG0 = Ok hg0 /\ getn p HG1 = Ok hg1 /\ getn p THE0 = Ok the0 /\
    getn p THE1 = Ok the1 /\ getn p DL0 = Ok dl0 /\ getn p DL1 = Ok dl1 /\ getn p DLS0 = Ok dls0 /\
    getn p DLS1 = Ok dls1 /\ getn p ENS = Ok ens /\ getn p GME = Ok gme /\ getn p ZGR = Ok zr /\
    getn p ZGI = Ok zi /\
    p' = setz p KWX (worst k (terminal_checks hg0 the0 dl0 dls0 dl1 ++ terminal_checks hg1 the1 dl1 dls1 dl1
                              ++ env_checks wn ens gme zr zi)).
Proof.
  intros H K L. unfold lr_checks in H. apply pz_getz in K.
  destruct (getn p WN) as [wn|] eqn:Ewn; cbn [bind] in H; [|discriminate].
  rewrite K in H. cbn [bind] in H.
  destruct (getn p HG0) as [hg0|] eqn:Ehg0; cbn [bind] in H; [|discriminate].
  destruct (getn p HG1) as [hg1|] eqn:Ehg1; cbn [bind] in H; [|discriminate].
  destruct (getn p THE0) as [the0|] eqn:Ethe0; cbn [bind] in H; [|discriminate].
  destruct (getn p THE1) as [the1|] eqn:Ethe1; cbn [bind] in H; [|discriminate].
  destruct (getn p DL0) as [dl0|] eqn:Edl0; cbn [bind] in H; [|discriminate].
  destruct (getn p DL1) as [dl1|] eqn:Edl1; cbn [bind] in H; [|discriminate].
  destruct (getn p DLS0) as [dls0|] eqn:Edls0; cbn [bind] in H; [|discriminate].
  destruct (getn p DLS1) as [dls1|] eqn:Edls1; cbn [bind] in H; [|discriminate].
  destruct (getn p ENS) as [ens|] eqn:Eens; cbn [bind] in H; [|discriminate].
  destruct (getn p GME) as [gme|] eqn:Egme; cbn [bind] in H; [|discriminate].
  destruct (getn p ZGR) as [zr|] eqn:Ezr; cbn [bind] in H; [|discriminate].
  destruct (getn p ZGI) as [zi|] eqn:Ezi; cbn [bind] in H; [|discriminate].
  exists wn, hg0, hg1, the0, the1, dl0, dl1, dls0, dls1, ens, gme, zr, zi.
  do 13 (split; [reflexivity|]). inversion H; clear H. f_equal.
  cbn [terminal_checks env_checks app worst]. unfold outside.
  set (b1 := (wn <? _) || _). set (b2 := (hg0 <? #1) || _). set (b3 := (hg1 <? #1) || _).
  set (b4 := _ || (dl1 >? #3 * dls0)). set (b5 := _ || (dl1 >? #3 * dls1)).
  set (b7 := (hg0 <? _) || _). set (b8 := (hg1 <? _) || _).
  set (b6 := (ens <? #250) || _ || _ || _ || _ || _ || _).
  set (b6' := (_ || _) || (_ || _) || _ || (_ || _)).
  assert (E6 : b6' = b6) by (unfold b6, b6'; rewrite !orb_assoc; reflexivity). rewrite E6.
  unfold warn_max, warn_set. destruct b1, b2, b3, b4, b5, b6, b7, b8; lia.
Qed.
Lemma worst_range l : (forall b c, In (b, c) l -> (c <= 4)%Z) -> forall k, (k <= 4 -> k <= worst k l <= 4)%Z.
Proof.
  induction l as [|[b c] l IH]; intros Hl k L; cbn [worst]; [lia|].
  assert (c <= 4)%Z by (apply (Hl b); left; reflexivity).
  assert (IH' := IH (fun b' c' I => Hl b' c' (or_intror I))).
  destruct b.
  - specialize (IH' (Z.max k c) ltac:(lia)). lia.
  - apply IH'. assumption.
Qed.

Lemma kwx_lr_checks p : wp (lr_checks A p) (kwx_step p).
Proof.
  intros p' H k E L. pose proof (lr_checks_worst p p' k H E L) as W.
  destruct W as (wn & hg0 & hg1 & the0 & the1 & dl0 & dl1 & dls0 & dls1 & ens & gme & zr & zi & W).
  do 13 (destruct W as [_ W]). subst p'. eexists. split; [reflexivity|].
  apply worst_range; [|assumption]. intros b c I. cbn in I. repeat destruct I as [I|I]; try contradiction; inversion I; lia.
Qed.
(** The value of kwx (and of dist, mdp) left by the distance part. *)
Lemma lr_dist_worst d p p' k : lr_dist A d p = Ok p' -> pz p KWX = Some k -> (k <= 4)%Z ->
  exists mdp dist, getz p MDP = Ok mdp /\
    (dist = if (0 <=? mdp)%Z then Ok d else getn p DIST) /\
    exists dv, dist = Ok dv /\ getn p' DIST = Ok dv /\
    ((dv >? #0) = false \/ exists dmin, getn p DMIN = Ok dmin) /\
    forall dmin, ((dv >? #0) = true -> getn p DMIN = Ok dmin) ->
    pz p' KWX = Some (worst k (dist_checks dv dmin)).
Proof.
  intros H K L. unfold lr_dist in H. apply pz_getz in K.
  destruct (getz p MDP) as [mdp|] eqn:Emdp; cbn [bind] in H; [|discriminate].
  exists mdp. eexists. split; [reflexivity|]. split; [reflexivity|].
  set (p0 := if (0 <=? mdp)%Z then setn (setz p MDP 0) DIST d else p) in *.
  assert (D : getn p0 DIST = if (0 <=? mdp)%Z then Ok d else getn p DIST).
  { unfold p0. destruct (0 <=? mdp)%Z; [|reflexivity]. dsimp. reflexivity. }
  assert (K0 : getz p0 KWX = Ok k). { unfold p0. destruct (0 <=? mdp)%Z; [|assumption]. dsimp. assumption. }
  assert (M0 : getn p0 DMIN = getn p DMIN). { unfold p0. destruct (0 <=? mdp)%Z; [|reflexivity]. dsimp. reflexivity. }
  rewrite D in H. rewrite <- D. destruct (getn p0 DIST) as [dv|] eqn:E0; rewrite <- D in H; cbn [bind] in H; [|discriminate].
  exists dv. split; [reflexivity|]. unfold dist_checks. destruct (dv >? #0) eqn:G.
  - rewrite K0 in H. cbn [bind] in H. rewrite M0 in H.
    destruct (getn p DMIN) as [dm|] eqn:Edm; cbn [bind] in H; [|discriminate].
    inversion H; subst p'; clear H. split; [dsimp; assumption|]. split; [right; eauto|].
    intros dmin Hd. specialize (Hd eq_refl). inversion Hd; subst dm; clear Hd.
    cbn [pz setz zkey_eqb zkey_id Pos.eqb]. f_equal. cbn [worst]. unfold outside.
    set (b1 := (dv >? 1000000 // 1)). set (b2 := (dv <? dmin)). set (b3 := _ || _).
    unfold warn_max, warn_set. destruct b1, b2, b3; lia.
  - inversion H; subst p'; clear H. split; [assumption|]. split; [left; reflexivity|].
    intros dmin _. cbn [worst]. apply pz_getz. assumption.
Qed.
Lemma kwx_lr_dist d p : wp (lr_dist A d p) (kwx_step p).
Proof.
  intros p' H k E L. destruct (lr_dist_worst d p p' k H E L) as (mdp & dist & _ & _ & dv & _ & _ & D & W).
  destruct (dv >? #0) eqn:G.
  - destruct D as [D|[dmin D]]; [discriminate|]. specialize (W dmin (fun _ => D)).
    eexists. split; [exact W|]. apply worst_range; [|assumption]. unfold dist_checks. rewrite G.
    intros b c I. cbn in I. repeat destruct I as [I|I]; try contradiction; inversion I; lia.
  - specialize (W dv ltac:(discriminate)). eexists. split; [exact W|]. unfold dist_checks. rewrite G. cbn. lia.
Qed.
Ltac kframe := match goal with
  | H : same_except _ _ _ ?p _ |- kwx_step ?p _ => eapply kwx_frame; [|exact H]; reflexivity end.
Lemma kwx_lrprop d p : wp (lrprop A d p) (kwx_step p).
Proof.
  unfold lrprop. apply wp_bind, wp_any. intro th. apply wp_bind, wp_any. intro mdp.
  apply wp_bind.
  assert (S : wp (if negb (mdp =? 0)%Z then lr_setup A th p else Ok p) (kwx_step p)).
  { destruct (negb (mdp =? 0)%Z); [|apply wp_ok, kwx_refl]. unfold lr_setup.
    apply wp_bind. eapply wp_conseq; [apply lr_geom_frame|]. intros p1 H1.
    apply wp_bind. eapply wp_conseq; [apply kwx_lr_checks|]. intros p2 H2.
    eapply wp_conseq; [apply lr_diff_frame|]. intros p3 H3.
    eapply kwx_trans; [kframe|]. eapply kwx_trans; [exact H2|]. kframe. }
  eapply wp_conseq; [exact S|]. intros p1 H1. apply wp_bind.
  eapply wp_conseq; [apply kwx_lr_dist|]. intros p2 H2. apply wp_bind.
  eapply wp_conseq; [apply lr_los_frame|]. intros p3 H3. apply wp_bind.
  eapply wp_conseq; [apply lr_scat_frame|]. intros p4 H4. apply wp_bind, wp_any. intro a. apply wp_ok.
  eapply kwx_trans; [exact H1|]. eapply kwx_trans; [exact H2|]. eapply kwx_trans; [kframe|].
  eapply kwx_trans; [kframe|]. intros k E L. exists k. split; [exact E | lia].
Qed.
Lemma kwx_max p k c : pz p KWX = Some k -> (c <= 4)%Z -> kwx_step p (setz p KWX (Z.max k c)).
Proof.
  intros E C k0 E0 L0. rewrite E in E0. inversion E0; subst k0.
  exists (Z.max k c). split; [reflexivity | lia].
Qed.
Lemma kwx_avar a b c p : wp (avar A a b c p) (fun r => kwx_step p (snd r)).
Proof.
  unfold avar. apply wp_bind, wp_any. intro th. apply wp_bind.
  assert (S1 : forall q, wp (av_klim A q) (kwx_step q)).
  { intro q. unfold av_klim. apply wp_bind, wp_eq. intros kl Hk. apply wp_bind.
    assert (F : forall l q0 z, wp (foldM (fun p kt => let! v := pyget (snd kt) z in Ok (setn p (fst kt) v)) l q0)
                  (kwx_step q0)).
    { induction l as [|[k0 t] l IH]; intros q0 z; cbn [foldM].
      - apply wp_ok, kwx_refl.
      - apply wp_bind, wp_bind, wp_any. intro v. apply wp_ok.
        eapply wp_conseq; [apply IH|]. intros q1 H1. intros k E L. apply H1; assumption. }
    destruct ((kl <=? 0)%Z || (7 <? kl)%Z).
    - apply wp_bind, wp_eq. intros k Ek. apply wp_ok. apply wp_bind, wp_any. intro kl'.
      eapply wp_conseq; [apply F|]. intros q1 H1.
      eapply kwx_trans; [|exact H1].
      apply pz_getz in Ek. intros k0 E0 L0. rewrite Ek in E0. inversion E0; subst k0.
      exists (Z.max k 2). split; [reflexivity|lia].
    - apply wp_ok. apply wp_bind, wp_any. intro. apply F. }
  assert (S2 : forall q, wp (av_mode A q) (kwx_step q)).
  { intro q. unfold av_mode. apply wp_bind, wp_any. intro kd.
    set (kd' := if (10 <=? _)%Z then _ else _). destruct ((kd' <? 0)%Z || (3 <? kd')%Z).
    - apply wp_bind, wp_eq. intros k Ek. apply wp_ok. dsimp_in Ek.
      apply pz_getz in Ek. intros k0 E0 L0. rewrite Ek in E0. inversion E0; subst k0.
      exists (Z.max k 2). split; [reflexivity|lia].
    - apply wp_ok. intros k E L. exists k. split; [exact E | lia]. }
  assert (S : wp (av_refresh A th p) (kwx_step p)).
  { unfold av_refresh. apply wp_bind, wp_any. intro lv. destruct (0 <? lv)%Z; [|apply wp_ok, kwx_refl].
    apply wp_bind. apply wp_conseq with (P := kwx_step p).
    { destruct (4 <? lv)%Z; [apply S1 | apply wp_ok, kwx_refl]. }
    intros p1 H1. apply wp_bind. apply wp_conseq with (P := kwx_step p1).
    { destruct (3 <? lv)%Z; [apply S2 | apply wp_ok, kwx_refl]. }
    intros p2 H2. apply wp_bind. apply wp_conseq with (P := kwx_step p2).
    { destruct (2 <? lv)%Z; [|apply wp_ok, kwx_refl].
      eapply wp_conseq; [apply av_freq_frame|]. intros. kframe. }
    intros p3 H3. apply wp_bind. apply wp_conseq with (P := kwx_step p3).
    { destruct (1 <? lv)%Z; [|apply wp_ok, kwx_refl].
      eapply wp_conseq; [apply av_he_frame|]. intros. kframe. }
    intros p4 H4. eapply wp_conseq; [apply av_dist_frame|]. intros p5 H5.
    repeat (eapply kwx_trans; [eassumption|]). kframe. }
  eapply wp_conseq; [exact S|]. intros p1 H1.
  unfold av_quant. apply wp_bind, wp_any. intro kdv.
  destruct (av_fold A kdv a b c) as [[zt zl] zc]. apply wp_bind.
  apply wp_conseq with (P := kwx_step p1).
  { destruct ((_ || _) || _)%bool.
    - apply wp_bind, wp_eq. intros k Ek. apply wp_ok. apply pz_getz in Ek. apply kwx_max; [assumption | lia].
    - apply wp_ok, kwx_refl. }
  intros p2 H2. apply wp_bind, wp_any. intro. apply wp_bind, wp_any. intro. apply wp_bind, wp_any. intro.
  apply wp_ok. cbn [snd]. eapply kwx_trans; eassumption.
Qed.
Lemma kwx_qlra k0 k1 p : wp (qlra A k0 k1 p) (kwx_step p).
Proof. eapply wp_conseq; [apply qlra_frame|]. intros q H. kframe. Qed.
Lemma kwx_qlrpfl p : wp (qlrpfl A p) (kwx_step p).
Proof.
  unfold qlrpfl. apply wp_bind. eapply wp_conseq; [apply qlrpfl_geom_frame|]. intros p1 H1.
  apply wp_bind. eapply wp_conseq; [apply prep_control_frame|]. intros p2 H2.
  eapply wp_conseq; [apply kwx_lrprop|]. intros p3 H3.
  eapply kwx_trans; [kframe|]. eapply kwx_trans; [kframe|]. assumption.
Qed.

(** ** C04 *)
Lemma lr_dist_neg d p m : pz p MDP = Some m -> (m < 0)%Z -> forall d', lr_dist A d p = lr_dist A d' p.
Proof.
  intros M L d'. unfold lr_dist. apply pz_getz in M. rewrite M. cbn [bind].
  replace (0 <=? m)%Z with false by lia. reflexivity.
Qed.
Lemma lr_setup_mdp th p p1 : lr_setup A th p = Ok p1 -> pz p1 MDP = pz p MDP.
Proof.
  intro H. apply lr_setup_frame in H. destruct H as [_ [H _]]. apply H. apply memz_nIn. reflexivity.
Qed.
Lemma lrprop_p2p_ignores_d p m : pz p MDP = Some m -> (m < 0)%Z -> forall d d', lrprop A d p = lrprop A d' p.
Proof.
  intros M L d d'. unfold lrprop. destruct (#1 /? #3) as [th|]; [|reflexivity]. cbn [bind].
  assert (M' := M). apply pz_getz in M. rewrite M. cbn [bind].
  replace (negb (m =? 0)%Z) with true by (symmetry; apply negb_true_iff; lia).
  destruct (lr_setup A th p) as [p1|] eqn:E; [|reflexivity]. cbn [bind].
  rewrite (lr_dist_neg d p1 m) with (d' := d'); [reflexivity | | assumption].
  rewrite <- M'. eapply lr_setup_mdp. eassumption.
Qed.
Lemma lr_dist_p2p d p p' m : lr_dist A d p = Ok p' -> pz p MDP = Some m -> (m < 0)%Z ->
  pz p' MDP = Some m /\ pn p' DIST = pn p DIST.
Proof.
  intros H M L. unfold lr_dist in H. assert (M' := M). apply pz_getz in M. rewrite M in H. cbn [bind] in H.
  replace (0 <=? m)%Z with false in H by lia.
  destruct (getn p DIST) as [dv|] eqn:Ed; cbn [bind] in H; [|discriminate].
  destruct (dv >? #0).
  - destruct (getz p KWX) as [k|]; cbn [bind] in H; [|discriminate].
    destruct (getn p DMIN) as [dm|]; cbn [bind] in H; [|discriminate].
    inversion H; subst p'. split; [assumption | reflexivity].
  - inversion H; subst p'. split; [assumption | reflexivity].
Qed.
Lemma lr_dist_area d p p' m : lr_dist A d p = Ok p' -> pz p MDP = Some m -> (0 <= m)%Z ->
  pz p' MDP = Some 0%Z /\ pn p' DIST = Some d.
Proof.
  intros H M L. unfold lr_dist in H. assert (M' := M). apply pz_getz in M. rewrite M in H. cbn [bind] in H.
  replace (0 <=? m)%Z with true in H by lia. dsimp_in H.
  destruct (d >? #0).
  - destruct (getz p KWX) as [k|]; cbn [bind] in H; [|discriminate].
    destruct (getn p DMIN) as [dm|]; cbn [bind] in H; [|discriminate].
    inversion H; subst p'. split; reflexivity.
  - inversion H; subst p'. split; reflexivity.
Qed.
Lemma lrprop_stages d p p' : lrprop A d p = Ok p' ->
  exists th m p1 p2 p3 p4 a, #1 /? #3 = Ok th /\ pz p MDP = Some m /\
    ((m = 0%Z /\ p1 = p) \/ (m <> 0%Z /\ lr_setup A th p = Ok p1)) /\
    lr_dist A d p1 = Ok p2 /\ lr_los A p2 = Ok p3 /\ lr_scat A p3 = Ok p4 /\ getn p4 AREF = Ok a /\
    p' = setn p4 AREF (pymax a #0).
Proof.
  intro H. unfold lrprop in H.
  destruct (#1 /? #3) as [th|]; cbn [bind] in H; [|discriminate].
  destruct (getz p MDP) as [m|] eqn:M; cbn [bind] in H; [|discriminate].
  destruct (if negb (m =? 0)%Z then lr_setup A th p else Ok p) as [p1|] eqn:E1; cbn [bind] in H; [|discriminate].
  destruct (lr_dist A d p1) as [p2|] eqn:E2; cbn [bind] in H; [|discriminate].
  destruct (lr_los A p2) as [p3|] eqn:E3; cbn [bind] in H; [|discriminate].
  destruct (lr_scat A p3) as [p4|] eqn:E4; cbn [bind] in H; [|discriminate].
  destruct (getn p4 AREF) as [a|] eqn:E5; cbn [bind] in H; [|discriminate].
  exists th, m, p1, p2, p3, p4, a. apply pz_getz in M. inversion H; clear H.
  repeat (split; [reflexivity || assumption|]).
  split.
  { destruct (m =? 0)%Z eqn:Em; cbn [negb] in E1.
    - left. split; [lia | congruence].
    - right. split; [lia | assumption]. }
  repeat split; assumption.
Qed.
Lemma lrprop_p2p d p p' m : lrprop A d p = Ok p' -> pz p MDP = Some m -> (m < 0)%Z ->
  pz p' MDP = Some m /\ pn p' DIST = pn p DIST.
Proof.
  intros H M L.
  destruct (lrprop_stages d p p' H) as (th & m' & p1 & p2 & p3 & p4 & a & _ & M' & S & D & Lo & Sc & _ & ->).
  rewrite M in M'. inversion M'; subst m'.
  destruct S as [[S _]|[_ S]]; [lia|].
  assert (F1 := lr_setup_frame A th p p1 S).
  assert (M1 : pz p1 MDP = Some m) by (rewrite <- M; eapply lr_setup_mdp; eassumption).
  destruct (lr_dist_p2p d p1 p2 m D M1 L) as [M2 D2].
  assert (F3 := lr_los_frame A p2 p3 Lo). assert (F4 := lr_scat_frame A p3 p4 Sc).
  destruct F1 as [F1 _]. destruct F3 as [F3n [F3z _]]. destruct F4 as [F4n [F4z _]].
  cbn [pz pn setn nkey_eqb nkey_id Pos.eqb]. split.
  - rewrite F4z, F3z by (apply memz_nIn; reflexivity). assumption.
  - rewrite F4n, F3n by (apply memn_nIn; reflexivity). rewrite D2. apply F1. apply memn_nIn. reflexivity.
Qed.
Lemma lrprop_area d p p' m : lrprop A d p = Ok p' -> pz p MDP = Some m -> (0 <= m)%Z ->
  pz p' MDP = Some 0%Z /\ pn p' DIST = Some d.
Proof.
  intros H M L.
  destruct (lrprop_stages d p p' H) as (th & m' & p1 & p2 & p3 & p4 & a & _ & M' & S & D & Lo & Sc & _ & ->).
  rewrite M in M'. inversion M'; subst m'.
  assert (M1 : pz p1 MDP = Some m).
  { destruct S as [[_ ->]|[_ S]]; [assumption|]. rewrite <- M. eapply lr_setup_mdp; eassumption. }
  destruct (lr_dist_area d p1 p2 m D M1 L) as [M2 D2].
  assert (F3 := lr_los_frame A p2 p3 Lo). assert (F4 := lr_scat_frame A p3 p4 Sc).
  destruct F3 as [F3n [F3z _]]. destruct F4 as [F4n [F4z _]].
  cbn [pz pn setn nkey_eqb nkey_id Pos.eqb]. split.
  - rewrite F4z, F3z by (apply memz_nIn; reflexivity). assumption.
  - rewrite F4n, F3n by (apply memn_nIn; reflexivity). assumption.
Qed.

(** ** C03 *)
Lemma lrprop_kwx_setup d p p' m k :
  lrprop A d p = Ok p' -> pz p MDP = Some m -> m <> 0%Z -> pz p KWX = Some k -> (k <= 4)%Z ->
  exists wn hg0 hg1 the0 the1 dl0 dl1 ens gme zr zi dls0 dls1 dist dmin,
    (pn p WN = Some wn /\ pn p HG0 = Some hg0 /\ pn p HG1 = Some hg1 /\ pn p THE0 = Some the0 /\
     pn p THE1 = Some the1 /\ pn p DL0 = Some dl0 /\ pn p DL1 = Some dl1 /\ pn p ENS = Some ens /\
     pn p GME = Some gme /\ pn p ZGR = Some zr /\ pn p ZGI = Some zi) /\
    (pn p' DLS0 = Some dls0 /\ pn p' DLS1 = Some dls1 /\ pn p' DIST = Some dist /\ pn p' DMIN = Some dmin) /\
    pz p' KWX = Some (worst k (terminal_checks hg0 the0 dl0 dls0 dl1 ++ terminal_checks hg1 the1 dl1 dls1 dl1
                               ++ env_checks wn ens gme zr zi ++ dist_checks dist dmin)).
Proof.
  intros H M N K L.
  destruct (lrprop_stages d p p' H) as (th & m' & p1 & p2 & p3 & p4 & a & _ & M' & S & D & Lo & Sc & _ & ->).
  rewrite M in M'. inversion M'; subst m'; clear M'. destruct S as [[S _]|[_ S]]; [contradiction|].
  assert (S0 := S). unfold lr_setup in S.
  destruct (lr_geom A p) as [q1|] eqn:E1; cbn [bind] in S; [|discriminate].
  destruct (lr_checks A q1) as [q2|] eqn:E2; cbn [bind] in S; [|discriminate].
  assert (G1 := lr_geom_frame A p q1 E1). assert (G2 := lr_checks_frame A q1 q2 E2).
  assert (G3 := lr_diff_frame A th q2 p1 S).
  assert (K1 : pz q1 KWX = Some k).
  { destruct G1 as [_ [G1 _]]. rewrite G1; [assumption | apply memz_nIn; reflexivity]. }
  destruct (lr_checks_worst q1 q2 k E2 K1 L) as
    (wn & hg0 & hg1 & the0 & the1 & dl0 & dl1 & dls0 & dls1 & ens & gme & zr & zi & W).
  destruct W as (Ewn & Ehg0 & Ehg1 & Ethe0 & Ethe1 & Edl0 & Edl1 & Edls0 & Edls1 & Eens & Egme & Ezr & Ezi & W).
  set (k1 := worst k _) in W.
  assert (L1 : (k1 <= 4)%Z).
  { apply worst_range; [|assumption]. intros b c I. cbn in I. repeat destruct I as [I|I]; try contradiction; inversion I; lia. }
  assert (Kp1 : pz p1 KWX = Some k1).
  { destruct G3 as [_ [G3 _]]. rewrite G3 by (apply memz_nIn; reflexivity). rewrite W. reflexivity. }
  destruct (lr_dist_worst d p1 p2 k1 D Kp1 L1) as (mm & dist & _ & _ & dv & _ & Hd2 & _ & Wd).
  (* dmin is present after the set-up *)
  assert (DM : exists dmin, pn p1 DMIN = Some dmin).
  { clear -S. unfold lr_diff in S.
    destruct (getn q2 HE0) as [he0|]; cbn [bind] in S; [|discriminate].
    destruct (getn q2 HE1) as [he1|]; cbn [bind] in S; [|discriminate].
    destruct (n_abs (he0 - he1) /? 2 // 10) as [dmin|] eqn:Edm; cbn [bind] in S; [|discriminate].
    exists dmin. 
    destruct (adiff A #0 (setn q2 DMIN dmin)) as [[a0 r1]|] eqn:E0; cbn [bind] in S; [|discriminate].
    apply adiff_frame in E0. cbn [snd] in E0.
    assert (X : pn r1 DMIN = Some dmin).
    { destruct E0 as [E0 _]. rewrite E0; [reflexivity | apply memn_nIn; reflexivity]. }
    clear E0.
    destruct (getn r1 WN) as [wn|]; cbn [bind] in S; [|discriminate].
    destruct (getn r1 GME) as [gme|]; cbn [bind] in S; [|discriminate].
    destruct (n_powZ gme 2) as [g2|]; cbn [bind] in S; [|discriminate].
    destruct (n_pow (wn * g2) (- th)) as [xae|]; cbn [bind] in S; [|discriminate].
    dsimp_in S.
    destruct (getn r1 DLSA) as [dlsa|]; cbn [bind] in S; [|discriminate].
    destruct (getn r1 DLA) as [dla|]; cbn [bind] in S; [|discriminate].
    destruct (adiff A _ (setn r1 XAE xae)) as [[a3 r2]|] eqn:E0; cbn [bind] in S; [|discriminate].
    apply adiff_frame in E0. cbn [snd] in E0.
    assert (X2 : pn r2 DMIN = Some dmin).
    { destruct E0 as [E0 _]. rewrite E0; [exact X | apply memn_nIn; reflexivity]. }
    clear E0. destruct (adiff A _ r2) as [[a4 r3]|] eqn:E0; cbn [bind] in S; [|discriminate].
    apply adiff_frame in E0. cbn [snd] in E0.
    assert (X3 : pn r3 DMIN = Some dmin).
    { destruct E0 as [E0 _]. rewrite E0; [exact X2 | apply memn_nIn; reflexivity]. }
    destruct ((a4 - a3) /? _) as [emd|]; cbn [bind] in S; [|discriminate]. dsimp_in S.
    destruct (getn r3 DH) as [dh|]; cbn [bind] in S; [|discriminate].
    destruct ((wn * dh) /? _) as [t|]; cbn [bind] in S; [|discriminate].
    destruct (_ /? (21 // 1000 + t)) as [wis|]; cbn [bind] in S; [|discriminate].
    inversion S; subst p1. exact X3. }
  destruct DM as [dmin DM]. specialize (Wd dmin (fun _ => proj2 (pn_getn p1 DMIN dmin) DM)).
  assert (F3 := lr_los_frame A p2 p3 Lo). assert (F4 := lr_scat_frame A p3 p4 Sc).
  assert (F2 := lr_dist_frame A d p1 p2 D).
  exists wn, hg0, hg1, the0, the1, dl0, dl1, ens, gme, zr, zi, dls0, dls1, dv, dmin.
  assert (R : forall k0, memn k0 [DLS0; DLS1; DLSA; DLA; THA] = false -> pn q1 k0 = pn p k0).
  { intros k0 M0. destruct G1 as [G1 _]. apply G1. apply memn_nIn. assumption. }
  split.
  { repeat split; rewrite <- R by reflexivity; apply pn_getn; assumption. }
  assert (T : forall k0, memn k0 (AREF :: AK1 :: AK2 :: AEL :: lr_scat_keys) = false -> pn (setn p4 AREF (pymax a #0)) k0 = pn p2 k0).
  { intros k0 M0. cbn [pn setn]. cbn [memn existsb] in M0.
    assert (Q : nkey_eqb AREF k0 = false).
    { destruct (nkey_eqb AREF k0) eqn:Q; [|reflexivity]. apply nkey_eqb_eq in Q. subst k0. discriminate M0. }
    rewrite Q. destruct F3 as [F3 _]. destruct F4 as [F4 _].
    rewrite F4, F3; [reflexivity | |].
    - intro I. apply memn_In in I. cbn [memn existsb] in I.
      destruct k0; cbn in M0, I; congruence.
    - intro I. apply memn_In in I. destruct k0; cbn in M0, I; congruence. }
  assert (T2 : forall k0, memn k0 (DIST :: lr_diff_keys) = false -> pn p2 k0 = pn q1 k0).
  { intros k0 M0. destruct F2 as [F2 _]. destruct G3 as [G3 _]. destruct G2 as [G2 _].
    rewrite F2, G3, G2; [reflexivity | intros [] | |].
    - intro I. apply memn_In in I. destruct k0; cbn in M0, I; congruence.
    - intro I. apply memn_In in I. destruct k0; cbn in M0, I; congruence. }
  split.
  { repeat split; rewrite T by reflexivity.
    - rewrite T2 by reflexivity. apply pn_getn. assumption.
    - rewrite T2 by reflexivity. apply pn_getn. assumption.
    - apply pn_getn. assumption.
    - destruct F2 as [F2 _]. rewrite F2 by (apply memn_nIn; reflexivity). assumption. }
  cbn [pz setn]. destruct F3 as [_ [F3 _]]. destruct F4 as [_ [F4 _]].
  rewrite F4, F3 by (apply memz_nIn; reflexivity). rewrite Wd. reflexivity.
Qed.
End PfLrGen.
