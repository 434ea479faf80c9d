(** qlra and qlrpfl in any arithmetic: control entries, independence of earlier contents. *)
From Verif Require Import Frame SpecPrep Scripts PfFrame PfLrGen PfArea.

Section PfPrepGen.
Context (A : arith).
Implicit Types p q : prop A.
Local Open Scope num_scope.

(** * C42 *)
Lemma prep_control_spec m p q : prep_control A m p = Ok q ->
  exists lv mx kx, pz p LVAR = Some lv /\ pz p MDVARX = Some mx /\ pz p KLIMX = Some kx /\
    pz q MDP = Some m /\
    pz q LVAR = Some (if (0 <? kx)%Z then 5%Z else Z.max lv (if (0 <=? mx)%Z then 4 else 3)) /\
    pz q MDVAR = (if (0 <=? mx)%Z then Some mx else pz p MDVAR) /\
    pz q KLIM = (if (0 <? kx)%Z then Some kx else pz p KLIM) /\
    same_except [] [MDP; LVAR; MDVAR; KLIM] [] p q.
Proof.
  intro H. assert (F := prep_control_frame A m p q H). unfold prep_control in H.
  apply bind_inv in H as [lv [E1 H]]. dsimp_in E1. apply pz_getz in E1.
  apply bind_inv in H as [mx [E2 H]]. dsimp_in E2. apply pz_getz in E2.
  apply bind_inv in H as [p1 [E3 H]]. apply bind_inv in H as [kx [E4 H]].
  exists lv, mx, kx. split; [assumption|]. split; [assumption|].
  destruct (0 <=? mx)%Z.
  - dsimp_in E3. inversion E3; subst p1; clear E3. dsimp_in E4. apply pz_getz in E4. split; [assumption|].
    destruct (0 <? kx)%Z; inversion H; subst q; clear H;
      (do 4 (split; [cbn; try reflexivity; f_equal; lia|])); exact F.
  - inversion E3; subst p1; clear E3. dsimp_in E4. apply pz_getz in E4. split; [assumption|].
    destruct (0 <? kx)%Z; inversion H; subst q; clear H;
      (do 4 (split; [cbn; try reflexivity; f_equal; lia|])); exact F.
Qed.

(** * C44 *)
Definition hasz k p : Prop := exists v, pz p k = Some v.

Definition in1 : list nkey := [HE0; HE1; GME; DL0; DL1; THE0; THE1; HG0; HG1; WN; ENS; ZGR; ZGI; DH; DIST].
Definition in2 : list nkey := [DLS0; DLS1; DLSA; DLA; THA] ++ in1.
Definition in3 : list nkey := DMIN :: in2.
Definition in4 : list nkey := adiff_keys ++ in3.
Definition in5 : list nkey := [XAE; EMD; AED; WIS; ASCAT1] ++ in4.

Lemma lr_geom_rel p q : agree_on in1 [MDP] [] p q ->
  same_outcome (agree_on in2 [MDP] [WLOS; WSCAT]) (lr_geom A p) (lr_geom A q).
Proof.
  intro H. unfold lr_geom. repeat first [progress (dsimp; rewr_reads) | sostep fail].
  agrees.
Qed.
Lemma lr_checks_rel p q :
  agree_on in2 [MDP] [WLOS; WSCAT] p q -> hasz KWX p -> hasz KWX q ->
  same_outcome (fun p' q' => agree_on in2 [MDP] [WLOS; WSCAT] p' q') (lr_checks A p) (lr_checks A q).
Proof.
  intros H [kp Kp] [kq Kq]. unfold lr_checks.
  rewr_reads. apply so_bind_same; intro wn.
  rewrite (proj2 (pz_getz A p KWX kp) Kp), (proj2 (pz_getz A q KWX kq) Kq). cbn [bind].
  do 12 (apply so_bind_same; intro). cbn [same_outcome].
  destruct H as [H1 [H2 H3]]. split; [exact H1|]. split; [|exact H3].
  intros k [<-|[]]. cbn. apply H2. left. reflexivity.
Qed.
Lemma adiff_init_rel th p q : agree_on in3 [MDP] [WLOS; WSCAT] p q ->
  same_outcome (agree_on in4 [MDP] [WLOS; WSCAT]) (adiff_init A th p) (adiff_init A th q).
Proof.
  intro H. unfold adiff_init.
  repeat first [progress (dsimp; rewr_reads) | sostep fail]. agrees.
Qed.
Lemma adiff_rel0 p q : (@n_Z A 0 =? #0) = true -> agree_on in3 [MDP] [WLOS; WSCAT] p q ->
  same_outcome (fun r s => agree_on in4 [MDP] [WLOS; WSCAT] (snd r) (snd s)) (adiff A #0 p) (adiff A #0 q).
Proof.
  intros Z H. unfold adiff. apply so_bind_same; intro th. rewrite Z.
  eapply so_bind; [apply adiff_init_rel; exact H|]. intros a b G. exact G.
Qed.
Lemma adiff_init_rel' th nk p q : subn in4 nk = true -> agree_on nk [MDP] [WLOS; WSCAT] p q ->
  same_outcome (agree_on nk [MDP] [WLOS; WSCAT]) (adiff_init A th p) (adiff_init A th q).
Proof.
  intros S H.
  assert (G : agree_on in4 [MDP] [] p q).
  { eapply ag_weaken; [|exact H]. rewrite S. reflexivity. }
  unfold adiff_init.
  repeat first [progress (dsimp; rewr_reads) | sostep fail]. repeat apply ag_setn'. exact H.
Qed.
Lemma adiff_rel nk d p q : subn in4 nk = true -> agree_on nk [MDP] [WLOS; WSCAT] p q ->
  same_outcome (fun r s => fst r = fst s /\ agree_on nk [MDP] [WLOS; WSCAT] (snd r) (snd s)) (adiff A d p) (adiff A d q).
Proof.
  intros S H. unfold adiff. apply so_bind_same; intro th. destruct (d =? #0).
  - eapply so_bind; [apply adiff_init_rel'; eassumption|]. intros a b G. split; [reflexivity | exact G].
  - assert (G : agree_on in4 [MDP] [] p q).
    { eapply ag_weaken; [|exact H]. rewrite S. reflexivity. }
    rewrite (adiff_at_ext A th d p q) by agrees. apply so_bind_same; intro a. split; [reflexivity | exact H].
Qed.
Lemma lr_diff_rel th p q : (@n_Z A 0 =? #0) = true -> agree_on in2 [MDP] [WLOS; WSCAT] p q ->
  same_outcome (agree_on in5 [MDP] [WLOS; WSCAT]) (lr_diff A th p) (lr_diff A th q).
Proof.
  intros Z H. unfold lr_diff. rewr_reads. do 3 (apply so_bind_same; intro).
  eapply so_bind; [apply adiff_rel0; [exact Z|]; unfold in3; agrees|].
  intros [? p1] [? q1] H1. cbn [snd] in H1.
  rewr_reads. do 2 (apply so_bind_same; intro). do 2 (apply so_bind_same; intro). dsimp. rewr_reads.
  apply so_bind_same; intro. dsimp. rewr_reads. apply so_bind_same; intro.
  eapply so_bind; [apply (adiff_rel (XAE :: in4)); [reflexivity|]; agrees|].
  intros [d3 p2] [d3' q2] [E2 H2]. cbn [fst snd] in E2, H2. subst d3'.
  eapply so_bind; [apply (adiff_rel (XAE :: in4)); [reflexivity|exact H2]|].
  intros [d4 p3] [d4' q3] [E3 H3]. cbn [fst snd] in E3, H3. subst d4'.
  repeat first [progress (dsimp; rewr_reads) | sostep fail]. agrees.
Qed.
Lemma lr_setup_rel th p q : (@n_Z A 0 =? #0) = true -> agree_on in1 [MDP] [] p q -> hasz KWX p -> hasz KWX q ->
  same_outcome (fun p' q' => agree_on in5 [MDP] [WLOS; WSCAT] p' q') (lr_setup A th p) (lr_setup A th q).
Proof.
  intros Z H Kp Kq. unfold lr_setup.
  assert (X : same_outcome (fun p' q' => agree_on in2 [MDP] [WLOS; WSCAT] p' q' /\ hasz KWX p' /\ hasz KWX q')
    (lr_geom A p) (lr_geom A q)).
  { assert (R := lr_geom_rel p q H). destruct (lr_geom A p) as [p'|] eqn:E1, (lr_geom A q) as [q'|] eqn:E2; cbn in *; auto.
    apply lr_geom_frame in E1. apply lr_geom_frame in E2. destruct Kp as [kp Kp], Kq as [kq Kq].
    split; [assumption|]. split; [exists kp | exists kq]; rewrite <- ?Kp, <- ?Kq.
    - destruct E1 as [_ [E1 _]]. apply E1. intros [].
    - destruct E2 as [_ [E2 _]]. apply E2. intros []. }
  eapply so_bind; [exact X|]. intros p1 q1 [H1 [K1 K2]].
  eapply so_bind; [apply lr_checks_rel; eassumption|]. intros p2 q2 H2. cbn beta in H2.
  apply lr_diff_rel; assumption.
Qed.

(** The part of lrprop after the set-up, in the point-to-point mode. *)
Definition out_common : list nkey := in5.
(** Caches written by only one of the two regimes. *)
Definition los_caches : list nkey := [AK1; AK2; AEL; AREF].
Definition scat_caches : list nkey := [AD; RR; ETQ; H0S; EMS; DX; AES; AREF].

Lemma lr_dist_rel d p q : agree_on in5 [MDP] [WLOS; WSCAT] p q -> pz p MDP = Some (-1)%Z -> hasz KWX p -> hasz KWX q ->
  same_outcome (fun p' q' => agree_on in5 [MDP] [WLOS; WSCAT] p' q') (lr_dist A d p) (lr_dist A d q).
Proof.
  intros H M [kp Kp] [kq Kq]. unfold lr_dist. rewr_reads.
  assert (M' : pz q MDP = Some (-1)%Z) by (destruct H as [_ [H _]]; rewrite <- H; [assumption | cbn; auto]).
  rewrite (proj2 (pz_getz A q MDP _) M'). cbn [bind]. cbn [Z.leb Z.compare]. rewr_reads.
  apply so_bind_same; intro dist. destruct (dist >? #0); [|exact H].
  rewrite (proj2 (pz_getz A p KWX kp) Kp), (proj2 (pz_getz A q KWX kq) Kq). cbn [bind]. rewr_reads.
  apply so_bind_same; intro dmin. cbn [same_outcome].
  destruct H as [H1 [H2 H3]]. split; [exact H1|]. split; [|exact H3].
  intros k [<-|[]]. cbn. apply H2. left. reflexivity.
Qed.
Definition rel_los p q : Prop :=
  agree_on in5 [MDP] [WLOS; WSCAT] p q /\
  (pb p WLOS = Some true -> agree_on [AK1; AK2; AEL] [] [] p q) /\
  (pb p WLOS = Some true -> (exists d, pn p DIST = Some d /\ (d >? #0) = true) -> pn p AREF = pn q AREF).
Lemma lr_los_rel p q : agree_on in5 [MDP] [WLOS; WSCAT] p q -> pb p WLOS = Some false ->
  same_outcome rel_los (lr_los A p) (lr_los A q).
Proof.
  intros H W. unfold lr_los. rewr_reads. rewrite (lr_los_coeffs_ext A p q) by agrees.
  destruct (getn q DIST) as [dist|] eqn:Ed; [|reflexivity]. cbn [bind].
  assert (Ed' : pn p DIST = Some dist).
  { destruct H as [H _]. rewrite H by (apply memn_In; reflexivity). apply pn_getn. assumption. }
  apply so_bind_same; intro dlsa. destruct (dist <? dlsa).
  - rewrite <- (ag_getb _ _ _ p q WLOS H eq_refl), (proj2 (pb_getb A p WLOS _) W). cbn [bind].
    apply so_bind_same; intros [[ak1 ak2] ael]. destruct (dist >? #0) eqn:P.
    + apply so_bind_same; intro l. cbn [same_outcome]. split; [|split].
      * repeat apply ag_setn'. apply ag_setb. agrees.
      * intros _. agrees.
      * reflexivity.
    + cbn [same_outcome]. split; [|split].
      * apply ag_setb. repeat apply ag_setn'. agrees.
      * intros _. agrees.
      * intros _ [d [D1 D2]]. cbn in D1. rewrite Ed' in D1. inversion D1; subst. congruence.
  - cbn [same_outcome]. split; [exact H|]. split; congruence.
Qed.
Definition rel_run p q : Prop :=
  agree_on in5 [MDP] [WLOS; WSCAT] p q /\
  (pb p WLOS = Some true -> agree_on [AK1; AK2; AEL] [] [] p q) /\
  (pb p WSCAT = Some true -> agree_on [AD; RR; ETQ; H0S; EMS; DX; AES] [] [] p q) /\
  (pb p WSCAT = Some true \/ (pb p WLOS = Some true /\ exists d, pn p DIST = Some d /\ (d >? #0) = true) ->
   pn p AREF = pn q AREF).
Lemma lr_scat_setup_flag p q : lr_scat_setup A p = Ok q -> pb q WSCAT = Some true.
Proof.
  intro H. unfold lr_scat_setup in H.
  repeat match type of H with
    | (let (_, _) := ?x in _) = _ => destruct x
    | bind _ _ = Ok _ => apply bind_inv in H; destruct H as [? [_ H]]
    | Ok _ = Ok _ => inversion H; subst q
    end. reflexivity.
Qed.
Lemma scat_out_in5 : subn in5 (scat_out ++ in5) = true. Proof. reflexivity. Qed.
Lemma lr_scat_rel p q : rel_los p q -> pb p WSCAT = Some false ->
  same_outcome rel_run (lr_scat A p) (lr_scat A q).
Proof.
  intros [H [HL HA]] W. unfold lr_scat. rewr_reads.
  apply so_bind_same; intro dist. apply so_bind_same; intro dlsa.
  destruct ((dist <=? #0) || (dist >=? dlsa)).
  - rewrite <- (ag_getb _ _ _ p q WSCAT H eq_refl), (proj2 (pb_getb A p WSCAT _) W). cbn [bind].
    assert (R := lr_scat_setup_rel A p q ltac:(agrees)).
    destruct (lr_scat_setup A p) as [p1|] eqn:E1, (lr_scat_setup A q) as [q1|] eqn:E2; cbn [same_outcome] in R; try contradiction;
      [|cbn; congruence]. cbn [bind].
    assert (F1 := lr_scat_setup_frame A p p1 E1). assert (F2 := lr_scat_setup_frame A q q1 E2).
    assert (K : agree_on in5 [MDP] [WLOS; WSCAT] p1 q1).
    { destruct R as [R1 [R2 R3]]. destruct F1 as [F1 [F1z [F1b _]]], F2 as [F2 [F2z [F2b _]]]. destruct H as [H1 [H2 H3]].
      split; [|split].
      - intros k I. destruct (memn k lr_scat_keys) eqn:B.
        + apply R1. apply memn_In in B. unfold scat_out, scat_in. cbn in B |- *. intuition.
        + apply memn_nIn in B. rewrite F1, F2 by assumption. auto.
      - intros k I. rewrite F1z, F2z by (intros []). auto.
      - intros k I. destruct (memb k [WSCAT]) eqn:B.
        + apply R3. apply memb_In. assumption.
        + apply memb_nIn in B. rewrite F1b, F2b by assumption. auto. }
    rewr_reads.
    assert (U : forall v, rel_run (setn p1 AREF v) (setn q1 AREF v)).
    { intro v. split; [apply ag_setn'; exact K|]. split; [|split].
      - intro Wl. cbn in Wl. destruct F1 as [F1 [_ [F1b _]]], F2 as [F2 [_ [F2b _]]].
        rewrite F1b in Wl by (cbn; intuition congruence). specialize (HL Wl). apply ag_setn'.
        destruct HL as [HL _]. split; [|split; intros k []]. intros k I. rewrite F1, F2; [auto| |];
          cbn in I |- *; intuition (subst; congruence).
      - intros _. apply ag_setn'. eapply ag_weaken; [|exact R]. reflexivity.
      - reflexivity. }
    apply so_bind_same; intro dx. destruct (dist >? dx).
    + do 2 (apply so_bind_same; intro). cbn [same_outcome]. apply U.
    + do 2 (apply so_bind_same; intro). cbn [same_outcome]. apply U.
  - cbn [same_outcome]. split; [exact H|]. split; [exact HL|]. split; [congruence|].
    intros [X|[X Y]]; [congruence|]. apply HA; assumption.
Qed.

Definition decided p : Prop :=
  pb p WSCAT = Some true \/ (pb p WLOS = Some true /\ exists d, pn p DIST = Some d /\ (d >? #0) = true).
Lemma lrprop_rel d p q p' : (@n_Z A 0 =? #0) = true -> agree_on in1 [MDP] [] p q -> pz p MDP = Some (-1)%Z ->
  hasz KWX p -> hasz KWX q -> lrprop A d p = Ok p' -> 
  (decided p' -> exists q', lrprop A d q = Ok q' /\ rel_run p' q') /\
  (forall q', lrprop A d q = Ok q' -> rel_run p' q').
Proof.
  intros Z H M Kp Kq Hp.
  destruct (lrprop_stages A d p p' Hp) as (th & m & p1 & p2 & p3 & p4 & a & T & M' & S & D & Lo & Sc & Ea & ->).
  rewrite M in M'. inversion M'; subst m. destruct S as [[? _]|[_ S]]; [discriminate|].
  assert (Mq : pz q MDP = Some (-1)%Z) by (destruct H as [_ [H _]]; rewrite <- H; [assumption | cbn; auto]).
  assert (R1 := lr_setup_rel th p q Z H Kp Kq). rewrite S in R1.
  destruct (lr_setup A th q) as [q1|] eqn:Sq; cbn [same_outcome] in R1; [|contradiction].
  destruct (lr_setup_flags A th p p1 S) as [Ws Wl]. apply pb_getb in Ws. apply pb_getb in Wl.
  assert (hasz KWX p1) as Kp1 by (destruct (lr_setup_kwx A th p p1 S) as [k E]; exists k; apply pz_getz; assumption).
  assert (hasz KWX q1) as Kq1 by (destruct (lr_setup_kwx A th q q1 Sq) as [k E]; exists k; apply pz_getz; assumption).
  assert (M1 : pz p1 MDP = Some (-1)%Z).
  { rewrite <- M. apply lr_setup_frame in S. destruct S as [_ [S _]]. apply S. cbn. intuition congruence. }
  assert (R2 := lr_dist_rel d p1 q1 R1 M1 Kp1 Kq1). rewrite D in R2.
  destruct (lr_dist A d q1) as [q2|] eqn:Dq; cbn [same_outcome] in R2; [|contradiction].
  assert (FD := lr_dist_frame A d p1 p2 D). destruct FD as [_ [_ [FD _]]].
  assert (Ws2 : pb p2 WSCAT = Some false) by (rewrite FD by (intros []); assumption).
  assert (Wl2 : pb p2 WLOS = Some false) by (rewrite FD by (intros []); assumption).
  assert (R3 := lr_los_rel p2 q2 R2 Wl2). rewrite Lo in R3.
  destruct (lr_los A q2) as [q3|] eqn:Lq; cbn [same_outcome] in R3; [|contradiction].
  assert (FL := lr_los_frame A p2 p3 Lo). destruct FL as [_ [_ [FL _]]].
  assert (Ws3 : pb p3 WSCAT = Some false) by (rewrite FL by (cbn; intuition congruence); assumption).
  assert (R4 := lr_scat_rel p3 q3 R3 Ws3). rewrite Sc in R4.
  destruct (lr_scat A q3) as [q4|] eqn:Scq; cbn [same_outcome] in R4; [|contradiction].
  assert (Run : forall q', lrprop A d q = Ok q' <-> exists b, getn q4 AREF = Ok b /\ q' = setn q4 AREF (pymax b #0)).
  { intro q'. unfold lrprop. rewrite T. cbn [bind]. rewrite (proj2 (pz_getz A q MDP _) Mq). cbn [bind Z.eqb negb].
    rewrite Sq. cbn [bind]. rewrite Dq. cbn [bind]. rewrite Lq. cbn [bind]. rewrite Scq. cbn [bind].
    destruct (getn q4 AREF) as [b|]; cbn [bind]; split.
    - intro E. inversion E. eauto.
    - intros [b' [E ->]]. inversion E. reflexivity.
    - discriminate.
    - intros [b' [E _]]. discriminate. }
  destruct R4 as [K1 [K2 [K3 K4]]].
  assert (Rel : forall b, (decided p4 -> b = a) -> rel_run (setn p4 AREF (pymax a #0)) (setn q4 AREF (pymax b #0))).
  { intros b Hb. split; [|split; [|split]].
    - destruct K1 as [X [Y V]]. split; [|split; assumption]. intros k I. cbn.
      destruct (nkey_eqb AREF k) eqn:E; [|auto]. apply nkey_eqb_eq in E. subst k. exfalso. clear -I. cbn in I. intuition congruence.
    - intro W. specialize (K2 W). destruct K2 as [X _]. split; [|split; intros k []]. intros k I. cbn.
      destruct (nkey_eqb AREF k) eqn:E; [|auto]. apply nkey_eqb_eq in E. subst k. exfalso. clear -I. cbn in I. intuition congruence.
    - intro W. specialize (K3 W). destruct K3 as [X _]. split; [|split; intros k []]. intros k I. cbn.
      destruct (nkey_eqb AREF k) eqn:E; [|auto]. apply nkey_eqb_eq in E. subst k. exfalso. clear -I. cbn in I. intuition congruence.
    - intro W. cbn. rewrite Hb; [reflexivity|]. exact W. }
  split.
  - intro Dc. change (decided p4) in Dc.
    assert (E := K4 Dc). assert (Eq : getn q4 AREF = Ok a) by (apply pn_getn; rewrite <- E; apply pn_getn; assumption).
    exists (setn q4 AREF (pymax a #0)). split; [apply Run; eauto|]. apply Rel. reflexivity.
  - intros q' Hq. apply Run in Hq as [b [Eb ->]]. apply Rel. intro Dc.
    assert (E := K4 Dc). apply pn_getn in Eb. apply pn_getn in Ea. congruence.
Qed.

(** qlrpfl: two dictionaries agreeing on the inputs. *)
Definition qlrpfl_in : list nkey := [HG0; HG1; GME; WN; ENS; ZGR; ZGI].
Definition rel_ctl p q : Prop :=
  pz p MDP = pz q MDP /\
  (forall mx, pz p MDVARX = Some mx -> (0 <= mx)%Z -> pz p MDVAR = pz q MDVAR) /\
  (forall kx, pz p KLIMX = Some kx -> (0 < kx)%Z -> pz p KLIM = pz q KLIM /\ pz p LVAR = pz q LVAR).
Lemma qlrpfl_geom_rel p q : agree_on qlrpfl_in [MDVARX; KLIMX] [] p q -> ppfl p = ppfl q ->
  same_outcome (agree_on in1 [MDVARX; KLIMX] []) (qlrpfl_geom A p) (qlrpfl_geom A q).
Proof.
  intros H P. unfold qlrpfl_geom. replace (getpfl p) with (getpfl q) by (unfold getpfl; rewrite P; reflexivity).
  dsimp. rewr_reads. apply so_bind_same; intro f.
  repeat first [progress (dsimp; rewr_reads) | apply so_bind_same; intro].
  repeat match goal with |- context [let (_, _) := ?x in _] => destruct x end.
  repeat first [progress (dsimp; rewr_reads) | apply so_bind_same; intro].
  repeat match goal with |- context [let (_, _) := ?x in _] => destruct x end.
  cbn [same_outcome]. agrees.
Qed.
Lemma prep_control_rel m p q : agree_on in1 [MDVARX; KLIMX] [] p q -> hasz LVAR p -> hasz LVAR q ->
  same_outcome (fun p' q' => agree_on in1 [MDP] [] p' q' /\ rel_ctl p' q' /\ pz p' MDP = Some m)
    (prep_control A m p) (prep_control A m q).
Proof.
  intros H [lp Lp] [lq Lq]. unfold prep_control. dsimp.
  rewrite (proj2 (pz_getz A p LVAR _) Lp), (proj2 (pz_getz A q LVAR _) Lq). cbn [bind]. dsimp. rewr_reads.
  destruct (getz q MDVARX) as [mx|] eqn:Em; [|reflexivity]. cbn [bind].
  destruct (getz q KLIMX) as [kx|] eqn:Ek.
  2:{ destruct (0 <=? mx)%Z; cbn [bind]; dsimp; cbn [bind]; dsimp; rewr_reads; rewrite Ek; reflexivity. }
  assert (Ep : pz p MDVARX = Some mx).
  { destruct H as [_ [H _]]. rewrite H by (cbn; auto). apply pz_getz. assumption. }
  assert (Kp : pz p KLIMX = Some kx).
  { destruct H as [_ [H _]]. rewrite H by (cbn; auto). apply pz_getz. assumption. }
  assert (H' := H). destruct H' as [H1 _].
  destruct (0 <=? mx)%Z eqn:Bm; cbn [bind]; dsimp; cbn [bind]; dsimp; rewr_reads; rewrite Ek; cbn [bind];
    destruct (0 <? kx)%Z eqn:Bk; cbn [same_outcome].
  all: split; [split; [exact H1|split; [intros k [<-|[]]; reflexivity|intros k []]]|].
  all: split; [|reflexivity].
  all: split; [reflexivity|split].
  all: try (intros mx' E L; cbn in E; rewrite Ep in E; inversion E; subst mx'; try (exfalso; lia); reflexivity).
  all: intros kx' E L; cbn in E; rewrite Kp in E; inversion E; subst kx'; try (exfalso; lia); split; reflexivity.
Qed.
Definition rel_qlrpfl p q : Prop := rel_run p q /\ rel_ctl p q.
Lemma qlrpfl_rel p q p' : (@n_Z A 0 =? #0) = true -> agree_on qlrpfl_in [MDVARX; KLIMX] [] p q -> ppfl p = ppfl q ->
  hasz KWX p -> hasz KWX q -> hasz LVAR p -> hasz LVAR q -> qlrpfl A p = Ok p' ->
  (decided p' -> exists q', qlrpfl A q = Ok q' /\ rel_qlrpfl p' q') /\
  (forall q', qlrpfl A q = Ok q' -> rel_qlrpfl p' q').
Proof.
  intros Z H P Kp Kq Lp Lq Hp. unfold qlrpfl in Hp.
  apply bind_inv in Hp as [p1 [E1 Hp]]. apply bind_inv in Hp as [p2 [E2 Hp]].
  assert (R1 := qlrpfl_geom_rel p q H P). rewrite E1 in R1.
  destruct (qlrpfl_geom A q) as [q1|] eqn:Q1; cbn [same_outcome] in R1; [|contradiction].
  assert (F1 := qlrpfl_geom_frame A p p1 E1). assert (G1 := qlrpfl_geom_frame A q q1 Q1).
  assert (hs : forall k, (hasz k p -> hasz k p1) /\ (hasz k q -> hasz k q1)).
  { intro k. destruct F1 as [_ [F1 _]], G1 as [_ [G1 _]]. split; intros [v V]; exists v.
    - rewrite F1 by (intros []). assumption.
    - rewrite G1 by (intros []). assumption. }
  assert (R2 := prep_control_rel (-1)%Z p1 q1 R1 (proj1 (hs LVAR) Lp) (proj2 (hs LVAR) Lq)). rewrite E2 in R2.
  destruct (prep_control A (-1) q1) as [q2|] eqn:Q2; cbn [same_outcome] in R2; [|contradiction].
  destruct R2 as [R2 [C2 M2]].
  assert (F2 := prep_control_frame A _ p1 p2 E2). assert (G2 := prep_control_frame A _ q1 q2 Q2).
  assert (K2 : hasz KWX p2).
  { destruct (proj1 (hs KWX) Kp) as [v V]. exists v. destruct F2 as [_ [F2 _]]. rewrite F2; [assumption|]. cbn. intuition congruence. }
  assert (K2' : hasz KWX q2).
  { destruct (proj2 (hs KWX) Kq) as [v V]. exists v. destruct G2 as [_ [G2 _]]. rewrite G2; [assumption|]. cbn. intuition congruence. }
  destruct (lrprop_rel #0 p2 q2 p' Z R2 M2 K2 K2' Hp) as [X1 X2].
  assert (C : forall q', lrprop A #0 q2 = Ok q' -> rel_ctl p' q').
  { intros q' Hq. assert (Fp := lrprop_frame A _ _ _ Hp). assert (Fq := lrprop_frame A _ _ _ Hq).
    assert (Mp : pz p' MDP = Some (-1)%Z) by (eapply lrprop_p2p; eassumption || lia).
    assert (Mq2 : pz q2 MDP = Some (-1)%Z) by (destruct C2 as [C2 _]; congruence).
    assert (Mq : pz q' MDP = Some (-1)%Z) by (eapply lrprop_p2p; eassumption || lia).
    destruct Fp as [_ [Fp _]], Fq as [_ [Fq _]]. destruct C2 as [C2a [C2b C2c]]. split; [congruence|].
    split.
    - intros mx E L. rewrite Fp in E by (cbn; intuition congruence).
      rewrite Fp, Fq by (cbn; intuition congruence). eauto.
    - intros kx E L. rewrite Fp in E by (cbn; intuition congruence). specialize (C2c kx E L).
      rewrite !Fp, !Fq by (cbn; intuition congruence). assumption. }
  assert (U : forall q', qlrpfl A q = Ok q' <-> lrprop A #0 q2 = Ok q').
  { intro q'. unfold qlrpfl. rewrite Q1. cbn [bind]. rewrite Q2. cbn [bind]. reflexivity. }
  split.
  - intro Dc. destruct (X1 Dc) as [q' [Hq Rq]]. exists q'. split; [apply U; assumption|]. split; auto.
  - intros q' Hq. apply U in Hq. split; auto.
Qed.

Lemma rel_same_results p q : rel_qlrpfl p q -> same_results p q.
Proof.
  intros [[R1 [R2 [R3 R4]]] [C1 [C2 C3]]]. split; [|split; [|split; [|split; [|split]]]]; try assumption.
  eapply ag_weaken; [|exact R1]. reflexivity.
Qed.
Lemma qlrpfl_same p q p' : (@n_Z A 0 =? #0) = true ->
  agree_on qlrpfl_inputs qlrpfl_controls [] p q -> ppfl p = ppfl q ->
  has KWX p -> has KWX q -> has LVAR p -> has LVAR q -> qlrpfl A p = Ok p' ->
  (regime_decided p' -> exists q', qlrpfl A q = Ok q' /\ same_results p' q') /\
  (forall q', qlrpfl A q = Ok q' -> same_results p' q').
Proof.
  intros Z H P K1 K2 L1 L2 Hp.
  destruct (qlrpfl_rel p q p' Z H P K1 K2 L1 L2 Hp) as [X Y]. split.
  - intro D. destruct (X D) as [q' [E R]]. exists q'. split; [assumption | apply rel_same_results; assumption].
  - intros q' E. apply rel_same_results. auto.
Qed.

(** * C42 for the two routines *)
Lemma qlra_control k0 k1 p q : qlra A k0 k1 p = Ok q ->
  exists lv mx kx, pz p LVAR = Some lv /\ pz p MDVARX = Some mx /\ pz p KLIMX = Some kx /\
    pz q MDP = Some 1%Z /\
    pz q LVAR = Some (if (0 <? kx)%Z then 5%Z else Z.max lv (if (0 <=? mx)%Z then 4 else 3)) /\
    pz q MDVAR = (if (0 <=? mx)%Z then Some mx else pz p MDVAR) /\
    pz q KLIM = (if (0 <? kx)%Z then Some kx else pz p KLIM) /\
    same_except [HE0; HE1; DL0; DL1; THE0; THE1] [MDP; LVAR; MDVAR; KLIM] [] p q.
Proof.
  intro H. assert (F := qlra_frame A k0 k1 p q H). unfold qlra in H.
  repeat match type of H with
    | bind _ _ = Ok _ => apply bind_inv in H; destruct H as [? [_ H]]
    | (let (_, _) := ?x in _) = Ok _ => destruct x
    end.
  apply prep_control_spec in H as (lv & mx & kx & X1 & X2 & X3 & X4 & X5 & X6 & X7 & _).
  exists lv, mx, kx. cbn in X1, X2, X3, X6, X7. auto 10.
Qed.
Lemma qlrpfl_parts p q : qlrpfl A p = Ok q -> exists p1 p2,
  qlrpfl_geom A p = Ok p1 /\ prep_control A (-1) p1 = Ok p2 /\ lrprop A #0 p2 = Ok q.
Proof.
  unfold qlrpfl. intro H. apply bind_inv in H as [p1 [E1 H]]. apply bind_inv in H as [p2 [E2 H]]. eauto.
Qed.
Lemma qlrpfl_control p q : qlrpfl A p = Ok q ->
  exists lv mx kx, pz p LVAR = Some lv /\ pz p MDVARX = Some mx /\ pz p KLIMX = Some kx /\
    pz q MDP = Some (-1)%Z /\
    pz q LVAR = Some (if (0 <? kx)%Z then 5%Z else Z.max lv (if (0 <=? mx)%Z then 4 else 3)) /\
    pz q MDVAR = (if (0 <=? mx)%Z then Some mx else pz p MDVAR) /\
    pz q KLIM = (if (0 <? kx)%Z then Some kx else pz p KLIM) /\
    same_except (AREF :: path_keys ++ los_keys ++ scatter_keys) [KWX; MDP; LVAR; MDVAR; KLIM] [WLOS; WSCAT] p q.
Proof.
  intro H. assert (F := qlrpfl_frame A p q H). apply qlrpfl_parts in H as (p1 & p2 & E1 & E2 & E3).
  assert (F1 := qlrpfl_geom_frame A p p1 E1). assert (F3 := lrprop_frame A _ _ _ E3).
  apply prep_control_spec in E2 as (lv & mx & kx & X1 & X2 & X3 & X4 & X5 & X6 & X7 & _).
  exists lv, mx, kx. destruct F1 as [_ [F1 _]]. rewrite F1 in X1, X2, X3 by (intros []).
  rewrite !F1 in X6, X7 by (intros []).
  destruct (lrprop_p2p A _ _ _ _ E3 X4 ltac:(lia)) as [M _].
  destruct F3 as [_ [F3 _]]. rewrite (F3 LVAR), (F3 MDVAR), (F3 KLIM) by (cbn; intuition congruence).
  do 7 (split; [assumption|]). eapply fr_weaken; [|exact F]. reflexivity.
Qed.
Lemma lr_dist_has d p q : has KWX p -> lr_dist A d p = Ok q -> has KWX q.
Proof.
  intros [k K] H. unfold lr_dist in H. apply bind_inv in H as [m [M H]].
  set (p1 := if (0 <=? m)%Z then _ else p) in H.
  assert (K1 : pz p1 KWX = Some k) by (unfold p1; destruct (0 <=? m)%Z; exact K).
  apply bind_inv in H as [dist [D H]].
  destruct (dist >? #0); [|inversion H; subst; exists k; assumption].
  rewrite (proj2 (pz_getz A p1 KWX _) K1) in H. cbn [bind] in H.
  apply bind_inv in H as [dmin [_ H]]. inversion H. eexists. reflexivity.
Qed.
Lemma qlrpfl_again p p' : (@n_Z A 0 =? #0) = true -> has KWX p -> qlrpfl A p = Ok p' -> regime_decided p' ->
  exists p'', qlrpfl A p' = Ok p'' /\ same_results p' p''.
Proof.
  intros Z K H D. destruct (qlrpfl_control p p' H) as (lv & mx & kx & L & _ & _ & _ & L' & _ & _ & F).
  assert (KW : has KWX p').
  { apply qlrpfl_parts in H as (p1 & p2 & E1 & E2 & E3). apply qlrpfl_geom_frame in E1. apply prep_control_frame in E2.
    assert (K2 : has KWX p2).
    { destruct K as [k K]. exists k. destruct E1 as [_ [E1 _]], E2 as [_ [E2 _]]. rewrite E2, E1; [assumption|intros []|].
      cbn. intuition congruence. }
    destruct (lrprop_stages A _ _ _ E3) as (th & m & r1 & r2 & r3 & r4 & a & _ & M & S & Di & Lo & Sc & _ & ->).
    assert (R1 : has KWX r1).
    { destruct S as [[_ ->]|[_ S]]; [assumption|]. destruct (lr_setup_kwx A th p2 r1 S) as [k E]. exists k. apply pz_getz. assumption. }
    destruct (lr_dist_has _ _ _ R1 Di) as [k R2]. exists k. cbn.
    apply lr_los_frame in Lo. apply lr_scat_frame in Sc. destruct Lo as [_ [Lo _]], Sc as [_ [Sc _]].
    rewrite Sc, Lo by (intros []). assumption. }
  apply (qlrpfl_same p p' p'); try assumption.
  - destruct F as [Fn [Fz _]]. split; [|split].
    + intros k I. symmetry. apply Fn. clear - I. cbn in I |- *. intuition (subst; congruence).
    + intros k I. symmetry. apply Fz. clear - I. cbn in I |- *. intuition (subst; congruence).
    + intros k [].
  - destruct F as [_ [_ [_ F]]]. symmetry. assumption.
  - exists lv. assumption.
  - eexists. exact L'.
Qed.
End PfPrepGen.
