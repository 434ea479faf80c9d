(** The rows of pimter.py's table do not influence each other. *)
From Coq Require Import Lia Lra.
From Verif Require Import RInst Frame RTac SpecDict SpecLr SpecQuant SpecPrep SpecIgnored PfFrame PfLrGen PfPrepGen PfPrepReal PfAvarGen PfAvarApi PfAvarReal PfAreaRun2 PfReads PfPimter PfRegime Scripts Prep Stats LrProp Dict Arith.
Open Scope R_scope.

Definition prepared (p q : prop RA) : Prop := agree_on [HG0; GME; WN; ENS; ZGR; ZGI] [KLIM] [] p q /\ ppfl p = ppfl q.
Lemma qlrpfl_kwx (p q : prop RA) k : pz p KWX = Some k -> (k <= 4)%Z -> qlrpfl RA p = Ok q -> has_kwx RA q.
Proof.
  intros K L H. unfold qlrpfl in H. apply bind_inv in H as (p1 & E1 & H). apply bind_inv in H as (p2 & E2 & H). apply qlrpfl_geom_frame in E1. apply prep_control_frame in E2.
  assert (K2 : pz p2 KWX = Some k). { destruct E1 as [_ [E1 _]], E2 as [_ [E2 _]]. rewrite E2, E1; [assumption|intros []|]. cbn. intuition congruence. }
  destruct (kwx_lrprop RA 0 p2 q H k K2 L) as (k' & E & _). exists k'. exact E.
Qed.
Lemma loop_apart fm (zr zc : R) l : forall p p0 rows, prepared p p0 -> pz p KLIM = Some 5%Z -> pimter_loop RA fm zr zc l p = Ok rows ->
  forall i h row, nth_error l i = Some h -> nth_error rows i = Some row -> pimter_loop RA fm zr zc [h] p0 = Ok [row].
Proof.
  induction l as [|h l IH]; intros p p0 rows PR K H i h' row Hi Ri; [destruct i; discriminate Hi|]. cbn [pimter_loop] in H. cbv zeta in H.
  set (q := setz (setz (setz (setz (setn p HG1 h) LVAR 5) KWX 0) KLIMX 0) MDVARX 11) in *. set (q0 := setz (setz (setz (setz (setn p0 HG1 h) LVAR 5) KWX 0) KLIMX 0) MDVARX 11).
  apply bind_inv in H as (q1 & E & H). apply bind_inv in H as (wn & W & H). apply bind_inv in H as (dist & D & H). apply bind_inv in H as (t & T & H). apply bind_inv in H as ([a q2] & V & H). apply bind_inv in H as (rest & ER & H). apply ok_inj in H. subst rows.
  assert (F1 := qlrpfl_frame RA q q1 E). assert (F2 := avar_frame RA _ _ _ q1 _ V). cbn beta in F1, F2. cbn [snd] in F2.
  destruct (qlrpfl_control RA _ _ E) as (lv & mx & kx & L & M & X & _ & L' & M' & K'). cbn in L, M, X. injection L as <-. injection M as <-. injection X as <-. cbn in L', M', K'.
  assert (K1 : pz q1 KLIM = Some 5%Z) by (rewrite (proj1 K'); exact K).
  destruct (avar_klim_api RA _ _ _ _ _ _ _ _ V L' ltac:(lia) K1) as (_ & K2 & _). cbn in K2.
  destruct i as [|i].
  - cbn [nth_error] in Hi, Ri. injection Hi as <-. injection Ri as <-. cbn [pimter_loop]. cbv zeta. fold q0.
    assert (AG : agree_on qlrpfl_in [MDVARX; KLIMX] [] q q0).
    { destruct PR as ((P1 & P2 & _) & _). split; [|split; [|intros ? []]].
      - intros k I. cbn in I. repeat (destruct I as [<-|I]; [first [reflexivity | cbn; apply P1; cbn; tauto]|]). destruct I.
      - intros k I. cbn in I. repeat (destruct I as [<-|I]; [reflexivity|]). destruct I. }
    destruct (qlrpfl_rel RA q q0 q1 ltac:(apply r_eqb_true; reflexivity) AG (proj2 PR) ltac:(eexists; reflexivity) ltac:(eexists; reflexivity) ltac:(eexists; reflexivity) ltac:(eexists; reflexivity) E) as [Q _].
    destruct (Q (qlrpfl_regime _ _ E)) as (r1 & ER1 & (AG5 & _ & _ & AR) & (_ & CM & _)). clear Q.
    specialize (AR (qlrpfl_regime _ _ E)).
    destruct (qlrpfl_control RA _ _ ER1) as (lv & mx & kx & L & M & X & _ & L2 & M2 & K3). cbn in L, M, X. injection L as <-. injection M as <-. injection X as <-. cbn in L2, M2, K3.
    change (num RA) with R in *. rewrite ER1. cbn [bind]. rewrite <- (ag_getn _ _ _ q1 r1 WN AG5 eq_refl), <- (ag_getn _ _ _ q1 r1 DIST AG5 eq_refl), W, D. cbn [bind]. rewrite T. cbn [bind].
    assert (AV : agree_on base_n base_z [] q1 r1).
    { split; [|split; [|intros ? []]].
      - intros k I. cbn in I. repeat (destruct I as [<-|I]; [first [exact AR | apply (proj1 AG5); cbn; tauto]|]). destruct I.
      - intros k I. cbn in I. destruct I as [<-|[<-|[]]]; [|rewrite M', M2; reflexivity]. rewrite (proj1 K'), (proj1 K3). cbn. apply (proj1 (proj2 (proj1 PR))). left. reflexivity. }
    assert (SO := avar_fresh RA zr 0 zc q1 r1 5 5 AV (qlrpfl_kwx q q1 0 eq_refl ltac:(lia) E) (qlrpfl_kwx q0 r1 0 eq_refl ltac:(lia) ER1) L' L2 ltac:(lia) ltac:(lia)).
    change (num RA) with R in *. change (@n_Z RA 0) with 0 in V |- *. rewrite V in SO. destruct (avar RA zr 0 zc r1) as [[b r2]|]; cbn in SO; [subst b; cbn; reflexivity | contradiction].
  - cbn [nth_error] in Hi, Ri. eapply (IH q2 p0 rest); [|exact K2 | exact ER | exact Hi | exact Ri].
    destruct PR as ((P1 & P2 & _) & PF). split.
    + split; [|split; [|intros ? []]].
      * intros k I. rewrite <- (P1 k I). rewrite (fr_pn _ _ _ _ _ k F2) by (cbn in I; repeat (destruct I as [<-|I]; [reflexivity|]); destruct I). rewrite (fr_pn _ _ _ _ _ k F1) by (cbn in I; repeat (destruct I as [<-|I]; [reflexivity|]); destruct I).
        cbn in I; repeat (destruct I as [<-|I]; [reflexivity|]); destruct I.
      * intros k [<-|[]]. rewrite K2, <- K. apply P2. left. reflexivity.
    + destruct F1 as (_ & _ & _ & F1), F2 as (_ & _ & _ & F2). rewrite F2, F1. exact PF.
Qed.
Lemma pimter_apart (z dist : list R) rows : run_itmlogic RA z dist = Ok rows ->
  exists fm p zr, pimter_prepare RA z dist = Ok (fm, p) /\ pimter_dev RA = Ok zr /\
  forall i h row, nth_error (pimter_txht RA) i = Some h -> nth_error rows i = Some row -> pimter_loop RA fm zr zr [h] p = Ok [row].
Proof.
  unfold run_itmlogic. rewrite pimter_dev_value. cbn [bind]. intro H. apply bind_inv in H as ([fm p] & P & H). exists fm, p, (- (47533 / 10000))%R. split; [exact P|]. split; [reflexivity|].
  apply (loop_apart fm (- (47533 / 10000))%R (- (47533 / 10000))%R _ p p rows); [split; [apply ag_refl | reflexivity] | | exact H].
  unfold pimter_prepare in P. cbv zeta in P. unfold script_gme in P. cbv zeta in P. repeat (apply bind_inv in P as [? [? P]]; try (match type of P with (let '(_, _) := ?x in _) = _ => destruct x end)).
  repeat match goal with X : bind _ _ = Ok _ |- _ => apply bind_inv in X as [? [? X]] end. apply ok_pair in P as [_ ->]. cbn. repeat match goal with X : Ok _ = Ok ?x |- context [?x] => apply ok_inj in X; subst x end. reflexivity.
Qed.
