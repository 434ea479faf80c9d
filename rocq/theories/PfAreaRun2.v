(** area.py: the loop over the distances returns unless some evaluation divides by zero. *)
From Coq Require Classical_Prop.
From Verif Require Import RInst Frame RTac SpecLr SpecQuant PfFrame PfLrGen PfRegime PfAtten PfAvarReal PfStats PfSetup PfRealRun SpecTotal PfTotal PfTotal2 PfTotal3 PfTotal4 PfAreaRun PfAreaGrid Scripts Stats LrProp Dict Arith.
Open Scope R_scope.

(** ** avar keeps the entries it finds *)
Definition zkeep {A : arith} (p q : prop A) : Prop := forall k, pz p k <> None -> pz q k <> None.
Lemma zkeep_refl {A : arith} (p : prop A) : zkeep p p. Proof. intros k H. exact H. Qed.
Lemma zkeep_trans {A : arith} (p q r : prop A) : zkeep p q -> zkeep q r -> zkeep p r. Proof. intros F G k H. apply G, F, H. Qed.
Lemma zkeep_setz {A : arith} (p q : prop A) j z : zkeep p q -> zkeep p (setz q j z).
Proof. intros F k H. unfold setz. cbn. destruct (zkey_eqb j k); [discriminate | apply F; exact H]. Qed.
Lemma zkeep_setn {A : arith} (p q : prop A) j z : zkeep p q -> zkeep p (setn q j z). Proof. intros F k H. exact (F k H). Qed.
Lemma zkeep_setb {A : arith} (p q : prop A) j z : zkeep p q -> zkeep p (setb q j z). Proof. intros F k H. exact (F k H). Qed.
Ltac zk := repeat first [apply zkeep_setz | apply zkeep_setn | apply zkeep_setb | assumption | apply zkeep_refl].
Section Keep.
Context (A : arith).
Lemma zk_klim p : wp (av_klim A p) (fun q => zkeep p q).
Proof.
  unfold av_klim. wstep fail. wstep fail. wstep fail.
  assert (G : forall l p0 k, wp (foldM (fun p kt => let! v := pyget (snd kt) k in Ok (setn p (fst kt) v)) l p0) (fun q : prop A => zkeep p0 q)).
  { induction l as [|[k0 t] l IH]; intros p0 k; cbn [foldM].
    - wstep fail. zk.
    - wstep fail. wstep fail. cbn [fst snd]. apply wp_any; intro v. wstep fail.
      eapply wp_conseq; [apply IH|]. intros q H' j J. apply H'. exact J. }
  destruct ((x <=? 0)%Z || (7 <? x)%Z);
    repeat match goal with
    | |- wp (foldM _ _ _) _ => eapply wp_conseq; [apply G|]; intros ? ?
    | _ => wstep fail
    end; (eapply zkeep_trans; [|eassumption]); zk.
Qed.
Lemma zk_mode p : wp (av_mode A p) (fun q => zkeep p q). Proof. unfold av_mode. repeat wstep fail; zk. Qed.
Lemma zk_freq p : wp (av_freq A p) (fun q => zkeep p q). Proof. unfold av_freq. repeat wstep fail; zk. Qed.
Lemma zk_he th p : wp (av_he A th p) (fun q => zkeep p q). Proof. unfold av_he. repeat wstep fail; zk. Qed.
Lemma zk_dist p : wp (av_dist A p) (fun q => zkeep p q). Proof. unfold av_dist. repeat wstep fail; zk. Qed.
Lemma zk_refresh th p : wp (av_refresh A th p) (fun q => zkeep p q).
Proof.
  unfold av_refresh.
  repeat match goal with
    | |- wp (av_klim _ _) _ => eapply wp_conseq; [apply zk_klim|]; intros ? ?
    | |- wp (av_mode _ _) _ => eapply wp_conseq; [apply zk_mode|]; intros ? ?
    | |- wp (av_freq _ _) _ => eapply wp_conseq; [apply zk_freq|]; intros ? ?
    | |- wp (av_he _ _ _) _ => eapply wp_conseq; [apply zk_he|]; intros ? ?
    | |- wp (av_dist _ _) _ => eapply wp_conseq; [apply zk_dist|]; intros ? ?
    | _ => wstep fail
    end; cbn beta in *; first [zk; fail | repeat (eapply zkeep_trans; [eassumption|]); zk].
Qed.
Lemma zk_quant a b c p : wp (av_quant A a b c p) (fun r => zkeep p (snd r)). Proof. unfold av_quant. repeat wstep fail; zk. Qed.
Lemma zk_avar a b c p : wp (avar A a b c p) (fun r => zkeep p (snd r)).
Proof.
  unfold avar. wstep fail. wstep fail. wstep fail. eapply wp_conseq; [apply zk_refresh|]. intros q H.
  eapply wp_conseq; [apply zk_quant|]. intros r H'. cbn beta in H'. eapply zkeep_trans; eassumption.
Qed.
End Keep.

(** ** The statistics between calls *)
Definition stat_on (p : prop RA) : Prop := stat_state p /\ exists lv kl md, pz p LVAR = Some lv /\ pz p KLIM = Some kl /\ pz p MDVAR = Some md.
Lemma stat_edit (p q : prop RA) : stat_state p -> agree_on cache_n [KLIM; KDV] [WS; WL] p q ->
  (forall lv, pz p LVAR = Some lv -> (4 < lv)%Z -> exists lv', pz q LVAR = Some lv' /\ (4 < lv')%Z) -> stat_state q.
Proof.
  intros S G L. destruct S as [p lv E B | p0 t l c a r p S H G0].
  - destruct (L lv E B) as (lv' & E' & B'). eapply st_full; eassumption.
  - eapply st_next; [exact S | exact H|]. destruct G0 as (a1 & a2 & a3), G as (b1 & b2 & b3).
    split; [intros k K; rewrite (a1 k K); apply b1; exact K|]. split; [intros k K; rewrite (a2 k K); apply b2; exact K | intros k K; rewrite (a3 k K); apply b3; exact K].
Qed.
Lemma stat_lvar (p : prop RA) lv : pz p LVAR = Some lv -> stat_on p -> stat_on (setz p LVAR (Z.max 1 lv)).
Proof.
  intros L (S & lv' & kl & md & _ & K & M). split; [|exists (Z.max 1 lv), kl, md; split; [reflexivity | split; assumption]].
  eapply stat_edit; [exact S| |].
  - split; [reflexivity|]. split; [|reflexivity]. intros k [<-|[<-|[]]]; reflexivity.
  - intros x X B. exists (Z.max 1 lv). split; [reflexivity|]. assert (x = lv) by congruence. lia.
Qed.
Lemma stat_lrprop (d : R) (p q : prop RA) : lrprop RA d p = Ok q -> stat_on p -> stat_on q.
Proof.
  intros E (S & lv & kl & md & L & K & M). apply (lrprop_frame RA) in E.
  split.
  - eapply stat_edit; [exact S| |].
    + split; [|split].
      * intros k I. symmetry. apply (fr_pn _ _ _ _ _ k E). cbn in I. repeat (destruct I as [<-|I]; [reflexivity|]). destruct I.
      * intros k I. symmetry. apply (fr_pz _ _ _ _ _ k E). cbn in I. repeat (destruct I as [<-|I]; [reflexivity|]). destruct I.
      * intros k I. symmetry. apply (fr_pb _ _ _ _ _ k E). cbn in I. repeat (destruct I as [<-|I]; [reflexivity|]). destruct I.
    + intros x X B. exists x. split; [|exact B]. rewrite <- X. apply (fr_pz _ _ _ _ _ LVAR E). reflexivity.
  - exists lv, kl, md. rewrite !(fr_pz _ _ _ _ _ _ E) by reflexivity. auto.
Qed.

(** ** One distance *)
Section Loop.
Context (v : nkey -> R).
Hypothesis PH : physical v.
Hypothesis RP : reference_params v false.
Hypothesis GK : ground_ok v.
Hypothesis RF : forall d, 0 < d -> reflects v d.
Hypothesis SA : 0 < scat_angle v (scat_d5 v).
Definition ongoing_at (m : Z) (p : prop RA) : Prop := mid_calls v p /\ pz p MDP = Some m /\ exists a, pn p AREF = Some a.
Definition ongoing : prop RA -> Prop := ongoing_at 0%Z.
Definition fresh (p : prop RA) : Prop := values p (ENS :: setup_inputs) v /\ pz p MDP = Some 1%Z /\ exists k, pz p KWX = Some k.
Lemma setup_flag (p q : prop RA) : lr_setup RA ((1 / 3)%R : num RA) p = Ok q -> pb q WSCAT = Some false.
Proof using.
  intro E. unfold lr_setup in E. apply bind_inv in E as [q1 [E1 E]]. apply bind_inv in E as [q2 [E2 E]].
  assert (X : pb q1 WSCAT = Some false).
  { unfold lr_geom in E1. do 7 (apply bind_inv in E1 as [? [_ E1]]). do 4 (apply bind_inv in E1 as [? [_ E1]]). apply ok_inj in E1. subst q1. reflexivity. }
  apply lr_checks_frame in E2. apply lr_diff_frame in E. rewrite (fr_pb _ _ _ _ _ _ E), (fr_pb _ _ _ _ _ _ E2) by reflexivity. exact X.
Qed.
Lemma lr_step (x : R) (p : prop RA) : 0 < x -> ongoing p \/ fresh p ->
  (runs_at v x /\ exists q, lrprop RA x p = Ok q /\ ongoing q /\ pn q DIST = Some x) \/ (~ runs_at v x /\ lrprop RA x p = Err ZeroDivisionError).
Proof using PH RP GK RF SA.
  intros X [(B & M & A)|(V & M & k & K)].
  - rewrite (lrprop_rest x p M). destruct (rest_exact v false PH RP RF x p 0%Z SA B M ltac:(lia) X (or_intror A)) as [(O & q & E & B' & M' & A' & D')|F]; [left|right; exact F].
    split; [exact O|]. exists q. split; [exact E|]. split; [split; [exact B' | split; assumption] | exact D'].
  - destruct (setup_core p v 1%Z k V M K PH GK RP) as (q & E & C & MQ & F & DQ). assert (FS := setup_flag p q E).
    rewrite (lrprop_setup_rest x p q 1%Z M ltac:(lia) E).
    destruct (rest_exact v false PH RP RF x q 1%Z) as [(O & r & Er & B' & M' & A' & D')|G]; [exact SA | | exact MQ | lia | exact X | left; exact F | left | right; exact G].
    + split; [exact C|]. split; intro; congruence.
    + split; [exact O|]. exists r. split; [exact Er|]. split; [split; [exact B' | split; assumption] | exact D'].
Qed.
Lemma mid_same nk zk bk (p q : prop RA) : same_except nk zk bk p q -> zkeep p q -> forallb (fun k => negb (memn k nk)) (all_keys ++ [ASCAT1; DX; AES; EMS]) = true ->
  negb (memb WLOS bk) = true -> negb (memb WSCAT bk) = true -> mid_calls v p -> mid_calls v q.
Proof using.
  intros F ZK N B1 B2 ((V & (k & K) & W & SC) & BL & BS). rewrite forallb_app in N. apply andb_true_iff in N as [N1 N2]. apply negb_true_iff in B1, B2.
  assert (E1 : pb q WLOS = pb p WLOS) by (apply (fr_pb _ _ _ _ _ WLOS F); exact B1). assert (E2 : pb q WSCAT = pb p WSCAT) by (apply (fr_pb _ _ _ _ _ WSCAT F); exact B2).
  assert (EN : forall j, In j [ASCAT1; DX; AES; EMS] -> pn q j = pn p j).
  { intros j J. rewrite forallb_forall in N2. specialize (N2 j J). apply negb_true_iff in N2. apply (fr_pn _ _ _ _ _ j F). exact N2. }
  split; [|rewrite E1, E2; split; assumption].
  split; [eapply values_keep; eassumption|]. split.
  - specialize (ZK KWX). rewrite K in ZK. destruct (pz q KWX) as [z|]; [eauto|]. exfalso. apply ZK; [discriminate | reflexivity].
  - rewrite E1, E2, (EN ASCAT1) by inks. split; [exact W|]. destruct SC as [SC|[SC H]]; [left; exact SC|]. right. split; [exact SC|].
    intros j J. rewrite EN by (right; exact J). apply H. exact J.
Qed.
Lemma avar_step_at m (t l c x : R) (p : prop RA) : 0 < x -> ongoing_at m p -> stat_on p -> pn p DIST = Some x ->
  exists a q, avar RA t l c p = Ok (a, q) /\ ongoing_at m q /\ stat_on q /\ pn q DIST = Some x.
Proof using PH.
  intros X ((C & BL & BS) & M & (a0 & A)) (S & lv & kl & md & L & KL & MD) D.
  assert (C' := C). destruct C' as (V & (k & K) & _). destruct PH as (W & G & DHp & G0 & G1 & H0 & H1 & L0 & L1 & Z).
  destruct (C27_total t l c p S) as (a & q & E).
  { exists lv, kl, k, md. do 4 (split; [assumption|]). exists (fun j => match j with DIST => x | AREF => a0 | _ => v j end).
    split; [|cbn; lra]. intros j J. cbn in J. repeat (destruct J as [<-|J]; [first [exact D | exact A | apply V; inks]|]). destruct J. }
  exists a, q. split; [exact E|].
  destruct (C27_effects RA t l c a p q lv E L) as [LQ F]. assert (ZK := zk_avar RA t l c p _ E). cbn [snd] in ZK.
  split; [|split].
  - split; [eapply mid_same; [exact F | exact ZK | reflexivity | reflexivity | reflexivity | split; [exact C | split; assumption]]|].
    split; [rewrite (fr_pz _ _ _ _ _ MDP F) by reflexivity; exact M | exists a0; rewrite (fr_pn _ _ _ _ _ AREF F) by reflexivity; exact A].
  - split; [eapply st_next; [exact S | exact E | split; [reflexivity | split; reflexivity]]|].
    specialize (ZK KLIM). rewrite KL in ZK. destruct (pz q KLIM) as [z|] eqn:Ez; [|exfalso; apply ZK; [discriminate | reflexivity]].
    do 3 eexists. split; [exact LQ|]. split; [first [exact Ez | reflexivity]|]. rewrite (fr_pz _ _ _ _ _ MDVAR F) by reflexivity. exact MD.
  - rewrite (fr_pn _ _ _ _ _ DIST F) by reflexivity. exact D.
Qed.
Lemma avar_step (t l c x : R) (p : prop RA) : 0 < x -> ongoing p -> stat_on p -> pn p DIST = Some x ->
  exists a q, avar RA t l c p = Ok (a, q) /\ ongoing q /\ stat_on q /\ pn q DIST = Some x.
Proof using PH. apply avar_step_at. Qed.
Lemma rows_step (D FS ZT ZL x : R) qz (p : prop RA) : 0 < x -> ongoing p -> stat_on p -> pn p DIST = Some x ->
  exists rows q, area_rows RA D FS ZT ZL qz p = Ok (rows, q) /\ length rows = length qz /\ ongoing q /\ stat_on q.
Proof using PH.
  intros X. revert p. induction qz as [|[qc zc] qz IH]; intros p O S E; cbn [area_rows]; [exists [], p; auto|].
  destruct (avar_step ZT ZL zc x p X O S E) as (a & q & Ea & O' & S' & E'). change (num RA) with R in *. rewrite Ea. cbn [bind].
  destruct (IH q O' S' E') as (rows & r & Er & LR & O2 & S2). rewrite Er. cbn [bind]. eexists _, r. split; [reflexivity|]. split; [cbn; f_equal; exact LR | split; assumption].
Qed.
Lemma loop_exact n JD NDC (D DT DS2 ZT ZL : R) qz (p : prop RA) : (forall d, In d (dists RA n JD NDC D DT DS2) -> 0 < d) -> ongoing p \/ fresh p -> stat_on p ->
  ((forall d, In d (dists RA n JD NDC D DT DS2) -> runs_at v (d * 1000)) /\ exists rows, area_loop RA n JD NDC D DT DS2 ZT ZL qz p = Ok rows) \/
  ((exists d, In d (dists RA n JD NDC D DT DS2) /\ ~ runs_at v (d * 1000)) /\ area_loop RA n JD NDC D DT DS2 ZT ZL qz p = Err ZeroDivisionError).
Proof using PH RP GK RF SA.
  revert JD D DT p. induction n as [|n IH]; intros JD D DT p P O S; cbn [area_loop dists]; cbv zeta; [left; split; [intros d [] | eauto]|].
  assert (PD : 0 < D) by (apply P; left; reflexivity). assert (PX : 0 < D * 1000) by lra.
  destruct S as (S & lv & kl & md & L & KM). rewrite (proj2 (pz_getz RA p LVAR lv) L). cbn [bind].
  assert (S1 := stat_lvar p lv L (conj S (ex_intro _ lv (ex_intro _ kl (ex_intro _ md (conj L KM)))))).
  assert (O1 : ongoing (setz p LVAR (Z.max 1 lv)) \/ fresh (setz p LVAR (Z.max 1 lv))) by (destruct O as [O|O]; [left; exact O | right; exact O]).
  set (p1 := setz p LVAR _) in *. clearbody p1. cbn [n_Z n_mul RA]. change (num RA) with R in *.
  destruct (lr_step (D * 1000) p1 PX O1) as [(OK & q & E & OQ & DQ)|(NO & E)]; rewrite E; cbn [bind].
  2: { right. split; [exists D; split; [left; reflexivity | exact NO] | reflexivity]. }
  assert (S2 := stat_lrprop _ _ _ E S1). assert (W : pn q WN = Some (v WN)) by (apply OQ; inks).
  rewrite (proj2 (pn_getn RA q WN _) W), (proj2 (pn_getn RA q DIST _) DQ). cbn [bind np_log RA n_lit].
  assert (PW : 0 < v WN) by apply PH. rewrite r_log_ok by (repeat apply Rmult_lt_0_compat; lra). cbn [bind].
  match goal with |- context [area_rows RA D ?fs ZT ZL qz q] => destruct (rows_step D fs ZT ZL (D * 1000) qz q PX OQ S2 DQ) as (rows & r & Er & LR & OR & SR) end.
  change (num RA) with R in *. rewrite Er. cbn [bind].
  set (DT' := if (JD + 1 =? NDC)%Z then DS2 else DT).
  destruct (IH (JD + 1)%Z (D + DT') DT' r) as [(F & rs & EL)|((d & Id & Nd) & EL)]; [intros d I; apply P; right; exact I | left; exact OR | exact SR | left | right].
  - split; [intros d [<-|I]; [exact OK | apply F; exact I]|]. exists (rows ++ rs). change (@n_add RA D DT') with (D + DT'). change (num RA) with R in *. rewrite EL. reflexivity.
  - split; [exists d; split; [right; exact Id | exact Nd]|]. change (@n_add RA D DT') with (D + DT'). change (num RA) with R in *. rewrite EL. reflexivity.
Qed.
End Loop.
