(** Answers of area.py and p2p.py over the exact reals, on one request each (PfRealScripts.v). *)
From Coq Require Import Lra Lia.
From Verif Require Import Frame SpecRegime Scripts RTac PfAvarReal PfRealRun PfTotal PfTotal3 PfAtten PfAreaRun2 PfAreaRun4 PfPathRun3 SpecAreaRun SpecPathRun PyFloat Cases PfPathCases PfRealScripts RInst Arith.
Open Scope R_scope.

Lemma hill_request : path_request (path_call 300 60 30 10 1) [0; 100; 0] 60 300 30 10 1.
Proof. apply path_call_request; try lra. cbn. lia. Qed.
Lemma hill_answered : exists out, itmlogic_p2p RA [0; 100; 0] (path_call 300 60 30 10 1) = Ok out.
Proof. destruct hill_prepared as (q & E & _). apply (prepared_answered _ _ 60 300 30 10 1 q); [exact hill_request | lra | exact E]. Qed.
Lemma area_case_request : area_request area_case 300 30 10 90.
Proof. apply area_call_request; lra. Qed.
Lemma area_case_answered : exists rows, itmlogic_area RA area_case = Ok rows.
Proof.
  destruct (prep_runs 2 2 area_case 300 30 10 90 area_case_request) as (q0 & q & v0 & E0 & E & V0 & RP0 & PH0 & GK0 & RF0 & SA0 & (_ & M & k & K) & _).
  destruct area_case_runs as (q' & E' & (r1 & X1 & _) & (r2 & X2 & _)). rewrite E0 in E'. cbn [bind] in E'. assert (q' = q) by congruence. subst q'.
  destruct (script_exact area_case 300 30 10 90 area_case_request) as (v & (RP & q0' & q' & A1 & A2 & V) & _ & _ & O).
  assert (q0' = q0) by congruence. subst q0'. assert (q' = q) by congruence. subst q'.
  assert (EQ : forall k, In k setup_inputs -> v0 k = v k) by (intros j I; assert (Y := V0 j (or_intror I)); assert (Z := V j (or_intror I)); congruence).
  assert (PH := physical_ext v0 v EQ PH0). assert (GK := ground_ext v0 v EQ GK0). assert (CO := ground_curve v false PH RP GK).
  assert (RF : forall y, 0 < y -> reflects v y).
  { intros y P. specialize (RF0 y P). unfold reflects, graze in *. rewrite <- (EQ ZGI), <- (EQ ZGR), <- (EQ HE0), <- (EQ HE1) by inks. exact RF0. }
  assert (SA : 0 < scat_angle v (scat_d5 v)).
  { assert (g := RP). destruct g as ((_ & _ & _ & g & _) & _). assert (g0 := RP0). destruct g0 as ((_ & _ & _ & g0 & _) & _). unfold scat_angle, scat_d5 in *. rewrite g0 in SA0. rewrite g. rewrite <- (EQ THE0), <- (EQ THE1), <- (EQ GME), <- (EQ DL0), <- (EQ DL1) by inks. exact SA0. }
  assert (ND : forall x r, 0 < x -> lrprop RA x q = Ok r -> ~ divides_by_zero v x).
  { intros x r P X D. destruct (first_call x x q v 1 k V M ltac:(lia) K PH RP eq_refl P RF (fun _ => SA)) as (_ & B & _). rewrite (B CO D) in X. discriminate X. }
  assert (N1 := ND 10000 r1 ltac:(lra) X1). assert (N2 := ND 500000 r2 ltac:(lra) X2).
  assert (NB : ~ (exists x, In x script_distances /\ divides_by_zero v (x * 1000))).
  { intros (x & I & D). assert (B : 10 <= x <= 500) by (unfold script_distances in I; cbn in I; repeat (destruct I as [<-|I]; [lra|]); destruct I).
    destruct D as [[L C]|[L C]]; [apply N1; left | apply N2; right]; (split; [lra | exact C]). }
  destruct (O NB) as (rows & H & _).
  exists rows. exact H.
Qed.
