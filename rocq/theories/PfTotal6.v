(** Area mode: qlra and lrprop are defined on everyday inputs. *)
From Interval Require Import Tactic.
From Verif Require Import RInst Frame RTac PfFrame PfLrGen PfRegime PfAtten PfAvarReal PfStats PfRealRun SpecTotal PfSetup PfTotal PfTotal2 PfTotal3 PfTotal4 SpecLr Prep LrProp Arith.
Open Scope R_scope.

Lemma ifmax a b : (if r_ltb a b then b else a) = Rmax a b.
Proof. unfold r_ltb. destruct (Rlt_dec a b); [rewrite Rmax_right | rewrite Rmax_left]; lra. Qed.
Lemma ifmin a b : (if r_ltb b a then b else a) = Rmin a b.
Proof. unfold r_ltb. destruct (Rlt_dec b a); [rewrite Rmin_right | rewrite Rmin_left]; lra. Qed.
Lemma he_total kst (hg dh : R) : 0.5 <= hg <= 3000 -> 0 <= dh -> exists he, qlra_he RA kst hg dh = Ok he /\ hg <= he <= 3010.
Proof.
  intros H D. unfold qlra_he. destruct (kst <=? 0)%Z; [exists hg; split; [reflexivity | lra]|].
  set (q0 := if negb _ then _ else _). assert (Q0 : 0 <= q0 <= 9) by (unfold q0; destruct (negb _); cbn; lra). clearbody q0.
  match goal with |- context [bind ?m _] => assert (exists q : R, m = Ok q /\ 0 <= q <= 9) as (q & E & Q) end.
  { runfold. unfold r_ltb. destruct (Rlt_dec hg 5) as [L|L]; [|exists q0; split; [reflexivity | lra]]. eexists. split; [reflexivity|].
    assert (S : 0 <= sin (3141593 / 10000000 * hg) <= 1) by (split; [interval with (i_prec 53) | apply SIN_bound]). nra. }
  rewrite E. cbn [bind]. clear E. runfold.
  rewrite ifmax. assert (PM : 0 < Rmax (1 / 1000) dh) by (eapply Rlt_le_trans; [|apply Rmax_l]; lra).
  rewrite r_div_ok by lra. cbn [bind]. eexists. split; [reflexivity|].
  set (e := exp _). assert (0 < e) by apply exp_pos.
  assert (e <= 1).
  { apply Rle_trans with (exp 0); [|rewrite exp_0; lra]. unfold e. assert (J : forall a b, a <= b -> exp a <= exp b) by (intros a b [X| ->]; [left; apply exp_increasing; exact X | right; reflexivity]).
    apply J. rewrite ifmin. assert (0 <= 2 * hg / Rmax (1 / 1000) dh) by (apply Rdiv_nonneg; lra).
    assert (0 <= Rmin 20 (2 * hg / Rmax (1 / 1000) dh)) by (apply Rmin_glb; lra). lra. }
  nra.
Qed.

Lemma hor_total (he dh gme : R) : 0.5 <= he <= 3010 -> 0 <= dh <= 500 -> 0 < gme <= 250 / 1000000000 ->
  exists dl the, qlra_hor RA he dh gme = Ok (dl, the) /\
    let dls := sqrt (2 * he / gme) in 0 < dl /\ dls <= 10 * dl /\ dl <= dls /\ the <= 0.17 /\ dls * gme <= 0.039.
Proof.
  intros H D G. unfold qlra_hor, the_smooth. runfold. rewrite r_div_ok by lra. cbn [bind].
  assert (PQ : 0 < 2 * he / gme) by (apply Rdiv_pos; lra). rewrite r_sqrt_ok by lra. cbn [bind].
  set (dls := sqrt (2 * he / gme)). assert (PD : 0 < dls) by (apply sqrt_lt_R0; exact PQ).
  rewrite ifmax. set (mx := Rmax he 5). assert (PM : 5 <= mx) by apply Rmax_r. rewrite r_div_ok by lra. cbn [bind].
  assert (U : 0 <= dh / mx <= 100).
  { split; [apply Rdiv_nonneg; lra|]. apply (Rmult_le_reg_r mx); [lra|]. unfold Rdiv. rewrite Rmult_assoc, Rinv_l by lra. lra. }
  clearbody mx. set (u := dh / mx) in *. clearbody u. rewrite r_sqrt_ok by lra. cbn [bind].
  assert (S : 0 <= sqrt u <= 10).
  { split; [apply sqrt_pos|]. replace 10 with (sqrt 100) by (replace 100 with (10 * 10) by lra; apply sqrt_square; lra). apply sqrt_le_1; lra. }
  set (s := sqrt u) in *. clearbody s. assert (E : 0.49 <= exp (- (7) / 100 * s) <= 1) by (replace 0.49 with (49 / 100) by lra; split; interval with (i_prec 53)).
  replace (-7 / 100 * s) with (- (7) / 100 * s) by lra.
  set (e := exp (- (7) / 100 * s)) in *. clearbody e. assert (PL : 0 < dls * e) by nra. rewrite r_div_ok by lra. cbn [bind]. rewrite r_div_ok by lra. cbn [bind].
  do 2 eexists. split; [reflexivity|]. cbv zeta. fold dls.
  assert (LB : 2000 <= dls).
  { unfold dls. replace 2000 with (sqrt 4000000) by (replace 4000000 with (2000 * 2000) by lra; apply sqrt_square; lra). apply sqrt_le_1; try lra.
    apply (Rmult_le_reg_r gme); [lra|]. unfold Rdiv. rewrite Rmult_assoc, Rinv_l by lra. lra. }
  assert (SQ : dls * dls = 2 * he / gme) by (apply sqrt_sqrt; lra).
  split; [exact PL|]. split; [nra|]. split; [nra|]. split.
  - apply (Rmult_le_reg_r dls); [exact PD|]. unfold Rdiv at 1. rewrite Rmult_assoc, Rinv_l by lra. rewrite Rmult_1_r.
    assert (R1 : dls / (dls * e) = / e) by (field; split; lra). rewrite R1. assert (I1 : 0 <= / e - 1 <= 1.041).
    { split; [assert (/ 1 <= / e) by (apply Rinv_le_contravar; lra); lra|]. assert (/ e <= / 0.49) by (apply Rinv_le_contravar; lra). lra. }
    assert (65 / 100 * dh * (/ e - 1) <= 65 / 100 * 500 * 1.041) by nra. nra.
  - assert (Q2 : (dls * gme) * (dls * gme) = 2 * he * gme) by (replace ((dls * gme) * (dls * gme)) with (dls * dls * gme * gme) by ring; rewrite SQ; field; lra).
    assert (2 * he * gme <= 0.001505) by nra. nra.
Qed.
Lemma control_total (p : prop RA) m lv mx kx : pz p LVAR = Some lv -> pz p MDVARX = Some mx -> pz p KLIMX = Some kx -> exists q, prep_control RA m p = Ok q.
Proof.
  intros L M K. unfold prep_control. rewrite (proj2 (pz_getz RA (setz p MDP m) LVAR lv) L). cbn [bind]. dsimp.
  rewrite (proj2 (pz_getz RA _ MDVARX mx) M). cbn [bind].
  match goal with |- context [bind ?c _] => assert (exists p1, c = Ok p1 /\ pz p1 KLIMX = Some kx) as (p1 & -> & K1) end.
  { destruct (0 <=? mx)%Z; [|eexists; split; [reflexivity | exact K]]. eexists. split; [reflexivity | exact K]. }
  cbn [bind]. rewrite (proj2 (pz_getz RA p1 KLIMX kx) K1). cbn [bind]. destruct (0 <? kx)%Z; eauto.
Qed.
Definition area_in : list nkey := [HG0; HG1; WN; ENS; GME; DH; ZGR; ZGI].
Lemma qlra_total k0 k1 (p : prop RA) w lv mx kx kw : values p area_in w -> pz p LVAR = Some lv -> pz p MDVARX = Some mx -> pz p KLIMX = Some kx -> pz p KWX = Some kw -> area_ranges w ->
  exists q v, qlra RA k0 k1 p = Ok q /\ values q (ENS :: setup_inputs) v /\ (forall k, In k area_in -> v k = w k) /\ pz q MDP = Some 1%Z /\ pz q KWX = Some kw /\
    physical v /\ ordinary v /\ v DL0 <= sqrt (2 * v HE0 / v GME) /\ v DL1 <= sqrt (2 * v HE1 / v GME).
Proof.
  intros V L M K KW (W & G & H0 & H1 & D & Z & ZZ).
  destruct (he_total k0 (w HG0) (w DH) H0 ltac:(lra)) as (he0 & E0 & B0). destruct (he_total k1 (w HG1) (w DH) H1 ltac:(lra)) as (he1 & E1 & B1).
  destruct (hor_total he0 (w DH) (w GME) ltac:(lra) D G) as (dl0 & th0 & F0 & C0). destruct (hor_total he1 (w DH) (w GME) ltac:(lra) D G) as (dl1 & th1 & F1 & C1). cbv zeta in C0, C1.
  set (p1 := setn (setn (setn (setn (setn (setn p HE0 (he0 : num RA)) HE1 (he1 : num RA)) DL0 (dl0 : num RA)) DL1 (dl1 : num RA)) THE0 (th0 : num RA)) THE1 (th1 : num RA)).
  destruct (control_total p1 1%Z lv mx kx L M K) as [q E]. assert (F := prep_control_frame RA 1%Z p1 q E). cbn beta in F.
  set (v := fun k => match k with HE0 => he0 | HE1 => he1 | DL0 => dl0 | DL1 => dl1 | THE0 => th0 | THE1 => th1 | _ => w k end).
  exists q, v. split.
  { unfold qlra. rewrite (proj2 (pn_getn RA p HG0 _) (V HG0 ltac:(inks))), (proj2 (pn_getn RA p DH _) (V DH ltac:(inks))), (proj2 (pn_getn RA p GME _) (V GME ltac:(inks))). cbn [bind].
    change (num RA) with R in *. rewrite E0. cbn [bind]. rewrite F0. cbn [bind]. rewrite (proj2 (pn_getn RA p HG1 _) (V HG1 ltac:(inks))). cbn [bind]. rewrite E1. cbn [bind]. rewrite F1. cbn [bind]. exact E. }
  split.
  { intros k I. rewrite (fr_pn _ _ _ _ _ k F) by reflexivity. cbn in I. repeat (destruct I as [<-|I]; [first [reflexivity | match goal with |- pn p1 ?j = _ => exact (V j ltac:(inks)) end]|]). destruct I. }
  split; [intros k I; cbn in I; repeat (destruct I as [<-|I]; [reflexivity|]); destruct I|].
  assert (MD : pz q MDP = Some 1%Z).
  { unfold prep_control in E. apply bind_inv in E as [? [_ E]]. apply bind_inv in E as [? [_ E]]. apply bind_inv in E as [p2 [E2 E]]. apply bind_inv in E as [? [_ E]].
    assert (P2 : pz p2 MDP = Some 1%Z).
    { destruct (0 <=? _)%Z in E2; [apply bind_inv in E2 as [? [_ E2]]|]; apply ok_inj in E2; subst p2; reflexivity. }
    destruct (0 <? _)%Z; apply ok_inj in E; subst q; exact P2. }
  split; [exact MD|]. split; [rewrite (fr_pz _ _ _ _ _ KWX F) by reflexivity; exact KW|].
  split; [unfold physical, v; repeat split; lra|]. split; [|unfold v; split; lra].
  unfold ordinary, excess, v. repeat split; try lra. apply Rmax_lub; [lra|]. nra.
Qed.
Lemma area_total k0 k1 (p : prop RA) w lv mx kx kw : values p area_in w -> pz p LVAR = Some lv -> pz p MDVARX = Some mx -> pz p KLIMX = Some kx -> pz p KWX = Some kw -> area_ranges w ->
  exists q v, qlra RA k0 k1 p = Ok q /\ values q (ENS :: setup_inputs) v /\ reference_params v false /\ 
    (v ZGI <> 0 -> 0 <= v AED -> los_ok v) /\
    forall d ds, (forall x, In x (d :: ds) -> x < v DLSA -> los_ok v) -> (forall x, In x (d :: ds) -> x <= 0 \/ v DLSA <= x -> scat_ok v) -> exists r, lr_calls RA (d :: ds) q = Ok r.
Proof.
  intros V L M K KW A. destruct (qlra_total k0 k1 p w lv mx kx kw V L M K KW A) as (q & u & E & VU & _ & MQ & KQ & P & O & D0 & D1).
  assert (Gk := simple_ground u P O). destruct (setup_total q u 1%Z kw VU MQ KQ P Gk) as [q1 E1].
  destruct (setup_value q q1 1%Z MQ E1) as (GP & DP & LP & VQ & _). assert (F := E1). apply lr_setup_frame in F.
  assert (VV : values q (ENS :: setup_inputs) (vals q1)).
  { intros k I. rewrite <- (fr_pn _ _ _ _ _ k F) by (cbn in I; repeat (destruct I as [<-|I]; [reflexivity|]); destruct I). rewrite (fr_pn _ _ _ _ _ k F) by (cbn in I; repeat (destruct I as [<-|I]; [reflexivity|]); destruct I).
    rewrite (VU k I). f_equal. symmetry. apply vals_some. rewrite <- (VU k I). apply (fr_pn _ _ _ _ _ k F). cbn in I; repeat (destruct I as [<-|I]; [reflexivity|]); destruct I. }
  assert (X : forall k, In k (ENS :: setup_inputs) -> u k = vals q1 k) by (intros k I; assert (Y1 := VU k I); assert (Y2 := VV k I); congruence).
  assert (P' : physical (vals q1)) by (eapply physical_ext; [|exact P]; intros k I; apply X; right; exact I).
  assert (G' : ground_ok (vals q1)) by (eapply ground_ext; [|exact Gk]; intros k I; apply X; right; exact I).
  exists q, (vals q1). split; [exact E|]. split; [exact VV|]. split; [split; [exact GP | split; [exact DP | exact LP]]|]. split.
  - intros Zn An. destruct P' as (_ & G & _ & _ & _ & H0 & H1 & L0 & L1 & _). assert (PS := dlsa_pos _ GP G H0 H1). destruct GP as (g1 & g2 & g3 & g4 & _).
    apply simple_los; try assumption; [lra|]. rewrite !X in D0, D1 by inks. rewrite <- g1 in D0. rewrite <- g2 in D1. lra.
  - intros d ds OL OS. eapply (lrprop_total_area d ds q (vals q1) 1%Z kw); try eassumption; [lia|]. split; [exact GP | split; [exact DP | exact LP]].
Qed.
