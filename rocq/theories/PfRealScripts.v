(** Answers of area.py and p2p.py over the exact reals, on one request each (PfRealRun's method). *)
From Interval Require Import Tactic.
From Verif Require Import Frame SpecRegime Scripts RTac PfRealRun PfTotal PfTotal3 PfAtten PfAreaRun2 PfAreaRun4 PfPathRun3 SpecAreaRun SpecPathRun PyFloat Cases PfPathCases RInst Arith.
Open Scope R_scope.

Lemma runs_csqrt (x y : R) (Q : R * R -> Prop) : 0 <= y -> (forall a b, a = sqrt ((sqrt (x * x + y * y) + x) / 2) -> b = sqrt ((sqrt (x * x + y * y) - x) / 2) -> Q (a, b)) -> runs (r_csqrt x y) Q.
Proof. intros N H. unfold r_csqrt. cbv zeta. destruct (Rlt_dec y 0); [lra|]. eexists. split; [reflexivity|]. apply H; reflexivity. Qed.
Lemma runs_pow0 (x y : R) (Q : R -> Prop) : 0 <= x <= 0 -> 0 < y -> (forall v, v = 0 -> Q v) -> runs (r_pow x y) Q.
Proof. intros N P H. exists 0. split; [|apply H; reflexivity]. unfold r_pow. destruct (Rlt_dec 0 x); [lra|]. destruct (Req_EM_T x 0); [|lra]. destruct (Rlt_dec y 0); [lra|]. destruct (Req_EM_T y 0); [lra | reflexivity]. Qed.
Lemma rtrunc_at v (z : Z) : 0 <= v -> IZR z <= v < IZR z + 1 -> rtrunc v = z.
Proof. intros P H. unfold rtrunc. destruct (Rlt_dec v 0); [lra|]. apply rfloor_eq. exact H. Qed.
Ltac enc E := match type of E with ?v = ?t => 
    let I := fresh "I" in interval_intro t with (i_prec 60) as I; rewrite <- E in I; clear E end.
Ltac rdec2 := first [ rdec | match goal with
  | |- context [rtrunc ?v] => first [ rewrite (rtrunc_at v 0) by (try split; ival) | rewrite (rtrunc_at v 1) by (try split; ival) | rewrite (rtrunc_at v 2) by (try split; ival) | rewrite (rtrunc_at v 3) by (try split; ival) ] end ].
Ltac tonat := repeat match goal with |- context [Z.to_nat ?p] => let n := eval cbv in (Z.to_nat p) in change (Z.to_nat p) with n | |- context [Pos.to_nat ?p] => let n := eval cbv in (Pos.to_nat p) in change (Pos.to_nat p) with n end.
Ltac rstep2 := cbv beta zeta; first [ match goal with |- runs (r_pow _ _) _ => apply runs_pow0; [split; ival | ival | enclose] end | progress rstep | match goal with
  | |- runs (area_env RA _) _ => unfold area_env
  | |- runs (qlra RA _ _ _) _ => unfold qlra
  | |- runs (qlra_he RA _ _ _) _ => unfold qlra_he; cbn [Z.leb Z.compare Z.eqb negb Pos.eqb]
  | |- runs (qlra_hor RA _ _ _) _ => unfold qlra_hor
  | |- runs (p2p_prepare RA _ _) _ => unfold p2p_prepare
  | |- runs (p2p_profile RA _ _) _ => unfold p2p_profile; cbn [length Z.of_nat Pos.of_succ_nat Z.sub Z.add Z.opp Z.pos_sub Pos.pred_double Pos.succ Z.eqb Z.leb Pos.eqb]
  | |- runs (p2p_zgnd RA _ _ _ _) _ => unfold p2p_zgnd
  | |- runs (r_csqrt _ _) _ => apply runs_csqrt; [ival | let a := fresh "v" in let b := fresh "v" in let E := fresh "E" in let F := fresh "E" in intros a b E F; enc E; enc F]
  | |- runs (script_gme RA _ _ _) _ => unfold script_gme
  | |- runs (qlrpfl RA _) _ => unfold qlrpfl
  | |- runs (qlrpfl_geom RA _) _ => unfold qlrpfl_geom
  | |- runs (qlrpfl_los RA _ _ _ _ _ _ _ _) _ => unfold qlrpfl_los; cbn [pf_np pf_xi pf_z]
  | |- runs (qlrpfl_obs RA _ _ _ _ _ _ _ _) _ => unfold qlrpfl_obs; cbn [pf_np pf_xi pf_z]
  | |- runs (hzns RA _ _ _ _ _) _ => unfold hzns; cbn [pf_np pf_xi pf_z Z.leb Z.compare Pos.compare Pos.compare_cont]
  | |- runs (hzns_loop RA _ _ _ _ _ _ _ _) _ => cbn [Z.sub Z.add Z.opp Z.pos_sub Pos.pred_double Pos.succ]; tonat; cbn [hzns_loop]
  | |- runs (hzns_step RA _ _ _ _ _ _) _ => unfold hzns_step; cbn [hz_the0 hz_the1 hz_dl0 hz_dl1 hz_sa hz_sb hz_wq negb]
  | |- runs (dlthx RA _ _ _) _ => unfold dlthx; cbn [pf_np pf_xi pf_z]
  | |- runs (zlsq1 RA _ _ _) _ => unfold zlsq1; cbn [pf_np pf_xi pf_z]
  | |- runs (zlsq1_window RA _ _ _) _ => unfold zlsq1_window; cbn [pf_np pf_xi pf_z]
  | |- runs (zlsq1_loop RA _ _ _ _ _ _) _ => cbn [Z.sub Z.add Z.opp Z.pos_sub Pos.pred_double Pos.succ]; tonat; cbn [zlsq1_loop]
  | |- runs (avoid_zero_division RA _ _) _ => unfold avoid_zero_division; cbn [Z.eqb Z.sub Z.add Z.opp Z.pos_sub Pos.eqb]
  | |- runs (pflget _ _) _ => unfold pflget, pfl_list; cbn [pf_np pf_xi pf_z Z.add Z.sub Z.opp Z.pos_sub Pos.succ Pos.add Pos.pred_double]
  | |- runs (dl_smooth RA _ _ _) _ => unfold dl_smooth
  | |- runs (the_smooth RA _ _ _ _) _ => unfold the_smooth
  | |- runs (getpfl _) _ => eapply runs_eq; [reflexivity|]
  | |- runs (lrprop RA _ _) _ => unfold lrprop
  | |- runs (prep_control RA _ _) _ => unfold prep_control; cbn [Z.leb Z.ltb Z.compare Z.eqb Z.max negb Pos.eqb]
  end ].
Ltac rclean := repeat match goal with I : _ <= ?v <= _ |- _ => clear I v end.
Ltac rgo2 := repeat (rcb; repeat rdec2; zdec; repeat rname; rstep2; rclean).

(** ** A path of 60 km over a hill of 100 m, 300 MHz, antennas of 30 m and 10 m *)
Lemma hill_prepared : runs (p2p_prepare RA [0; 100; 0] (path_call 300 60 30 10 1)) (fun _ => True).
Proof. unfold path_call, setns. cbn [fold_left fst snd]. rgo2. exact Logic.I. Qed.

(** ** An area request: 300 MHz, antennas of 30 m and 10 m, irregularity 90 m *)
Definition area_case : prop RA := area_call 300 30 10 90 1.
Lemma lrprop_share (x y : R) (q : prop RA) m : getz q MDP = Ok m -> (m =? 0)%Z = false -> 
  runs (@n_div RA 1 3) (fun third => runs (lr_setup RA third q) (fun s =>
    runs (let! p := lr_dist RA x s in let! p := lr_los RA p in let! p := lr_scat RA p in getn p AREF) (fun _ => True) /\
    runs (let! p := lr_dist RA y s in let! p := lr_los RA p in let! p := lr_scat RA p in getn p AREF) (fun _ => True))) ->
  runs (lrprop RA x q) (fun _ => True) /\ runs (lrprop RA y q) (fun _ => True).
Proof.
  intros M N (third & E3 & s & ES & (a & EA & _) & (b & EB & _)).
  split; [clear b EB | clear a EA]; unfold lrprop; change (@n_Z RA 1) with 1; change (@n_Z RA 3) with 3; rewrite E3; cbn [bind]; rewrite M; cbn [bind]; rewrite N; cbn [negb]; rewrite ES; cbn [bind].
  - apply bind_inv in EA as [p1 [E1 EA]]. rewrite E1. cbn [bind]. apply bind_inv in EA as [p2 [E2 EA]]. rewrite E2. cbn [bind]. apply bind_inv in EA as [p4 [E4 EA]]. rewrite E4. cbn [bind]. rewrite EA. cbn [bind]. eexists. split; [reflexivity | exact Logic.I].
  - apply bind_inv in EB as [p1 [E1 EB]]. rewrite E1. cbn [bind]. apply bind_inv in EB as [p2 [E2 EB]]. rewrite E2. cbn [bind]. apply bind_inv in EB as [p4 [E4 EB]]. rewrite E4. cbn [bind]. rewrite EB. cbn [bind]. eexists. split; [reflexivity | exact Logic.I].
Qed.
Lemma area_case_runs : runs (let! p := area_env RA area_case in qlra RA 2 2 p) (fun q => runs (lrprop RA 10000 q) (fun _ => True) /\ runs (lrprop RA 500000 q) (fun _ => True)).
Proof.
  unfold area_case, area_call. rgo2. apply (lrprop_share _ _ _ 1); [reflexivity | reflexivity|]. cbv beta.
  rgo2. split; rgo2; exact Logic.I.
Qed.
