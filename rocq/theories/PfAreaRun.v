(** One evaluation of lrprop either returns or divides by zero; exactly when. *)
From Coq Require Classical_Prop.
From Verif Require Import Frame SpecLr PfFrame PfLrGen PfRegime PfCurves PfAtten PfAvarReal PfStats PfSetup PfScat PfLos PfLosRef PfRef PfRealRun SpecTotal PfTotal PfTotal2 PfTotal3 Arith.
Open Scope R_scope.

Lemma r_div_0 (x y : R) : y = 0 -> r_div x y = Err ZeroDivisionError.
Proof. intros ->. unfold r_div. destruct (Req_EM_T 0 0); [reflexivity | congruence]. Qed.

Section LosExact.
Context (p : prop RA) (v : nkey -> R).
Hypothesis V : values p los_in v.
Hypothesis W : 0 < v WN. Hypothesis D : 0 <= v DH. Hypothesis H0 : 0 < v HE0. Hypothesis H1 : 0 < v HE1. Hypothesis Z : 0 < v ZGR.
Hypothesis S : 0 < v DLSA. Hypothesis LA : 0 < v DLA.
Hypothesis RF : forall d, 0 < d -> reflects v d.
Lemma coeffs_fail : ~ los_ok v -> lr_los_coeffs RA p = Err ZeroDivisionError.
Proof using V W D H0 H1 Z S LA RF.
  intros N. pose proof (d0_pos v W H0 H1 LA) as P0. pose proof (d1_pos v W H0 H1 LA) as P1.
  set (T := fun m : res (R * R * R) => m = Err ZeroDivisionError). change (T (lr_los_coeffs RA p)). unfold lr_los_coeffs.
  sr V. sr V. sr V. sr V. sr V. sr V. sr V. runfold.
  assert (C : (0 <= v AED \/ v EMD <> 0) \/ (v AED < 0 /\ v EMD = 0)) by (destruct (Rle_dec 0 (v AED)); [auto|]; destruct (Req_dec (v EMD) 0); [right; split; [lra | assumption] | auto]).
  destruct C as [E|[LE E0]].
  2: { rewrite (proj2 (r_leb_false 0 (v AED))) by lra. rewrite r_div_0 by exact E0. reflexivity. }
  match goal with |- T (bind ?m _) => assert (ED : m = Ok (fit_d0 v, fit_d1 v)) end.
  { unfold fit_d0, fit_d1, los_d1, los_d0. replace 1.908 with (1908 / 1000) by lra. replace 0.25 with (25 / 100) by lra. replace 0.5 with (5 / 10) by lra.
    unfold r_leb. destruct (Rle_dec 0 (v AED)) as [L|L].
    - assert (M := pymin_R (1908 / 1000 * v WN * v HE0 * v HE1) (5 / 10 * v DLA)). unfold pymin in M. cbn [RA n_ltb] in M. change (num RA) with R in M. rewrite M. reflexivity.
    - destruct E as [E|E]; [lra|]. rewrite r_div_ok by exact E. cbn [bind]. do 2 f_equal. exact (pymax_R (- v AED / v EMD) (25 / 100 * v DLA)). }
  se ED. cbv beta iota. clear ED. se (alos_total p v (fit_d1 v) (alos_in p v V) W D H0 H1 Z P1 (RF _ P1)).
  assert (N' : v DLSA = fit_d1 v \/ (fit_d0 v < fit_d1 v /\ v DLSA = fit_d0 v)).
  { destruct (Req_dec (fit_d1 v) (v DLSA)) as [Q|Q]; [left; lra|]. destruct (Rlt_dec (fit_d0 v) (fit_d1 v)) as [Q1|Q1].
    - destruct (Req_dec (fit_d0 v) (v DLSA)) as [Q2|Q2]; [right; split; [exact Q1 | lra]|].
      exfalso. apply N. split; [exact E|]. split; [exact Q|]. split; [apply RF; exact P1|]. intros _. split; [exact Q2 | apply RF; exact P0].
    - exfalso. apply N. split; [exact E|]. split; [exact Q|]. split; [apply RF; exact P1|]. intro. contradiction. }
  unfold lr_fit. runfold. destruct (r_ltb (fit_d0 v) (fit_d1 v)) eqn:B; rbool.
  - match goal with |- T (bind ?m _) => assert (EF : m = Err ZeroDivisionError); [|rewrite EF; reflexivity];
       set (T2 := fun mm : res (option (R * R)) => mm = Err ZeroDivisionError); change (T2 m) end.
    se (alos_total p v (fit_d0 v) (alos_in p v V) W D H0 H1 Z P0 (RF _ P0)). sd lra.
    assert (Q : 0 < v DLSA / fit_d0 v) by (apply Rdiv_pos; lra). se (r_log_ok _ Q). sd lra.
    assert (Q' : 0 < fit_d1 v / fit_d0 v) by (apply Rdiv_pos; lra). se (r_log_ok _ Q').
    match goal with |- T2 (bind (r_div ?x ?y) _) => assert (EY : y = 0); [|rewrite (r_div_0 x y EY); reflexivity] end.
    destruct N' as [N' | [_ N']]; rewrite N'; [ring | unfold Rdiv; rewrite Rinv_r, ln_1 by lra; ring].
  - destruct N' as [N'|[N' _]]; [|lra]. cbn [bind].
    match goal with |- T (bind (bind (r_div ?x ?y) _) _) => assert (EY : y = 0) by lra; rewrite (r_div_0 x y EY); reflexivity end.
Qed.
End LosExact.

Section RestExact.
Context (v : nkey -> R) (b : bool).
Hypothesis PH : physical v.
Hypothesis RP : reference_params v b.
Hypothesis RF : forall d, 0 < d -> reflects v d.
Lemma los_fail p x : core v p -> pn p DIST = Some x -> pb p WLOS = Some false -> x < v DLSA -> ~ los_ok v -> lr_los RA p = Err ZeroDivisionError.
Proof using PH RP RF.
  destruct PH as (W & G & D & G0 & G1 & H0 & H1 & L0 & L1 & Z). destruct RP as (GP & _ & _). assert (S := dlsa_pos v GP G H0 H1).
  assert (LA : 0 < v DLA) by (destruct GP as (_ & _ & _ & -> & _); lra).
  intros (V & _) X F L N. unfold lr_los. rewrite (proj2 (pn_getn RA p DIST x) X), (proj2 (pn_getn RA p DLSA _) (V DLSA ltac:(inks))). cbn [bind RA n_ltb n_Z].
  rewrite (proj2 (r_ltb_true x (v DLSA)) L), (proj2 (pb_getb RA p WLOS false) F). cbn [bind].
  change (num RA) with R in *. rewrite (coeffs_fail p v); try assumption; [reflexivity|].
  intros j J. apply V. cbn in J |- *. repeat (destruct J as [<-|J]; [inks|]). destruct J.
Qed.
Lemma scat_fail p x : 0 < scat_angle v (scat_d5 v) -> core v p -> pn p DIST = Some x -> pb p WSCAT = Some false -> v DLSA <= x -> ~ scat_ok v -> lr_scat RA p = Err ZeroDivisionError.
Proof using PH RP.
  intro SA. destruct PH as (W & G & D & G0 & G1 & H0 & H1 & L0 & L1 & Z). destruct RP as (GP & _ & _).
  intros (V & (k & K) & _ & SC) X F L N. unfold lr_scat. rewrite (proj2 (pn_getn RA p DIST x) X), (proj2 (pn_getn RA p DLSA _) (V DLSA ltac:(inks))). cbn [bind RA n_leb n_ltb n_Z].
  rewrite (proj2 (r_leb_true (v DLSA) x) L), orb_true_r. rewrite (proj2 (pb_getb RA p WSCAT false) F). cbn [bind].
  destruct SC as [[_ A0]|[SC _]]; [|congruence].
  destruct (scat_setup_exact p v) as [_ E]; try assumption; [|exact (bending_of v GP)|].
  { intros j J. apply V. cbn in J |- *. repeat (destruct J as [<-|J]; [inks|]). destruct J. }
  rewrite E; [reflexivity|]. intro Q. apply N. split; assumption.
Qed.
Definition runs_at (x : R) : Prop := (x < v DLSA -> los_ok v) /\ (v DLSA <= x -> scat_ok v).
(** Mid_calls: the coefficients already computed could be computed. *)
Definition mid_calls (p : prop RA) : Prop := core v p /\ (pb p WLOS = Some true -> los_ok v) /\ (pb p WSCAT = Some true -> scat_ok v).
Lemma los_flag (p q : prop RA) : lr_los RA p = Ok q -> pb q WSCAT = pb p WSCAT /\ (pb q WLOS = pb p WLOS \/ exists c, lr_los_coeffs RA p = Ok c).
Proof using.
  intro E. assert (F := E). apply lr_los_frame in F. split; [apply (fr_pb _ _ _ _ _ WSCAT F); reflexivity|].
  unfold lr_los in E. apply bind_inv in E as [x [_ E]]. apply bind_inv in E as [y [_ E]]. destruct (_ <? _)%num; [|apply ok_inj in E; subst; left; reflexivity].
  apply bind_inv in E as [w [_ E]]. destruct w; [apply ok_inj in E; subst; left; reflexivity|]. apply bind_inv in E as [c [E _]]. right. exists c. exact E.
Qed.
Lemma scat_flag (p q : prop RA) : lr_scat RA p = Ok q -> pb q WLOS = pb p WLOS /\ (pb q WSCAT = pb p WSCAT \/ exists r, lr_scat_setup RA p = Ok r).
Proof using.
  intro E. assert (F := E). apply lr_scat_frame in F. split; [apply (fr_pb _ _ _ _ _ WLOS F); reflexivity|].
  unfold lr_scat in E. apply bind_inv in E as [x [_ E]]. apply bind_inv in E as [y [_ E]]. destruct (_ || _)%bool; [|apply ok_inj in E; subst; left; reflexivity].
  apply bind_inv in E as [w [_ E]]. apply bind_inv in E as [r [Er E]]. destruct w; [apply ok_inj in Er; subst r; left | right; eauto].
  apply bind_inv in E as [dx [_ E]]. destruct (_ >? _)%num; apply bind_inv in E as [? [_ E]]; apply bind_inv in E as [? [_ E]]; apply ok_inj in E; subst q; reflexivity.
Qed.
Lemma scat_dx (p q : prop RA) (d l : R) : pn p DIST = Some d -> pn p DLSA = Some l -> l <= d -> lr_scat RA p = Ok q -> exists y, pn q DX = Some y.
Proof using.
  intros X L LD E. unfold lr_scat in E. rewrite (proj2 (pn_getn RA p DIST d) X), (proj2 (pn_getn RA p DLSA l) L) in E. cbn [bind RA n_leb n_Z] in E.
  rewrite (proj2 (r_leb_true l d) LD), orb_true_r in E. apply bind_inv in E as [w [_ E]]. apply bind_inv in E as [r [_ E]]. apply bind_inv in E as [dx [G E]]. apply pn_getn in G.
  exists dx. rewrite <- G. destruct (_ >? _)%num; apply bind_inv in E as [? [_ E]]; apply bind_inv in E as [? [_ E]]; apply ok_inj in E; subst q; reflexivity.
Qed.
Lemma rest_exact_at d0 p m d : mid_calls p -> pz p MDP = Some m -> (if (0 <=? m)%Z then d = d0 else pn p DIST = Some d) -> 0 < d -> (v DLSA <= d -> 0 < scat_angle v (scat_d5 v)) ->
  pb p WLOS = Some false \/ (exists a, pn p AREF = Some a) ->
  (runs_at d /\ exists q, rest d0 p = Ok q /\ mid_calls q /\ pz q MDP = Some (if (0 <=? m)%Z then 0 else m)%Z /\ (exists a, pn q AREF = Some a) /\ pn q DIST = Some d /\ (v DLSA <= d -> exists y, pn q DX = Some y)) \/
  (~ runs_at d /\ rest d0 p = Err ZeroDivisionError).
Proof using PH RP RF.
  intros (C & BL & BS) M M0 PD SA FA.
  destruct (dist_runs v d0 p m d C M M0) as (q1 & E1 & C1 & X1 & M1 & A1 & F1).
  assert (F1' : pb q1 WSCAT = pb p WSCAT) by (apply lr_dist_frame in E1; apply (fr_pb _ _ _ _ _ WSCAT E1); reflexivity).
  destruct (Classical_Prop.classic (runs_at d)) as [OK|NO]; [left; split; [exact OK|] | right; split; [exact NO|]].
  - destruct OK as [OL OS]. unfold rest. rewrite E1. cbn [bind].
    destruct (los_runs v b PH RP q1 d C1 X1 OL) as (q2 & E2 & C2 & X2 & M2 & A2). rewrite E2. cbn [bind].
    destruct (scat_runs v b PH RP q2 d C2 X2) as (q3 & E3 & C3 & M3 & A3); [intros [Q|Q]; [lra | exact (OS Q)]|]. rewrite E3. cbn [bind].
    assert (exists a, pn q3 AREF = Some a) as [a A].
    { apply A3. rewrite <- A1, <- F1 in FA. destruct (Rle_dec (v DLSA) d); [auto|]. left. apply A2. destruct FA as [FA|FA]; [right; split; [exact FA | lra] | left; exact FA]. }
    rewrite (proj2 (pn_getn RA q3 AREF a) A). cbn [bind]. eexists. split; [reflexivity|].
    assert (X3 : pn q3 DIST = Some d) by (apply lr_scat_frame in E3; rewrite (fr_pn _ _ _ _ _ DIST E3); [exact X2 | reflexivity]).
    split; [|split; [cbn; congruence | split; [eexists; reflexivity | split; [exact X3|]]]].
    2: { intro LD. change (exists y, pn q3 DX = Some y). exact (scat_dx q2 q3 d (v DLSA) X2 (proj1 C2 DLSA ltac:(inks)) LD E3). }
    split; [|split].
    + destruct C3 as (V1 & K1 & F3 & S1). split; [intros j J; rewrite <- (V1 j J); cbn in J; repeat (destruct J as [<-|J]; [reflexivity|]); destruct J|].
      split; [exact K1|]. split; [exact F3|]. destruct S1 as [S1|[S1 H]]; [left; exact S1|]. right. split; [exact S1|]. intros j J. destruct (H j J) as [y Y]. exists y. rewrite <- Y.
      cbn in J. destruct J as [<-|[<-|[<-|[]]]]; reflexivity.
    + intro T. change (pb q3 WLOS = Some true) in T. destruct (scat_flag q2 q3 E3) as [T3 _]. rewrite T3 in T. destruct (Rlt_dec d (v DLSA)) as [L|L]; [exact (OL L)|].
      apply BL. rewrite <- F1. rewrite <- T. unfold lr_los in E2. rewrite (proj2 (pn_getn RA q1 DIST d) X1), (proj2 (pn_getn RA q1 DLSA _) (proj1 C1 DLSA ltac:(inks))) in E2. cbn [bind RA n_ltb] in E2.
      rewrite (proj2 (r_ltb_false d (v DLSA))) in E2 by lra. apply ok_inj in E2. subst q2. reflexivity.
    + intro T. change (pb q3 WSCAT = Some true) in T. destruct (Rle_dec (v DLSA) d) as [L|L]; [exact (OS L)|]. apply BS. rewrite <- F1'. destruct (los_flag q1 q2 E2) as [T2 _]. rewrite <- T2, <- T.
      unfold lr_scat in E3. rewrite (proj2 (pn_getn RA q2 DIST d) X2), (proj2 (pn_getn RA q2 DLSA _) (proj1 C2 DLSA ltac:(inks))) in E3. cbn [bind RA n_leb n_Z] in E3.
      rewrite (proj2 (r_leb_false (v DLSA) d)), (proj2 (r_leb_false d 0)) in E3 by lra. cbn [orb] in E3. apply ok_inj in E3. subst q3. reflexivity.
  - unfold rest. rewrite E1. cbn [bind]. destruct (Rlt_dec d (v DLSA)) as [L|L].
    + assert (NL : ~ los_ok v) by (intro Q; apply NO; split; intro; [exact Q | lra]).
      rewrite (los_fail q1 d C1 X1); try assumption; [reflexivity|]. rewrite F1. destruct C as (_ & _ & ([|] & F) & _); [exfalso; exact (NL (BL F)) | exact F].
    + assert (NS : ~ scat_ok v) by (intro Q; apply NO; split; intro; [lra | exact Q]).
      destruct (los_runs v b PH RP q1 d C1 X1 ltac:(intro; lra)) as (q2 & E2 & C2 & X2 & M2 & A2). rewrite E2. cbn [bind].
      rewrite (scat_fail q2 d (SA ltac:(lra)) C2 X2); try assumption; [reflexivity| |lra]. destruct (los_flag q1 q2 E2) as [T2 _]. rewrite T2, F1'.
      destruct C as (_ & _ & _ & [[F _]|[F _]]); [exact F | exfalso; exact (NS (BS F))].
Qed.
Lemma rest_exact d p m : 0 < scat_angle v (scat_d5 v) -> mid_calls p -> pz p MDP = Some m -> (0 <= m)%Z -> 0 < d -> pb p WLOS = Some false \/ (exists a, pn p AREF = Some a) ->
  (runs_at d /\ exists q, rest d p = Ok q /\ mid_calls q /\ pz q MDP = Some 0%Z /\ (exists a, pn q AREF = Some a) /\ pn q DIST = Some d) \/
  (~ runs_at d /\ rest d p = Err ZeroDivisionError).
Proof using PH RP RF.
  intros SA C M M0 PD FA. assert (ML : (0 <=? m)%Z = true) by (apply Z.leb_le; exact M0).
  destruct (rest_exact_at d p m d C M) as [(O & q & E & C' & M' & A' & D' & _)|N]; try assumption; [rewrite ML; reflexivity | auto | | right; exact N].
  left. split; [exact O|]. exists q. rewrite ML in M'. auto.
Qed.
End RestExact.
