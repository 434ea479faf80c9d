(** Totality of adiff, alos, ascat and lrprop over the exact reals. *)
From Verif Require Import Frame SpecLr PfFrame PfLrGen PfRegime PfCurves PfCurves2 PfH0f PfAtten PfAvarReal PfStats PfSetup PfScat PfLosRef PfRealRun SpecTotal Arith.
Open Scope R_scope.

Lemma sum_sq_pos a b : 0 < a -> 0 < a ^ 2 + b ^ 2.
Proof. intro H. nra. Qed.
Lemma Rdiv_pos a b : 0 < a -> 0 < b -> 0 < a / b.
Proof. intros. apply Rmult_lt_0_compat; [|apply Rinv_0_lt_compat]; assumption. Qed.
Lemma Rdiv_nonneg a b : 0 <= a -> 0 < b -> 0 <= a / b.
Proof. intros. apply Rmult_le_pos; [|left; apply Rinv_0_lt_compat]; assumption. Qed.
Lemma mul3_pos a b c : 0 < a -> 0 < b -> 0 < c -> 0 < a * b * c.
Proof. intros. repeat apply Rmult_lt_0_compat; assumption. Qed.
Lemma irregularity_pos v d : 0 <= v DH -> 0 <= d -> 0 <= irregularity_at v d.
Proof.
  intros H D. unfold irregularity_at. apply Rmult_le_pos; [|exact H].
  assert (exp (- d / 50000) <= 1). { rewrite <- exp_0. destruct D as [D|<-]; [left; apply exp_increasing; lra | right; f_equal; lra]. }
  lra.
Qed.
Lemma runs_dh d dh (Q : R -> Prop) : Q ((1 - 8 / 10 * exp (- d / (50000 / 1))) * dh) -> runs (dh_at RA d dh) Q.
Proof.
  intro H. unfold dh_at. apply runs_bind. runfold. apply runs_div; [lra|]. intros u ->. apply runs_bind, runs_ok, runs_ok. exact H.
Qed.
Lemma runs_rough q (Q : R -> Prop) : 0 <= q -> (forall s, 0 <= s -> Q s) -> runs (rough RA q) Q.
Proof.
  intros P H. unfold rough. apply runs_bind. runfold. apply runs_div; [lra|]. intros t ->. apply runs_bind.
  assert (exists r, r_pow (q / 16) (25 / 100) = Ok r) as [r E].
  { unfold r_pow. destruct (Rlt_dec 0 (q / 16)); [eauto|]. destruct (Req_EM_T (q / 16) 0); [|lra]. destruct (Rlt_dec (25 / 100) 0); [lra|].
    destruct (Req_EM_T (25 / 100) 0); eauto. }
  exists r. split; [exact E|]. apply runs_bind, runs_ok, runs_ok. apply H. pose proof (exp_pos (- r)). nra.
Qed.
Lemma runs_term third qk wn dl he (Q : R * R -> Prop) : 0 < qk -> 0 < wn -> 0 < dl -> 0 < he -> (forall x, Q x) -> runs (adiff_term RA third qk wn dl he) Q.
Proof.
  intros Pq Pw Pd Ph H. unfold adiff_term. runfold. apply runs_bind, runs_powZ. intros d2 ->. change (Pos.to_nat 2) with 2%nat.
  assert (0 < dl ^ 2) by nra. assert (0 < 5 / 10 * dl ^ 2 / he) by (apply Rdiv_pos; lra).
  apply runs_bind, runs_div; [lra|]. intros a Ea. rewrite <- Ea in H1. clear Ea. apply runs_bind, runs_pow; [apply Rmult_lt_0_compat; assumption|]. intros w Ew.
  assert (0 < w) by (rewrite Ew; apply exp_pos). clear Ew. apply runs_bind, runs_div; [lra|]. intros k Ek.
  assert (0 < k) by (rewrite Ek; apply Rdiv_pos; assumption). clear Ek. apply runs_bind, runs_div; [lra|]. intros q _. apply runs_bind.
  destruct (fht_total q k ltac:(assumption)) as [y Ey]. exists y. split; [exact Ey|]. apply runs_ok. apply H.
Qed.
Ltac rd V := match goal with |- context [@getn RA ?p ?k] => rewrite (proj2 (pn_getn RA p k _) (V k ltac:(inks))); cbn [bind] end.

Lemma runs_init (p : prop RA) v m (Q : prop RA -> Prop) : values p init_in v -> pz p MDP = Some m ->
  0 < v WN -> 0 < v GME -> 0 <= v DH -> 0 < v HG0 -> 0 < v HG1 -> 0 < v HE0 -> 0 < v HE1 -> 0 < v DL0 -> 0 < v DL1 -> 0 < v ZGR -> 0 <= v DLSA ->
  (forall q, Q q) -> runs (adiff_init RA ((1 / 3)%R : num RA) p) Q.
Proof.
  intros V M W G D G0 G1 H0 H1 L0 L1 Z S HQ. unfold adiff_init. do 4 rd V. rewrite (proj2 (pz_getz RA p MDP m) M). cbn [bind].
  assert (0 < v HG0 * v HG1) by (apply Rmult_lt_0_compat; assumption). assert (0 < v HE0 * v HE1) by (apply Rmult_lt_0_compat; assumption).
  runfold. set (q := if (m <? 0)%Z then _ else _).
  assert (PQ : v HG0 * v HG1 <= q) by (unfold q; destruct (m <? 0)%Z; lra). clearbody q.
  apply runs_bind, runs_div; [lra|]. intros t ->. apply runs_bind, runs_sqrt.
  { replace (1 + (v HE0 * v HE1 - v HG0 * v HG1) / q) with ((q - v HG0 * v HG1 + v HE0 * v HE1) / q) by (field; lra). apply Rdiv_nonneg; lra. }
  intros w _. dsimp. do 3 rd V. apply runs_bind, runs_div; [lra|]. intros x _. dsimp. do 2 rd V. apply runs_bind, runs_dh.
  apply runs_bind, runs_rough.
  { replace (8 / 10) with 0.8 by lra. replace (50000 / 1) with 50000 by lra. apply (irregularity_pos v); assumption. }
  intros s Ps. rd V. apply runs_bind, runs_log.
  { assert (0 <= 477 / 1000000 * v HG0 * v HG1 * v WN * s); [|lra]. apply Rmult_le_pos; [|exact Ps]. left. do 3 (apply Rmult_lt_0_compat; [|assumption]). lra. }
  intros l _. dsimp. do 2 rd V.
  assert (PZ : 0 < sqrt (v ZGR * v ZGR + v ZGI * v ZGI)) by (apply sqrt_lt_R0; nra).
  apply runs_bind, runs_div; [lra|]. intros k Ek. assert (PK : 0 < k) by (rewrite Ek; apply Rdiv_pos; lra). clear Ek. dsimp.
  rd V. apply runs_bind, runs_term; try assumption. intros [q0 f0]. rd V. apply runs_bind, runs_term; try assumption. intros [q1 f1]. apply runs_ok. apply HQ.
Qed.

(** adiff at a distance beyond the horizons: exactly where the argument of the logarithm is positive. *)
Definition at_keys : list nkey := [THA; GME; DLA; WN; DL0; DL1; QK; XHT; AHT; WD1; XD1; DH; AFO].
Lemma knife_runs x (Q : R -> Prop) : (forall y, Q y) -> runs (aknfe RA x) Q.
Proof. intro H. destruct (aknfe_lower x) as [y [E _]]. exists y. split; [exact E | apply H]. Qed.
Lemma step {X Y} (m : res X) (k : X -> res Y) (T : res Y -> Prop) x : m = Ok x -> T (k x) -> T (bind m k).
Proof. intros -> H. exact H. Qed.
Lemma step_log {Y} (x y : R) (k : R -> res Y) (T : res Y -> Prop) : x = y -> (0 < y -> T (k (ln y))) -> (y <= 0 -> T (Err NotReal)) -> T (bind (r_log x) k).
Proof.
  intros <- H1 H2. unfold r_log. destruct (Rle_dec x 0) as [L|L]; [exact (H2 L)|]. apply H1. lra.
Qed.
Ltac sr V := match goal with |- ?T (bind (@getn RA ?p ?k) _) => refine (step _ _ T _ (proj2 (pn_getn RA p k _) (V k ltac:(inks))) _); cbv beta zeta end.
Ltac sd tac := match goal with |- ?T (bind (r_div ?x ?y) _) => refine (step _ _ T _ (r_div_ok x y _) _); [tac|]; cbv beta zeta end.
Ltac se E := match goal with |- ?T (bind ?m _) => refine (step _ _ T _ E _); cbv beta zeta end.
Lemma at_head (p : prop RA) v (d : R) (T : res R -> Prop) : values p at_keys v ->
  0 < v WN -> 0 < v DL0 -> 0 < v DL1 -> v DLA < d -> 0 < angle_at v d -> 0 < d -> 0 <= v DH -> 0 <= v WD1 -> 0 <= v XD1 -> 
  (0 < rounded_x v d -> forall a, T (Ok a)) -> (rounded_x v d <= 0 -> T (Err NotReal)) -> T (adiff_at RA ((1 / 3)%R : num RA) d p).
Proof.
  intros V W L0 L1 D A D0 H W1 X1 T1 T2. unfold adiff_at. sr V. sr V. sr V. sr V. runfold.
  se (r_powZ_2 (v THA + d * v GME)). sr V. 
  assert (AN : v THA + d * v GME = angle_at v d) by reflexivity. rewrite AN. clear AN. set (q := _ * angle_at v d ^ 2). clearbody q.
  sd lra. destruct (aknfe_lower (q * v DL0 / (d - v DLA + v DL0))) as [k0 [E0 _]]. se E0. clear E0. sr V.
  sd lra. destruct (aknfe_lower (q * v DL1 / (d - v DLA + v DL1))) as [k1 [E1 _]]. se E1. clear E1. sd lra.
  assert (PA : 0 < (d - v DLA) / angle_at v d * v WN) by (apply Rmult_lt_0_compat; [apply Rdiv_pos; lra | assumption]).
  se (r_pow_ok ((d - v DLA) / angle_at v d * v WN) (1 / 3) PA). sr V. assert (PW : 0 < Rpower ((d - v DLA) / angle_at v d * v WN) (1 / 3)) by apply exp_pos.
  sd lra. sr V. apply (step_log _ (rounded_x v d)); [unfold rounded_x; replace 1.607 with (1607 / 1000) by lra; reflexivity | | exact T2].
  intro P. specialize (T1 P). clear T2. sr V. sr V. sr V. sd lra. sr V.
  set (u := irregularity_at v d). assert (PU : 0 <= u) by (apply irregularity_pos; lra).
  assert (EU : dh_at RA d (v DH) = Ok u).
  { unfold dh_at. runfold. rewrite r_div_ok by lra. cbn [bind]. f_equal. unfold u, irregularity_at. replace (8 / 10) with 0.8 by lra. replace (50000 / 1) with 50000 by lra. reflexivity. }
  se EU. clear EU. clearbody u. set (mn := if r_ltb _ _ then _ else _).
  assert (0 <= mn) by (unfold mn; destruct (r_ltb _ _); [lra | apply Rmult_le_pos; lra]). clearbody mn.
  assert (PS : 0 <= (v WD1 + v XD1 / d) * mn) by (apply Rmult_le_pos; [|assumption]; pose proof (Rdiv_nonneg (v XD1) d X1 D0); lra).
  se (r_sqrt_ok ValueError _ PS). set (s := sqrt _). assert (0 <= s) by apply sqrt_pos. sd lra. sr V. apply T1.
Qed.

Definition bending (v : nkey -> R) : Prop := v DLA = v DL0 + v DL1 /\ v THA = Rmax (v THE0 + v THE1) (- v DLA * v GME).
Lemma angle_excess v d : bending v -> angle_at v d = excess v + (d - v DLA) * v GME.
Proof.
  intros (EA & ET). unfold angle_at, excess. rewrite ET, <- EA. unfold Rmax.
  destruct (Rle_dec (v THE0 + v THE1) (- v DLA * v GME)), (Rle_dec 0 (v THE0 + v THE1 + v DLA * v GME)); lra.
Qed.
Lemma excess_pos v : 0 <= excess v.
Proof. apply Rmax_l. Qed.
Lemma between_mono v s t : 0 < v GME -> 0 < s -> s <= t -> between_radius v s <= between_radius v t.
Proof.
  intros G S L. unfold between_radius. pose proof (excess_pos v). set (e := excess v) in *.
  assert (0 < e + s * v GME) by nra. assert (0 < e + t * v GME) by nra.
  apply (Rmult_le_reg_r (e + s * v GME)); [assumption|]. apply (Rmult_le_reg_r (e + t * v GME)); [assumption|].
  replace (s / (e + s * v GME) * (e + s * v GME) * (e + t * v GME)) with (s * (e + t * v GME)) by (field; lra).
  replace (t / (e + t * v GME) * (e + s * v GME) * (e + t * v GME)) with (t * (e + s * v GME)) by (field; lra). nra.
Qed.
Lemma gap_pos v : 0 < smallest_gap v.
Proof. unfold smallest_gap. apply Rmult_lt_0_compat; [lra | apply exp_pos]. Qed.
Lemma k_small (z s : R) : 0 < z -> 0 < s -> 1 < 1.607 * z * s -> 1 / z / s < 1.607.
Proof.
  intros Z S H. apply (Rmult_lt_reg_r (z * s)); [apply Rmult_lt_0_compat; assumption|].
  replace (1 / z / s * (z * s)) with 1 by (field; lra). lra.
Qed.
Lemma rounded_x_pos v b d : physical v -> ground_ok v -> bending v -> diffraction_params v b -> smallest_gap v <= d - v DLA -> 0 < rounded_x v d.
Proof.
  intros (W & G & D & G0 & G1 & H0 & H1 & L0 & L1 & Z) (C0 & C1 & CB) GP (_ & _ & _ & EQ & XH & _) L.
  assert (PZ : 0 < sqrt (v ZGR ^ 2 + v ZGI ^ 2)) by (apply sqrt_lt_R0, sum_sq_pos, Z).
  assert (SP : forall dl he, 0 < dl -> 0 < he -> not_too_conducting v (dl ^ 2 / (2 * he)) -> 0 < sphere_x v dl he).
  { intros dl he Pd Ph C. unfold sphere_x, sphere_k. assert (0 < sphere v dl he) by apply exp_pos.
    assert (v QK / sphere v dl he < 1.607) by (rewrite EQ; apply k_small; assumption).
    apply Rdiv_pos; [|exact Pd]. apply Rmult_lt_0_compat; [|lra]. apply Rmult_lt_0_compat; [|assumption]. lra. }
  unfold rounded_x. rewrite XH. pose proof (SP _ _ L0 H0 C0). pose proof (SP _ _ L1 H1 C1).
  pose proof (gap_pos v). pose proof (excess_pos v).
  assert (A : 0 < angle_at v d) by (rewrite angle_excess by exact GP; nra).
  set (w := Rpower _ _). assert (PW : 0 < w) by apply exp_pos.
  assert (K : v QK / w < 1.607).
  { rewrite EQ. apply k_small; [exact PZ | exact PW|]. eapply Rlt_le_trans; [exact CB|]. apply Rmult_le_compat_l; [apply Rmult_le_pos; lra|].
    unfold w. rewrite angle_excess by exact GP. change ((d - v DLA) / (excess v + (d - v DLA) * v GME)) with (between_radius v (d - v DLA)).
    apply Rle_Rpower_l; [lra|]. split.
    - apply Rmult_lt_0_compat; [|exact W]. apply Rdiv_pos; [assumption | nra].
    - apply Rmult_le_compat_r; [lra|]. apply between_mono; assumption. }
  assert (0 < (1.607 - v QK / w) * 151 * w * angle_at v d).
  { apply Rmult_lt_0_compat; [|exact A]. apply Rmult_lt_0_compat; [|exact PW]. lra. }
  lra.
Qed.

(** ** The set-up *)
Lemma runs_geom (p : prop RA) v : values p [HE0; HE1; GME; DL0; DL1; THE0; THE1] v -> 0 < v GME -> 0 < v HE0 -> 0 < v HE1 -> exists q, lr_geom RA p = Ok q.
Proof.
  intros V G H0 H1. unfold lr_geom. set (T := fun m : res (prop RA) => exists q, m = Ok q). change (T (let! he0 := getn p HE0 in
    let! he1 := getn p HE1 in let! gme := getn p GME in let! t := (@n_mul RA (@n_Z RA 2) he0 /? gme)%num in let! dls0 := m_sqrt t in
    let! t0 := (@n_mul RA (@n_Z RA 2) he1 /? gme)%num in let! dls1 := m_sqrt t0 in
    let q := setn (setn (setn p DLS0 dls0) DLS1 dls1) DLSA (@n_add RA dls0 dls1) in
    let! dl0 := getn q DL0 in let! dl1 := getn q DL1 in let q := setn q DLA (@n_add RA dl0 dl1) in
    let! the0 := getn q THE0 in let! the1 := getn q THE1 in
    Ok (setb (setb (setn q THA (pymax (@n_add RA the0 the1) (@n_mul RA (@n_opp RA (@n_add RA dl0 dl1)) gme))) WLOS false) WSCAT false))).
  sr V. sr V. sr V. cbn [RA n_div n_mul n_Z m_sqrt]. sd lra. se (r_sqrt_ok ValueError (2 * v HE0 / v GME) ltac:(apply Rdiv_nonneg; lra)).
  sd lra. se (r_sqrt_ok ValueError (2 * v HE1 / v GME) ltac:(apply Rdiv_nonneg; lra)).
  dsimp. sr V. sr V. dsimp. sr V. sr V. eexists. reflexivity.
Qed.
Lemma runs_checks (p : prop RA) v k : values p [WN; HG0; HG1; THE0; THE1; DL0; DL1; DLS0; DLS1; ENS; GME; ZGR; ZGI] v -> pz p KWX = Some k ->
  exists q, lr_checks RA p = Ok q.
Proof.
  intros V K. unfold lr_checks.
  rewrite (proj2 (pn_getn RA p WN _) (V WN ltac:(inks))). cbn [bind]. rewrite (proj2 (pz_getz RA p KWX k) K). cbn [bind].
  do 12 rd V. eexists. reflexivity.
Qed.

Lemma xd1_nonneg v b : bending v -> diffraction_params v b -> 0 < v GME -> 0 <= v XD1.
Proof.
  intros (_ & ET) (_ & EX & _) G. rewrite EX. assert (- v DLA * v GME <= v THA) by (rewrite ET; apply Rmax_r).
  assert (- v DLA <= v THA / v GME); [|lra]. apply (Rmult_le_reg_r (v GME)); [exact G|]. unfold Rdiv. rewrite Rmult_assoc, Rinv_l, Rmult_1_r by lra. exact H.
Qed.
Lemma physical_ext v w : (forall k, In k setup_inputs -> v k = w k) -> physical v -> physical w.
Proof.
  intro E. unfold physical. rewrite !(E WN), !(E GME), !(E DH), !(E HG0), !(E HG1), !(E HE0), !(E HE1), !(E DL0), !(E DL1), !(E ZGR) by inks. auto.
Qed.
Lemma ground_ext v w : (forall k, In k setup_inputs -> v k = w k) -> ground_ok v -> ground_ok w.
Proof.
  intro E. unfold ground_ok, not_too_conducting, between_radius, smallest_gap, excess.
  rewrite !(E WN), !(E GME), !(E HE0), !(E HE1), !(E DL0), !(E DL1), !(E THE0), !(E THE1), !(E ZGR), !(E ZGI) by inks. auto.
Qed.
Definition diff_in : list nkey := setup_inputs ++ [DLA; THA; DLSA].
Lemma adiff_total_at (p : prop RA) (d : R) v b : values p at_keys v -> physical v -> ground_ok v -> bending v -> diffraction_params v b ->
  smallest_gap v <= d - v DLA -> exists a, adiff RA d p = Ok (a, p).
Proof.
  intros V P Gk B DP L. assert (P' := P). destruct P' as (W & G & D & _ & _ & _ & _ & L0 & L1 & _). pose proof (gap_pos v). pose proof (excess_pos v).
  assert (A : 0 < angle_at v d) by (rewrite angle_excess by exact B; nra).
  assert (LA : 0 < v DLA) by (destruct B as [-> _]; lra).
  assert (exists a, adiff_at RA ((1 / 3)%R : num RA) d p = Ok a) as [a E].
  { apply (at_head p v d (fun m => exists a, m = Ok a)); try assumption; try lra.
    - destruct DP as (-> & _). apply sqrt_pos.
    - eapply xd1_nonneg; eassumption.
    - intros _ a. exists a. reflexivity.
    - intro N. pose proof (rounded_x_pos v b d P Gk B DP L). lra. }
  exists a. unfold adiff. cbn [RA n_div n_Z n_eqb]. rewrite r_div_ok by lra. cbn [bind].
  rewrite (proj2 (r_eqb_false d 0)) by lra. change (num RA) with R in *. rewrite E. reflexivity.
Qed.
Lemma runs_diff (p : prop RA) v m : values p diff_in v -> pz p MDP = Some m -> physical v -> ground_ok v -> bending v -> 0 < v DLSA ->
  exists q, lr_diff RA ((1 / 3)%R : num RA) p = Ok q.
Proof.
  intros V M P Gk B S. set (T := fun m : res (prop RA) => exists q, m = Ok q). change (T (lr_diff RA ((1 / 3)%R : num RA) p)). unfold lr_diff.
  sr V. sr V. runfold. sd lra. assert (P' := P). destruct P' as (W & G & D & G0 & G1 & H0 & H1 & L0 & L1 & Z).
  set (p0 := setn p DMIN _).
  assert (V0 : values p0 diff_in v) by (intros k I; cbn in I; repeat (destruct I as [<-|I]; [apply (V _); inks|]); destruct I).
  assert (runs (adiff_init RA ((1 / 3)%R : num RA) p0) (fun _ => True)) as (p1 & E1 & _).
  { apply (runs_init p0 v m); try assumption; [|lra|auto].
    intros k I. apply V0. cbn in I |- *. repeat (destruct I as [<-|I]; [inks|]). destruct I. }
  assert (EA : adiff RA 0 p0 = Ok (0, p1)).
  { unfold adiff. cbn [RA n_div n_Z n_eqb]. rewrite r_div_ok by lra. cbn [bind]. rewrite (proj2 (r_eqb_true 0 0)) by reflexivity.
    change (num RA) with R in *. rewrite E1. reflexivity. }
  se EA. cbv beta iota. clear EA.
  assert (F1 := adiff_init_frame RA _ _ _ E1). cbn beta in F1. destruct (init_value p0 p1 m M E1) as [DP V1].
  assert (K : forall k, In k diff_in -> pn p1 k = Some (v k)).
  { intros k I. rewrite <- (V0 k I). apply (fr_pn _ _ _ _ _ _ F1). cbn in I. repeat (destruct I as [<-|I]; [reflexivity|]). destruct I. }
  assert (KV : forall k, In k diff_in -> v k = vals p1 k) by (intros k I; symmetry; apply vals_some; apply K; exact I).
  assert (KI : forall k, In k setup_inputs -> v k = vals p1 k) by (intros k I; apply KV; apply in_or_app; left; exact I).
  apply (physical_ext _ _ KI) in P. apply (ground_ext _ _ KI) in Gk.
  unfold bending in B. rewrite !(KV DLA), !(KV THA), !(KV DL0), !(KV DL1), !(KV THE0), !(KV THE1), !(KV GME) in B by inks. fold (bending (vals p1)) in B.
  assert (KP : forall k, In k diff_in -> pn p1 k = Some (vals p1 k)) by (intros k I; rewrite <- KV by exact I; apply K; exact I).
  rewrite (KV DLSA) in S by inks.
  set (u := vals p1) in *. clear KV KI K V V0 E1 F1 W G D G0 G1 H0 H1 L0 L1 Z. destruct P as (W & G & D & G0 & G1 & H0 & H1 & L0 & L1 & Z).
  sr KP. sr KP. se (r_powZ_2 (u GME)).
  assert (PX : 0 < u WN * u GME ^ 2) by (apply Rmult_lt_0_compat; [assumption | nra]).
  se (r_pow_ok (u WN * u GME ^ 2) (- (1 / 3)) PX). set (xae := Rpower _ _). assert (X : 0 < xae) by apply exp_pos.
  set (p2 := setn p1 XAE xae).
  assert (KP2 : values p2 diff_in u) by (intros k I; cbn in I; repeat (destruct I as [<-|I]; [apply KP; inks|]); destruct I).
  assert (V2 : values p2 at_keys u).
  { intros k I. cbn in I. repeat (destruct I as [<-|I]; [apply V1; inks|]); destruct I. }
  sr KP2. sr KP2. set (d3 := if r_ltb _ _ then _ else _).
  assert (L3 : smallest_gap u <= d3 - u DLA).
  { unfold smallest_gap. fold xae. unfold d3. replace (13787 / 10000) with 1.3787 by lra. unfold r_ltb. destruct (Rlt_dec (u DLSA) (1.3787 * xae + u DLA)); lra. }
  assert (S3 : u DLSA <= d3) by (unfold d3, r_ltb; destruct (Rlt_dec (u DLSA) (13787 / 10000 * xae + u DLA)); lra).
  destruct (adiff_total_at p2 d3 u (m <? 0)%Z V2) as [a3 E3]; try assumption; [repeat split; assumption|]. se E3. cbv beta iota. clear E3.
  destruct (adiff_total_at p2 (d3 + 27574 / 10000 * xae) u (m <? 0)%Z V2) as [a4 E4]; try assumption; [repeat split; assumption | lra |]. se E4. cbv beta iota. clear E4.
  sd lra. dsimp. sr KP. sd ltac:(destruct (r_ltb (10000 / 1) (u DLSA)); lra).
  assert (0 <= u WN * u DH / (if r_ltb (10000 / 1) (u DLSA) then u DLSA else 10000 / 1)).
  { apply Rdiv_nonneg; [apply Rmult_le_pos; lra|]. destruct (r_ltb (10000 / 1) (u DLSA)); lra. }
  sd lra. eexists. reflexivity.
Qed.
Lemma setup_total (p : prop RA) v m k : values p (ENS :: setup_inputs) v -> pz p MDP = Some m -> pz p KWX = Some k -> physical v -> ground_ok v ->
  exists q, lr_setup RA ((1 / 3)%R : num RA) p = Ok q.
Proof.
  intros V M K P Gk. assert (P' := P). destruct P' as (W & G & D & G0 & G1 & H0 & H1 & L0 & L1 & Z).
  destruct (runs_geom p v) as [q1 E1]; [intros x I; apply V; cbn in I |- *; tauto | assumption..|].
  assert (F1 := E1). apply lr_geom_frame in F1. destruct (geom_value p q1 E1) as (_ & _ & SE & AE & TE & V1).
  assert (A1 : forall x, In x (ENS :: setup_inputs) -> pn q1 x = Some (v x)).
  { intros x I. rewrite <- (V x I). apply (fr_pn _ _ _ _ _ _ F1). cbn in I. repeat (destruct I as [<-|I]; [reflexivity|]). destruct I. }
  assert (KV : forall x, In x (ENS :: setup_inputs) -> v x = vals q1 x) by (intros x I; symmetry; apply vals_some; apply A1; exact I).
  assert (KI : forall x, In x setup_inputs -> v x = vals q1 x) by (intros x I; apply KV; right; exact I).
  destruct (runs_checks q1 (vals q1) k) as [q2 E2].
  { intros x I. cbn in I. repeat (destruct I as [<-|I]; [first [solve [apply V1; inks] | solve [rewrite <- KV by inks; apply A1; inks]]|]). destruct I. }
  { rewrite (fr_pz _ _ _ _ _ KWX F1 eq_refl). exact K. }
  assert (F2 := E2). apply lr_checks_frame in F2.
  destruct (runs_diff q2 (vals q1) m) as [q3 E3].
  { intros x I. rewrite (fr_pn _ _ _ _ _ x F2) by reflexivity. cbn in I. repeat (destruct I as [<-|I]; [first [solve [apply V1; inks] | solve [rewrite <- KV by inks; apply A1; inks]]|]). destruct I. }
  { rewrite (fr_pz _ _ _ _ _ MDP F2 eq_refl), (fr_pz _ _ _ _ _ MDP F1 eq_refl). exact M. }
  { apply (physical_ext _ _ KI). exact P. }
  { apply (ground_ext _ _ KI). exact Gk. }
  { split; assumption. }
  { rewrite SE. destruct (geom_value p q1 E1) as (X0 & X1 & _). rewrite X0, X1. rewrite <- !(KV HE0), <- !(KV HE1), <- !(KV GME) by inks.
    apply Rplus_lt_0_compat; apply sqrt_lt_R0; apply Rdiv_pos; lra. }
  exists q3. unfold lr_setup. rewrite E1. cbn [bind]. rewrite E2. cbn [bind]. exact E3.
Qed.
