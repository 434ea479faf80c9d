(** Accuracy of qerf and qerfi. *)
From Verif Require Import RTac Misc PfMisc.
From Coquelicot Require Import Coquelicot.
From Interval Require Import Tactic.
From Verif Require Import SpecNormal PfGauss.
Open Scope R_scope.

(** ** The error of the approximation used for |z| < 10. *)
Definition De (z : R) : R := qu z - (1 / 2 - RInt normal_density 0 z).
(** the sign of its derivative *)
Definition Dk (z : R) : R :=
  / sqrt (2 * PI) - 398942280/1000000000 * (z * (qg (qs z) * qs z) + qs z * qs z / (4317008/1000000) *
   ((((5*(1330274429/1000000000) * qs z + 4*((-1821255987)/1000000000)) * qs z + 3*(1781477937/1000000000)) * qs z + 2*((-356563782)/1000000000)) * qs z + 319381530/1000000000)).

Lemma int_derive z : is_derive (RInt normal_density 0) z (normal_density z).
Proof.
  apply (is_derive_RInt normal_density _ 0 z); [|apply dens_cont].
  exists (mkposreal 1 Rlt_0_1). intros y _. apply (RInt_correct (V := R_CompleteNormedModule)). apply dens_int.
Qed.
Lemma De_derive z : 0 <= z -> is_derive De z (exp (- z ^ 2 / 2) * Dk z).
Proof.
  intro Z. unfold De.
  assert (Q : is_derive qu z (exp (- z ^ 2 / 2) * (Dk z - / sqrt (2 * PI)))).
  { unfold qu, Dk, qg, qs. auto_derive; [lra|].
    replace (-5 / 10 * (z * (z * 1))) with (- z ^ 2 / 2) by field. set (e := exp _). clearbody e.
    set (w := / sqrt (2 * PI)). clearbody w. field. lra. }
  replace (exp (- z ^ 2 / 2) * Dk z) with (exp (- z ^ 2 / 2) * (Dk z - / sqrt (2 * PI)) - (0 - normal_density z)) by (unfold normal_density, Rdiv; ring).
  apply (is_derive_minus qu (fun z => 1 / 2 - RInt normal_density 0 z)); [exact Q|].
  apply (is_derive_minus (fun _ => 1 / 2) (RInt normal_density 0)); [apply (is_derive_const (1 / 2) z) | apply int_derive].
Qed.

(** Monotone pieces and short pieces. *)
Lemma piece f f' a b : (forall z, a <= z <= b -> is_derive f z (f' z)) -> forall u v, a <= u -> u <= v -> v <= b ->
  exists c, u <= c <= v /\ f v - f u = f' c * (v - u).
Proof.
  intros D u v A B C. destruct (MVT_gen f u v f') as [c [[I1 I2] E]].
  - intros y [Y1 Y2]. rewrite Rmin_left in Y1 by lra. rewrite Rmax_right in Y2 by lra. apply D. lra.
  - intros y [Y1 Y2]. rewrite Rmin_left in Y1 by lra. rewrite Rmax_right in Y2 by lra.
    apply (derivable_continuous_pt f y). exists (f' y). apply is_derive_Reals, D. lra.
  - rewrite Rmin_left in I1 by lra. rewrite Rmax_right in I2 by lra. exists c. split; [lra | exact E].
Qed.
Lemma piece_up f f' a b : (forall z, a <= z <= b -> is_derive f z (f' z)) -> (forall z, a <= z <= b -> 0 <= f' z) ->
  forall z, a <= z <= b -> f a <= f z <= f b.
Proof.
  intros D S z Z. destruct (piece f f' a b D a z) as [c [C E]]; try lra. destruct (piece f f' a b D z b) as [c' [C' E']]; try lra.
  assert (0 <= f' c * (z - a)) by (apply Rmult_le_pos; [apply S|]; lra). assert (0 <= f' c' * (b - z)) by (apply Rmult_le_pos; [apply S|]; lra). lra.
Qed.
Lemma piece_down f f' a b : (forall z, a <= z <= b -> is_derive f z (f' z)) -> (forall z, a <= z <= b -> f' z <= 0) ->
  forall z, a <= z <= b -> f b <= f z <= f a.
Proof.
  intros D S z Z. destruct (piece_up (fun z => - f z) (fun z => - f' z) a b) with (z := z); try lra.
  - intros y Y. apply (is_derive_opp f). auto.
  - intros y Y. specialize (S y Y). lra.
Qed.
Lemma piece_flat f f' a b m : (forall z, a <= z <= b -> is_derive f z (f' z)) -> (forall z, a <= z <= b -> Rabs (f' z) <= m) ->
  forall z, a <= z <= b -> Rabs (f z - f a) <= m * (b - a).
Proof.
  intros D S z Z. destruct (piece f f' a b D a z) as [c [C E]]; try lra. rewrite E, Rabs_mult, (Rabs_right (z - a)) by lra.
  assert (Rabs (f' c) <= m) by (apply S; lra). pose proof (Rabs_pos (f' c)). apply Rmult_le_compat; lra.
Qed.
Lemma e_bounds z : 0 < exp (- z ^ 2 / 2) <= 1.
Proof. split; [apply exp_pos|]. rewrite <- exp_0. apply exp_le. pose proof (pow2_ge_0 z). lra. Qed.

Section err.
Definition m0 : R := 83 / 10 ^ 9.
Lemma De_node (a c : R) : Rabs (De a) <= c -> - c <= De a <= c.
Proof. intro H. apply Rabs_le_between in H. exact H. Qed.
Lemma down a b : 0 <= a -> (forall z, a <= z <= b -> Dk z <= 0) -> Rabs (De a) <= m0 -> Rabs (De b) <= m0 -> forall z, a <= z <= b -> Rabs (De z) <= m0.
Proof.
  intros A S X Y z Z. apply De_node in X. apply De_node in Y. apply Rabs_le.
  destruct (piece_down De (fun z => exp (- z ^ 2 / 2) * Dk z) a b) with (z := z); try lra.
  - intros y K. apply De_derive. lra.
  - intros y K. specialize (S y K). pose proof (e_bounds y). apply Rmult_le_0_l; lra.
Qed.
Lemma up a b : 0 <= a -> (forall z, a <= z <= b -> 0 <= Dk z) -> Rabs (De a) <= m0 -> Rabs (De b) <= m0 -> forall z, a <= z <= b -> Rabs (De z) <= m0.
Proof.
  intros A S X Y z Z. apply De_node in X. apply De_node in Y. apply Rabs_le.
  destruct (piece_up De (fun z => exp (- z ^ 2 / 2) * Dk z) a b) with (z := z); try lra.
  - intros y K. apply De_derive. lra.
  - intros y K. specialize (S y K). pose proof (e_bounds y). apply Rmult_le_pos; lra.
Qed.
Lemma flat a b m : 0 <= a -> a <= b -> (forall z, a <= z <= b -> Rabs (Dk z) <= m) -> Rabs (De a) + m * (b - a) <= m0 -> forall z, a <= z <= b -> Rabs (De z) <= m0.
Proof.
  intros A B S X z Z. assert (Rabs (De z - De a) <= m * (b - a)).
  { apply (piece_flat De (fun z => exp (- z ^ 2 / 2) * Dk z) a b); try lra.
    - intros y K. apply De_derive. lra.
    - intros y K. specialize (S y K). rewrite Rabs_mult. pose proof (e_bounds y). rewrite (Rabs_right (exp _)) by lra.
      pose proof (Rabs_pos (Dk y)). assert (exp (- y ^ 2 / 2) * Rabs (Dk y) <= 1 * Rabs (Dk y)) by (apply Rmult_le_compat_r; lra). lra. }
  replace (De z) with (De a + (De z - De a)) by ring. eapply Rle_trans; [apply Rabs_triang|]. lra.
Qed.
End err.
Ltac node := unfold De, normal_density, qu, qg, qs, m0; first [integral with (i_prec 50, i_relwidth 25) | integral with (i_prec 50, i_relwidth 27) | integral with (i_prec 50, i_relwidth 29) | integral with (i_prec 50, i_relwidth 33)].
Ltac sgn := intros; unfold Dk, qg, qs; match goal with H : _ <= ?z <= _ |- _ => first [interval with (i_bisect z, i_taylor z, i_degree 3, i_prec 40, i_depth 14) | interval with (i_bisect z, i_taylor z, i_degree 5, i_prec 45, i_depth 16) | interval with (i_bisect z, i_taylor z, i_prec 50, i_depth 25)] end.

Lemma N0 : Rabs (De 0) <= m0. Proof. unfold De. rewrite RInt_point. unfold zero; cbn [AbelianGroup.zero]; cbn -[qu PI]. unfold qu, qg, qs, m0. interval with (i_prec 60). Qed.
Lemma N_653_10000 : Rabs (De (653/10000)) <= m0. Proof. node. Qed.
Lemma N_655_10000 : Rabs (De (655/10000)) <= m0. Proof. node. Qed.
Lemma N_3123_10000 : Rabs (De (3123/10000)) <= m0. Proof. node. Qed.
Lemma N_3125_10000 : Rabs (De (3125/10000)) <= m0. Proof. node. Qed.
Lemma N_7158_10000 : Rabs (De (7158/10000)) <= m0. Proof. node. Qed.
Lemma N_7159_10000 : Rabs (De (7159/10000)) <= m0. Proof. node. Qed.
Lemma N_127_100 : Rabs (De (127/100)) <= m0. Proof. node. Qed.
Lemma N_1276_1000 : Rabs (De (1276/1000)) <= m0. Proof. node. Qed.
Lemma N_197_100 : Rabs (De (197/100)) <= m0. Proof. node. Qed.
Lemma N_198_100 : Rabs (De (198/100)) <= m0. Proof. node. Qed.
Lemma N_301_100 : Rabs (De (301/100)) <= m0. Proof. node. Qed.
Lemma N_302_100 : Rabs (De (302/100)) <= m0. Proof. node. Qed.
Lemma N10 : Rabs (De (10)) <= m0. Proof. node. Qed.
Lemma De_cover z : 0 <= z <= 10 -> Rabs (De z) <= m0.
Proof.
  intro Z.
  destruct (Rle_dec z (653/10000)). { apply (down 0 (653/10000)); try lra; [sgn | apply N0 | exact N_653_10000]. }
  destruct (Rle_dec z (655/10000)). { apply (flat (653/10000) (655/10000) (1/10^5)); try lra; [sgn | node]. }
  destruct (Rle_dec z (3123/10000)). { apply (up (655/10000) (3123/10000)); try lra; [sgn | exact N_655_10000 | exact N_3123_10000]. }
  destruct (Rle_dec z (3125/10000)). { apply (flat (3123/10000) (3125/10000) (1/10^5)); try lra; [sgn | node]. }
  destruct (Rle_dec z (7158/10000)). { apply (down (3125/10000) (7158/10000)); try lra; [sgn | exact N_3125_10000 | exact N_7158_10000]. }
  destruct (Rle_dec z (7159/10000)). { apply (flat (7158/10000) (7159/10000) (1/10^6)); try lra; [sgn | node]. }
  destruct (Rle_dec z (127/100)). { apply (up (7159/10000) (127/100)); try lra; [sgn | exact N_7159_10000 | exact N_127_100]. }
  destruct (Rle_dec z (1276/1000)). { apply (flat (127/100) (1276/1000) (1/10^6)); try lra; [sgn | node]. }
  destruct (Rle_dec z (197/100)). { apply (down (1276/1000) (197/100)); try lra; [sgn | exact N_1276_1000 | exact N_197_100]. }
  destruct (Rle_dec z (198/100)). { apply (flat (197/100) (198/100) (1/10^6)); try lra; [sgn | node]. }
  destruct (Rle_dec z (301/100)). { apply (up (198/100) (301/100)); try lra; [sgn | exact N_198_100 | exact N_301_100]. }
  destruct (Rle_dec z (302/100)). { apply (flat (301/100) (302/100) (1/10^6)); try lra; [sgn | node]. }
  apply (down (302/100) 10); try lra; [sgn | exact N_302_100 | exact N10].
Qed.

Lemma tail_nonneg z q : normal_tail z q -> 0 <= q.
Proof.
  intro H. apply (is_lim_le_loc (fun _ => 0) (fun b => RInt normal_density z b) p_infty 0 q); [|apply is_lim_const | exact H].
  exists z. intros b B. apply RInt_ge_0; [lra | apply dens_int|]. intros; left; apply dens_pos.
Qed.
Lemma int_mono z z' : z <= z' -> RInt normal_density 0 z <= RInt normal_density 0 z'.
Proof.
  intro. pose proof (RInt_split z z') as E.
  enough (0 <= RInt normal_density z z') by lra. clear E. apply RInt_ge_0; [lra | apply dens_int|]. intros; left; apply dens_pos.
Qed.
Lemma int_strict z z' : z < z' -> RInt normal_density 0 z < RInt normal_density 0 z'.
Proof.
  intro. pose proof (RInt_split z z') as E.
  enough (0 < RInt normal_density z z') by lra. clear E. apply RInt_gt_0; [lra | intros; apply dens_pos | intros; apply dens_cont].
Qed.
Lemma int_odd z : RInt normal_density 0 (- z) = - RInt normal_density 0 z.
Proof.
  assert (E : RInt (fun t => scal (-1) (normal_density (-1 * t + 0))) 0 z = RInt normal_density (-1 * 0 + 0) (-1 * z + 0)).
  { apply (RInt_comp_lin normal_density (-1) 0 0 z). apply dens_int. }
  replace (-1 * 0 + 0) with 0 in E by ring. replace (-1 * z + 0) with (- z) in E by ring. rewrite <- E.
  rewrite (RInt_ext _ (fun t => opp (normal_density t))).
  - apply (RInt_opp (V := R_CompleteNormedModule) normal_density 0 z). apply dens_int.
  - intros t _. unfold normal_density, scal, opp; cbn -[pow PI sqrt]; unfold mult; cbn -[pow PI sqrt].
    replace ((-1 * t + 0) ^ 2) with (t ^ 2) by ring. field. apply Rgt_not_eq, sqrt_lt_R0. pose proof PI_RGT_0. lra.
Qed.
Lemma int_10 : 1 / 2 - RInt normal_density 0 10 <= 1 / 10 ^ 8.
Proof. unfold normal_density. integral with (i_prec 50, i_relwidth 27). Qed.

Lemma qerf_pos_acc z : 0 <= z -> exists v : R, qerf RA z = Ok v /\ Rabs (v - (1 / 2 - RInt normal_density 0 z)) <= 83 / 10 ^ 9.
Proof.
  intro Z. rewrite qerf_run, Rabs_right by lra. eexists. split; [reflexivity|]. destruct (Rlt_dec z 0); [lra|].
  destruct (Rle_dec 10 z) as [H|H].
  - pose proof (tail_nonneg _ _ (tail_value z)). pose proof (int_mono 10 z H). pose proof int_10. apply Rabs_le. lra.
  - apply De_cover. lra.
Qed.
Lemma qerf_acc (z v q : R) : qerf RA z = Ok v -> normal_tail z q -> Rabs (v - q) <= 83 / 10 ^ 9.
Proof.
  intros V T. apply tail_unique in T. subst q. destruct (Rle_dec 0 z) as [H|H].
  - destruct (qerf_pos_acc z H) as [w [W B]]. rewrite V in W. assert (v = w) by congruence. subst. exact B.
  - destruct (qerf_pos_acc (- z) ltac:(lra)) as [w [W B]]. rewrite int_odd in B.
    pose proof (qerf_refl z v w ltac:(lra) V W) as E. subst w.
    replace (v - (1 / 2 - RInt normal_density 0 z)) with (- (1 - v - (1 / 2 - - RInt normal_density 0 z))) by lra. rewrite Rabs_Ropp. exact B.
Qed.
(** the documented bound 7.5e-8 is exceeded *)
Lemma qerf_doc : exists z v q : R, qerf RA z = Ok v /\ normal_tail z q /\ Rabs (v - q) > 82 / 10 ^ 9.
Proof.
  exists (7158/10000). rewrite qerf_run. rewrite Rabs_right by lra. destruct (Rle_dec _ _); [lra|]. destruct (Rlt_dec _ _); [lra|].
  do 2 eexists. split; [reflexivity|]. split; [apply tail_value|].
  apply Rlt_gt. apply Rlt_le_trans with (- (qu (7158/10000) - (1/2 - RInt normal_density 0 (7158/10000)))).
  2:{ rewrite <- Rabs_Ropp. apply Rle_abs. }
  unfold normal_density, qu, qg, qs. integral with (i_prec 50, i_relwidth 33).
Qed.

(** ** qerfi *)
Definition Fe (e i : R) : R := exp (- i ^ 2 / 2) - (1 / 2 - RInt normal_density 0 (ih i + e)).
Definition dih (i : R) : R := 1 - ((2 * (10328/1000000) * i + 802853/1000000) * iD i - iN i * ((3 * (1308/1000000) * i + 2 * (189269/1000000)) * i + 1432788/1000000)) / (iD i * iD i).
Definition Fk (e i : R) : R := - i + dih i * exp ((i ^ 2 - (ih i + e) ^ 2) / 2) / sqrt (2 * PI).
Lemma Fe_derive e i : 0 <= i -> is_derive (Fe e) i (exp (- i ^ 2 / 2) * Fk e i).
Proof.
  intro I0. pose proof (iD_pos i I0) as P. unfold Fe.
  assert (H : is_derive (fun i => ih i + e) i (dih i)).
  { unfold ih, dih, iN. unfold iD in P |- *. auto_derive; [lra|]. field. lra. }
  assert (K : is_derive (fun i => exp (- i ^ 2 / 2)) i (- i * exp (- i ^ 2 / 2))).
  { auto_derive; [exact Logic.I|]. replace (- (i * (i * 1)) * / 2) with (- i ^ 2 / 2) by field. field. }
  pose proof (is_derive_comp (RInt normal_density 0) (fun i => ih i + e) i _ _ (int_derive (ih i + e)) H) as L.
  assert (E : exp (- i ^ 2 / 2) * Fk e i = - i * exp (- i ^ 2 / 2) - (0 - scal (dih i) (normal_density (ih i + e)))).
  { unfold Fk, normal_density, scal; cbn -[pow PI sqrt]; unfold mult; cbn -[pow PI sqrt].
    replace ((i ^ 2 - (ih i + e) ^ 2) / 2) with (- (- i ^ 2 / 2) + - (ih i + e) ^ 2 / 2) by field. rewrite exp_plus, exp_Ropp.
    pose proof (exp_pos (- i ^ 2 / 2)). assert (0 < sqrt (2 * PI)) by (apply sqrt_lt_R0; pose proof PI_RGT_0; lra).
    set (x := exp (- i ^ 2 / 2)) in *. clearbody x. set (s := sqrt (2 * PI)) in *. clearbody s. field. lra. }
  rewrite E. apply (is_derive_minus (fun i => exp (- i ^ 2 / 2)) (fun i => 1 / 2 - RInt normal_density 0 (ih i + e))); [exact K|].
  apply (is_derive_minus (fun _ => 1 / 2) (fun i => RInt normal_density 0 (ih i + e))); [apply (is_derive_const (1 / 2) i) | exact L].
Qed.
Lemma Fdown e a b : 0 <= a -> (forall i, a <= i <= b -> Fk e i <= 0) -> forall i, a <= i <= b -> Fe e b <= Fe e i <= Fe e a.
Proof.
  intros A S i I. apply (piece_down (Fe e) (fun i => exp (- i ^ 2 / 2) * Fk e i) a b); try lra.
  - intros y K. apply Fe_derive. lra.
  - intros y K. specialize (S y K). pose proof (e_bounds y). apply Rmult_le_0_l; lra.
Qed.
Lemma Fup e a b : 0 <= a -> (forall i, a <= i <= b -> 0 <= Fk e i) -> forall i, a <= i <= b -> Fe e a <= Fe e i <= Fe e b.
Proof.
  intros A S i I. apply (piece_up (Fe e) (fun i => exp (- i ^ 2 / 2) * Fk e i) a b); try lra.
  - intros y K. apply Fe_derive. lra.
  - intros y K. specialize (S y K). pose proof (e_bounds y). apply Rmult_le_pos; lra.
Qed.
Lemma Fflat e a b m : 0 <= a -> a <= b -> (forall i, a <= i <= b -> Rabs (Fk e i) <= m) -> forall i, a <= i <= b -> Rabs (Fe e i - Fe e a) <= m * (b - a).
Proof.
  intros A B S i I. apply (piece_flat (Fe e) (fun i => exp (- i ^ 2 / 2) * Fk e i) a b); try lra.
  - intros y K. apply Fe_derive. lra.
  - intros y K. specialize (S y K). rewrite Rabs_mult. pose proof (e_bounds y). rewrite (Rabs_right (exp _)) by lra.
    pose proof (Rabs_pos (Fk e y)). assert (exp (- y ^ 2 / 2) * Rabs (Fk e y) <= 1 * Rabs (Fk e y)) by (apply Rmult_le_compat_r; lra). lra.
Qed.
Definition eps : R := 45 / 100000.
Ltac fnode := unfold Fe, normal_density, ih, iN, iD, eps; first [integral with (i_prec 50, i_relwidth 15) | integral with (i_prec 50, i_relwidth 18) | integral with (i_prec 50, i_relwidth 22) | integral with (i_prec 50, i_relwidth 29) | integral with (i_prec 50, i_relwidth 36)].
Ltac fsgn := intros; unfold Fk, dih, ih, iN, iD, eps; match goal with H : _ <= ?z <= _ |- _ => first [interval with (i_bisect z, i_taylor z, i_degree 3, i_prec 40, i_depth 14) | interval with (i_bisect z, i_taylor z, i_degree 5, i_prec 45, i_depth 16) | interval with (i_bisect z, i_taylor z, i_prec 50, i_depth 25)] end.
Lemma F_plus i : 1177/1000 <= i <= 5257/1000 -> 0 <= Fe eps i.
Proof.
  intro I.
  destruct (Rle_dec i (1434/1000)).
  { destruct (Fdown eps (1177/1000) (1434/1000)) with (i := i); try lra; [fsgn|]. enough (0 <= Fe eps (1434/1000)) by lra. fnode. }
  destruct (Rle_dec i (14345/10000)).
  { assert (H := Fflat eps (1434/1000) (14345/10000) (1/1000) ltac:(lra) ltac:(lra) ltac:(fsgn) i ltac:(lra)). apply Rabs_le_between in H.
    enough (1/10^6 <= Fe eps (1434/1000)) by lra. fnode. }
  destruct (Rle_dec i (208/100)).
  { destruct (Fup eps (14345/10000) (208/100)) with (i := i); try lra; [fsgn|]. enough (0 <= Fe eps (14345/10000)) by lra. fnode. }
  destruct (Rle_dec i (209/100)).
  { assert (H := Fflat eps (208/100) (209/100) (1/1000) ltac:(lra) ltac:(lra) ltac:(fsgn) i ltac:(lra)). apply Rabs_le_between in H.
    enough (5/10^5 <= Fe eps (208/100)) by lra. fnode. }
  destruct (Fdown eps (209/100) (5257/1000)) with (i := i); try lra; [fsgn|]. enough (0 <= Fe eps (5257/1000)) by lra. fnode.
Qed.
Lemma F_minus i : 1177/1000 <= i <= 5257/1000 -> Fe (- eps) i <= 0.
Proof.
  intro I.
  destruct (Rle_dec i (139/100)).
  { destruct (Fdown (- eps) (1177/1000) (139/100)) with (i := i); try lra; [fsgn|]. enough (Fe (- eps) (1177/1000) <= 0) by lra. fnode. }
  destruct (Rle_dec i (1395/1000)).
  { assert (H := Fflat (- eps) (139/100) (1395/1000) (1/1000) ltac:(lra) ltac:(lra) ltac:(fsgn) i ltac:(lra)). apply Rabs_le_between in H.
    enough (Fe (- eps) (139/100) <= - (1/10^5)) by lra. fnode. }
  destruct (Rle_dec i (2924/1000)).
  { destruct (Fup (- eps) (1395/1000) (2924/1000)) with (i := i); try lra; [fsgn|]. enough (Fe (- eps) (2924/1000) <= 0) by lra. fnode. }
  destruct (Rle_dec i (29245/10000)).
  { assert (H := Fflat (- eps) (2924/1000) (29245/10000) (1/10^4) ltac:(lra) ltac:(lra) ltac:(fsgn) i ltac:(lra)). apply Rabs_le_between in H.
    enough (Fe (- eps) (2924/1000) <= - (1/10^7)) by lra. fnode. }
  destruct (Rle_dec i (341/100)).
  { destruct (Fdown (- eps) (29245/10000) (341/100)) with (i := i); try lra; [fsgn|]. enough (Fe (- eps) (29245/10000) <= 0) by lra. fnode. }
  destruct (Rle_dec i (342/100)).
  { assert (H := Fflat (- eps) (341/100) (342/100) (2/10^5) ltac:(lra) ltac:(lra) ltac:(fsgn) i ltac:(lra)). apply Rabs_le_between in H.
    enough (Fe (- eps) (341/100) <= - (5/10^7)) by lra. fnode. }
  destruct (Fup (- eps) (342/100) (5257/1000)) with (i := i); try lra; [fsgn|]. enough (Fe (- eps) (5257/1000) <= 0) by lra. fnode.
Qed.
Lemma iy_acc (q x : R) : 1/1000000 <= q <= 1/2 -> normal_tail x q -> Rabs (iy q - x) <= 45 / 100000.
Proof.
  intros B T. apply tail_unique in T. unfold iy. set (i := sqrt (-2 * ln q)).
  assert (L : ln q <= 0) by (rewrite <- ln_1; apply ln_le_mono; lra).
  assert (E : exp (- i ^ 2 / 2) = q).
  { unfold i. rewrite <- Rsqr_pow2, Rsqr_sqrt by lra. replace (- (-2 * ln q) / 2) with (ln q) by field. apply exp_ln. lra. }
  assert (I : 1177/1000 <= i <= 5257/1000). { unfold i. split; interval with (i_prec 40). }
  pose proof (F_plus i I) as P. pose proof (F_minus i I) as M. unfold Fe in P, M. rewrite E, T in P, M.
  fold eps. apply Rabs_le. split.
  - destruct (Rle_dec x (ih i + eps)) as [H|H]; [lra|]. pose proof (int_strict (ih i + eps) x ltac:(lra)). lra.
  - destruct (Rle_dec (ih i + - eps) x) as [H|H]; [lra|]. pose proof (int_strict x (ih i + - eps) ltac:(lra)). lra.
Qed.
Lemma qerfi1_acc (q x v : R) : 1/1000000 <= q <= 1 - 1/1000000 -> normal_tail x q -> qerfi1 RA q = Ok v -> Rabs (v - x) <= 5 / 10000.
Proof.
  intros B T V. rewrite qerfi1_run in V.
  assert (V' := f_equal (fun r => match r with Ok a => a | Err _ => 0 end) V). cbn in V'. clear V. subst v.
  set (y := if Rlt_dec (5/10 - q) 0 then _ else _).
  assert (Y : Rabs (y - x) <= 45 / 100000).
  { unfold y. destruct (Rlt_dec _ _) as [H|H].
    - assert (N : normal_tail (- x) (1 - q)).
      { apply tail_unique in T. subst q. replace (1 - _) with (1 / 2 - RInt normal_density 0 (- x)); [apply tail_value|]. rewrite int_odd. lra. }
      assert (K : it q = 1 - q). { unfold it. rewrite Rabs_left by lra. rewrite Rmax_left; lra. } rewrite K.
      pose proof (iy_acc (1 - q) (- x) ltac:(lra) N) as A. rewrite <- Rabs_Ropp. replace (- (- iy (1 - q) - x)) with (iy (1 - q) - - x) by ring. exact A.
    - assert (K : it q = q). { unfold it. rewrite Rabs_right by lra. rewrite Rmax_left; lra. } rewrite K. apply iy_acc; [lra | exact T]. }
  destruct (rrint_spec (y * 10000)) as [R0 _]. set (k := IZR (rrint _)) in *. apply Rabs_le_between in R0. apply Rabs_le_between in Y. apply Rabs_le. lra.
Qed.
Lemma qerfi_acc (q x v : R) : 1/1000000 <= q <= 1 - 1/1000000 -> normal_tail x q -> qerfi RA (q :: nil) = Ok (v :: nil) -> Rabs (v - x) <= 5 / 10000.
Proof. intros B T V. eapply qerfi1_acc; try eassumption. apply qerfi_one_inv. exact V. Qed.
Lemma tail_exists_unique (z : R) : exists q : R, normal_tail z q /\ forall q', normal_tail z q' -> q' = q.
Proof. eexists. split; [apply tail_value|]. intros q' H. apply tail_unique. exact H. Qed.
Lemma tail_zero : normal_tail 0 (1 / 2).
Proof. pose proof (tail_value 0) as H. rewrite RInt_point in H. replace (1 / 2) with (1 / 2 - zero) by (unfold zero; cbn; lra). exact H. Qed.
(** The integral takes every value of (-1/2, 1/2). *)
Lemma int_cont : continuity (RInt normal_density 0).
Proof. intro z. apply (derivable_continuous_pt _ z). exists (normal_density z). apply is_derive_Reals, int_derive. Qed.
Lemma int_reach (m : R) : m < 1 / 2 -> exists b : R, 0 < b /\ m < RInt normal_density 0 b.
Proof.
  intro M. destruct (proj2 (is_lim_spec _ _ _) dens_lim (mkposreal (1 / 2 - m) ltac:(lra))) as [N H].
  exists (Rmax N 0 + 1). pose proof (Rmax_l N 0). pose proof (Rmax_r N 0). split; [lra|].
  specialize (H (Rmax N 0 + 1) ltac:(lra)). cbn [pos] in H. apply Rabs_lt_between in H. lra.
Qed.
Lemma deviate_exists (q : R) : 0 < q < 1 -> exists x : R, normal_tail x q.
Proof.
  intro B. destruct (int_reach (1 / 2 - q)) as [b [B0 Hb]]; [lra|]. destruct (int_reach (q - 1 / 2)) as [c [C0 Hc]]; [lra|].
  destruct (IVT (fun x => RInt normal_density 0 x - (1 / 2 - q)) (- c) b) as [x [_ E]].
  - apply continuity_minus; [apply int_cont|]. apply continuity_const. intros ? ?. reflexivity.
  - lra.
  - rewrite int_odd. lra.
  - lra.
  - exists x. replace q with (1 / 2 - RInt normal_density 0 x) by lra. apply tail_value.
Qed.
