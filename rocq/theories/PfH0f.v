(** Proofs about h0f over the reals. *)
From Verif Require Import RTac Atten.
Open Scope R_scope.

Definition clamp01 (x : R) : R := if Rlt_dec x 0 then 0 else if Rlt_dec 1 x then 1 else x.
Lemma clamp01_range x : 0 <= clamp01 x <= 1.
Proof. unfold clamp01. destruct (Rlt_dec x 0); [lra|]. destruct (Rlt_dec 1 x); lra. Qed.
Lemma clamp01_mono x y : x <= y -> clamp01 x <= clamp01 y.
Proof.
  intros. unfold clamp01.
  repeat match goal with |- context [Rlt_dec ?u ?v] => destruct (Rlt_dec u v); try lra end.
Qed.
Lemma clamp01_0 x : x <= 0 -> clamp01 x = 0.
Proof. intros. unfold clamp01. repeat match goal with |- context [Rlt_dec ?u ?v] => destruct (Rlt_dec u v); try lra end. Qed.
Lemma clamp01_1 x : 1 <= x -> clamp01 x = 1.
Proof. intros. unfold clamp01. repeat match goal with |- context [Rlt_dec ?u ?v] => destruct (Rlt_dec u v); try lra end. Qed.
Lemma clamp01_id x : 0 <= x <= 1 -> clamp01 x = x.
Proof. intros. unfold clamp01. repeat match goal with |- context [Rlt_dec ?u ?v] => destruct (Rlt_dec u v); try lra end. Qed.
Lemma clamp_sum x y : x <= y ->
  0 <= (clamp01 (y - 1) - clamp01 (x - 1)) + (clamp01 (y - 2) - clamp01 (x - 2))
     + (clamp01 (y - 3) - clamp01 (x - 3)) + (clamp01 (y - 4) - clamp01 (x - 4)) <= y - x.
Proof.
  intros. unfold clamp01.
  repeat match goal with |- context [Rlt_dec ?u ?v] => destruct (Rlt_dec u v); try lra end.
Qed.

(** The value for the table row with coefficients a, b. *)
Definition h_row (a b r : R) : R := 4.343 * ln ((a * (/ r) ^ 2 + b) * (/ r) ^ 2 + 1).
Definition h1 := h_row 25 24.
Definition h2 := h_row 80 45.
Definition h3 := h_row 177 68.
Definition h4 := h_row 395 80.
Definition h5 := h_row 705 105.

Lemma h_arg a b r : 0 <= a -> 0 <= b -> 1 <= (a * (/ r) ^ 2 + b) * (/ r) ^ 2 + 1.
Proof.
  intros. pose proof (pow2_ge_0 (/ r)).
  assert (0 <= (a * (/ r) ^ 2 + b) * (/ r) ^ 2).
  { apply Rmult_le_pos; [|assumption]. assert (0 <= a * (/ r) ^ 2) by (apply Rmult_le_pos; assumption). lra. }
  lra.
Qed.
Lemma h_row_le a b a' b' r : 0 <= a <= a' -> 0 <= b <= b' -> h_row a b r <= h_row a' b' r.
Proof.
  intros Ha Hb. unfold h_row. apply Rmult_le_compat_l; [lra|].
  pose proof (h_arg a b r ltac:(lra) ltac:(lra)).
  apply ln_le_mono; [lra|]. apply Rplus_le_compat_r.
  pose proof (pow2_ge_0 (/ r)).
  apply Rmult_le_compat_r; [assumption|]. apply Rplus_le_compat; [|lra].
  apply Rmult_le_compat_r; [assumption|lra].
Qed.
Lemma h_row_decr a b r s : 0 < a -> 0 < b -> 0 < r -> r < s -> h_row a b s < h_row a b r.
Proof.
  intros Ha Hb Hr Hs. unfold h_row. apply Rmult_lt_compat_l; [lra|].
  pose proof (h_arg a b s ltac:(lra) ltac:(lra)).
  apply ln_increasing; [lra|]. apply Rplus_lt_compat_r.
  assert (I : / s < / r) by (apply Rinv_lt_contravar; [apply Rmult_lt_0_compat; lra | lra]).
  assert (Is : 0 < / s) by (apply Rinv_0_lt_compat; lra).
  assert (P : (/ s) ^ 2 < (/ r) ^ 2).
  { simpl. rewrite !Rmult_1_r. apply Rmult_gt_0_lt_compat; lra. }
  assert (P0 : 0 < (/ s) ^ 2) by (apply pow_lt; assumption).
  assert (a * (/ s) ^ 2 < a * (/ r) ^ 2) by (apply Rmult_lt_compat_l; lra).
  assert (0 < a * (/ s) ^ 2) by (apply Rmult_lt_0_compat; lra).
  apply Rmult_gt_0_lt_compat; lra.
Qed.
Lemma h_row_pos a b r : 0 < a -> 0 <= b -> r <> 0 -> 0 < h_row a b r.
Proof.
  intros Ha Hb Hr. unfold h_row. apply Rmult_lt_0_compat; [lra|].
  rewrite <- ln_1. apply ln_increasing; [lra|].
  assert (P : 0 < (/ r) ^ 2).
  { pose proof (Rinv_neq_0_compat _ Hr) as N. pose proof (Rsqr_pos_lt _ N) as S. unfold Rsqr in S. simpl. lra. }
  assert (0 < a * (/ r) ^ 2) by (apply Rmult_lt_0_compat; lra).
  assert (0 < (a * (/ r) ^ 2 + b) * (/ r) ^ 2) by (apply Rmult_lt_0_compat; lra). lra.
Qed.

Definition h0f_R (r et : R) : R :=
  h1 r + (h2 r - h1 r) * clamp01 (et - 1) + (h3 r - h2 r) * clamp01 (et - 2)
       + (h4 r - h3 r) * clamp01 (et - 3) + (h5 r - h4 r) * clamp01 (et - 4).

Lemma rfloor_spec x : IZR (rfloor x) <= x < IZR (rfloor x) + 1.
Proof. unfold rfloor. pose proof (base_Int_part x). lra. Qed.
Lemma rfloor_le k x : (k <= rfloor x)%Z <-> IZR k <= x.
Proof.
  pose proof (rfloor_spec x) as S. split; intros H.
  - apply IZR_le in H. lra.
  - assert (IZR k < IZR (rfloor x + 1)) by (rewrite plus_IZR; lra). apply lt_IZR in H0. lia.
Qed.

Lemma h0f_log_row i x a b : pyget h0f_a i = Ok a -> pyget h0f_b i = Ok b -> 1 <= (IZR a * x + IZR b) * x + 1 ->
  h0f_log RA i x = Ok (ln ((IZR a * x + IZR b) * x + 1)).
Proof.
  intros Ha Hb H. unfold h0f_log. rewrite Ha, Hb. cbn [bind]. runfold. rewrite r_log_ok by lra. reflexivity.
Qed.


Lemma h0f_eq r et : r <> 0 -> h0f RA r et = Ok (h0f_R r et).
Proof.
  intros Hr. unfold h0f. runfold. cbn [bind].
  assert (ROW : forall i a b, pyget h0f_a i = Ok a -> pyget h0f_b i = Ok b -> (0 <= a)%Z -> (0 <= b)%Z ->
            h0f_log RA i ((1 / r) ^ 2) = Ok (ln ((IZR a * (/ r) ^ 2 + IZR b) * (/ r) ^ 2 + 1))).
  { intros i a b Ha Hb Pa Pb. replace (1 / r) with (/ r) by (field; assumption).
    apply h0f_log_row; [assumption|assumption|]. apply h_arg; apply (IZR_le 0); assumption. }
  pose proof (rfloor_spec et) as S.
  assert (C : (rfloor et <= 0 \/ rfloor et = 1 \/ rfloor et = 2 \/ rfloor et = 3 \/ rfloor et = 4
              \/ 5 <= rfloor et)%Z) by lia.
  rewrite r_div_ok by assumption.
  destruct C as [C|[C|[C|[C|[C|C]]]]].
  - replace (rfloor et <=? 0)%Z with true by lia. cbn [bind]. rewrite r_powZ_2. cbn [bind].
    rewrite (ROW (1 - 1)%Z 25%Z 24%Z) by (reflexivity || lia). cbn [bind].
    unfold r_eqb. destruct (Req_EM_T 0 0); [|lra]. cbn [negb].
    apply IZR_le in C. unfold h0f_R.
    rewrite !clamp01_0 by lra. unfold h1, h_row. apply f_equal. lra.
  - rewrite C in *. cbn [Z.leb Z.compare Pos.compare Pos.compare_cont]. cbn [bind]. rewrite r_powZ_2. cbn [bind].
    rewrite (ROW (1 - 1)%Z 25%Z 24%Z) by (reflexivity || lia). cbn [bind].
    rewrite (ROW 1%Z 80%Z 45%Z) by (reflexivity || lia). cbn [bind].
    unfold h0f_R. rewrite (clamp01_id (et - 1)) by lra. rewrite !clamp01_0 by lra.
    unfold r_eqb. destruct (Req_EM_T (et - 1) 0) as [Z|Z]; cbn [negb]; apply f_equal; unfold h1, h2, h_row.
    + rewrite Z. lra.
    + lra.
  - rewrite C in *. cbn [Z.leb Z.compare Pos.compare Pos.compare_cont]. cbn [bind]. rewrite r_powZ_2. cbn [bind].
    rewrite (ROW (2 - 1)%Z 80%Z 45%Z) by (reflexivity || lia). cbn [bind].
    rewrite (ROW 2%Z 177%Z 68%Z) by (reflexivity || lia). cbn [bind].
    unfold h0f_R. rewrite (clamp01_id (et - 2)) by lra.
    rewrite (clamp01_1 (et - 1)) by lra. rewrite !clamp01_0 by lra.
    unfold r_eqb. destruct (Req_EM_T (et - 2) 0) as [Z|Z]; cbn [negb]; apply f_equal; unfold h1, h2, h3, h_row.
    + rewrite Z. lra.
    + lra.
  - rewrite C in *. cbn [Z.leb Z.compare Pos.compare Pos.compare_cont]. cbn [bind]. rewrite r_powZ_2. cbn [bind].
    rewrite (ROW (3 - 1)%Z 177%Z 68%Z) by (reflexivity || lia). cbn [bind].
    rewrite (ROW 3%Z 395%Z 80%Z) by (reflexivity || lia). cbn [bind].
    unfold h0f_R. rewrite (clamp01_id (et - 3)) by lra.
    rewrite (clamp01_1 (et - 1)) by lra. rewrite (clamp01_1 (et - 2)) by lra. rewrite !clamp01_0 by lra.
    unfold r_eqb. destruct (Req_EM_T (et - 3) 0) as [Z|Z]; cbn [negb]; apply f_equal; unfold h1, h2, h3, h4, h_row.
    + rewrite Z. lra.
    + lra.
  - rewrite C in *. cbn [Z.leb Z.compare Pos.compare Pos.compare_cont]. cbn [bind]. rewrite r_powZ_2. cbn [bind].
    rewrite (ROW (4 - 1)%Z 395%Z 80%Z) by (reflexivity || lia). cbn [bind].
    rewrite (ROW 4%Z 705%Z 105%Z) by (reflexivity || lia). cbn [bind].
    unfold h0f_R. rewrite (clamp01_id (et - 4)) by lra.
    rewrite (clamp01_1 (et - 1)) by lra. rewrite (clamp01_1 (et - 2)) by lra. rewrite (clamp01_1 (et - 3)) by lra.
    unfold r_eqb. destruct (Req_EM_T (et - 4) 0) as [Z|Z]; cbn [negb]; apply f_equal; unfold h1, h2, h3, h4, h5, h_row.
    + rewrite Z. lra.
    + lra.
  - replace (rfloor et <=? 0)%Z with false by lia. replace (5 <=? rfloor et)%Z with true by lia.
    cbn [bind]. rewrite r_powZ_2. cbn [bind].
    rewrite (ROW (5 - 1)%Z 705%Z 105%Z) by (reflexivity || lia). cbn [bind].
    unfold r_eqb. destruct (Req_EM_T 0 0); [|lra]. cbn [negb].
    apply IZR_le in C. unfold h0f_R.
    rewrite !clamp01_1 by lra. unfold h1, h2, h3, h4, h5, h_row. apply f_equal. lra.
Qed.

Lemma h_chain r : h1 r <= h2 r /\ h2 r <= h3 r /\ h3 r <= h4 r /\ h4 r <= h5 r.
Proof. repeat split; apply h_row_le; lra. Qed.

Lemma h0f_total r et : r <> 0 -> exists y, h0f RA r et = Ok y.
Proof. intros. rewrite h0f_eq by assumption. eauto. Qed.

Lemma h0f_R_range r et : h1 r <= h0f_R r et <= h5 r.
Proof.
  pose proof (h_chain r) as [A [B [C D]]]. unfold h0f_R.
  pose proof (clamp01_range (et - 1)) as R1. pose proof (clamp01_range (et - 2)) as R2.
  pose proof (clamp01_range (et - 3)) as R3. pose proof (clamp01_range (et - 4)) as R4.
  assert (K : forall u v c, u <= v -> 0 <= c <= 1 -> 0 <= (v - u) * c <= v - u).
  { intros u v c Huv Hc. split; [apply Rmult_le_pos; lra|].
    rewrite <- (Rmult_1_r (v - u)) at 2. apply Rmult_le_compat_l; lra. }
  pose proof (K _ _ _ A R1). pose proof (K _ _ _ B R2). pose proof (K _ _ _ C R3). pose proof (K _ _ _ D R4). lra.
Qed.
Lemma h0f_pos r et : r <> 0 -> exists y, h0f RA r et = Ok y /\ 0 < y.
Proof.
  intros. rewrite h0f_eq by assumption. eexists; split; [reflexivity|].
  pose proof (h0f_R_range r et). pose proof (h_row_pos 25 24 r). fold (h1 r) in *. unfold h1 in *. lra.
Qed.
Lemma h0f_mono_et (r e e' : R) : r <> 0 -> e <= e' ->
  exists x y, h0f RA r e = Ok x /\ h0f RA r e' = Ok y /\ x <= y.
Proof.
  intros Hr He. rewrite !h0f_eq by assumption. do 2 eexists; repeat split.
  unfold h0f_R. pose proof (h_chain r) as [A [B [C D]]].
  repeat apply Rplus_le_compat; try lra; apply Rmult_le_compat_l; try lra; apply clamp01_mono; lra.
Qed.
Lemma h0f_decr_r r s et : 0 < r -> r < s ->
  exists x y, h0f RA r et = Ok x /\ h0f RA s et = Ok y /\ y < x.
Proof.
  intros Hr Hs. rewrite !h0f_eq by lra. do 2 eexists; repeat split.
  assert (D1 : h1 s < h1 r) by (apply h_row_decr; lra).
  assert (D2 : h2 s < h2 r) by (apply h_row_decr; lra).
  assert (D3 : h3 s < h3 r) by (apply h_row_decr; lra).
  assert (D4 : h4 s < h4 r) by (apply h_row_decr; lra).
  assert (D5 : h5 s < h5 r) by (apply h_row_decr; lra).
  (* weights *)
  unfold h0f_R.
  set (c1 := clamp01 (et - 1)). set (c2 := clamp01 (et - 2)).
  set (c3 := clamp01 (et - 3)). set (c4 := clamp01 (et - 4)).
  assert (W0 : 0 <= 1 - c1) by (pose proof (clamp01_range (et - 1)); unfold c1; lra).
  assert (W1 : 0 <= c1 - c2) by (unfold c1, c2; pose proof (clamp01_mono (et - 2) (et - 1)); lra).
  assert (W2 : 0 <= c2 - c3) by (unfold c2, c3; pose proof (clamp01_mono (et - 3) (et - 2)); lra).
  assert (W3 : 0 <= c3 - c4) by (unfold c3, c4; pose proof (clamp01_mono (et - 4) (et - 3)); lra).
  assert (W4 : 0 <= c4) by (unfold c4; pose proof (clamp01_range (et - 4)); lra).
  set (m := Rmin (h1 r - h1 s) (Rmin (h2 r - h2 s) (Rmin (h3 r - h3 s) (Rmin (h4 r - h4 s) (h5 r - h5 s))))).
  assert (M : 0 < m) by (unfold m; repeat apply Rmin_glb_lt; lra).
  assert (M1 : m <= h1 r - h1 s) by apply Rmin_l.
  assert (M2 : m <= h2 r - h2 s) by (eapply Rle_trans; [apply Rmin_r | apply Rmin_l]).
  assert (M3 : m <= h3 r - h3 s) by (eapply Rle_trans; [apply Rmin_r | eapply Rle_trans; [apply Rmin_r | apply Rmin_l]]).
  assert (M4 : m <= h4 r - h4 s)
    by (eapply Rle_trans; [apply Rmin_r | eapply Rle_trans; [apply Rmin_r | eapply Rle_trans; [apply Rmin_r | apply Rmin_l]]]).
  assert (M5 : m <= h5 r - h5 s)
    by (eapply Rle_trans; [apply Rmin_r | eapply Rle_trans; [apply Rmin_r | eapply Rle_trans; [apply Rmin_r | apply Rmin_r]]]).
  assert (P0 : (1 - c1) * m <= (1 - c1) * (h1 r - h1 s)) by (apply Rmult_le_compat_l; assumption).
  assert (P1 : (c1 - c2) * m <= (c1 - c2) * (h2 r - h2 s)) by (apply Rmult_le_compat_l; assumption).
  assert (P2 : (c2 - c3) * m <= (c2 - c3) * (h3 r - h3 s)) by (apply Rmult_le_compat_l; assumption).
  assert (P3 : (c3 - c4) * m <= (c3 - c4) * (h4 r - h4 s)) by (apply Rmult_le_compat_l; assumption).
  assert (P4 : c4 * m <= c4 * (h5 r - h5 s)) by (apply Rmult_le_compat_l; assumption).
  lra.
Qed.
(** Lipschitz in et with constant h0f(r, 5): in particular continuous. *)
Lemma h0f_lipschitz (r e e' : R) : r <> 0 ->
  exists x y z, h0f RA r e = Ok x /\ h0f RA r e' = Ok y /\ h0f RA r 5 = Ok z /\ Rabs (x - y) <= z * Rabs (e - e').
Proof.
  intros Hr. rewrite !h0f_eq by assumption. do 3 eexists; repeat split.
  assert (Z : h0f_R r 5 = h5 r). { unfold h0f_R. rewrite !clamp01_1 by lra. lra. }
  rewrite Z.
  assert (K : forall a b, a <= b -> 0 <= h0f_R r b - h0f_R r a <= h5 r * (b - a)).
  { intros a b Hab. pose proof (clamp_sum a b Hab) as S.
    pose proof (h_chain r) as [A [B [C D]]].
    pose proof (h_row_pos 25 24 r ltac:(lra) ltac:(lra) Hr) as P1. fold h1 in P1.
    unfold h0f_R.
    assert (L : forall k, 0 <= clamp01 (b - k) - clamp01 (a - k)).
    { intro k. pose proof (clamp01_mono (a - k) (b - k)). lra. }
    pose proof (L 1) as L1. pose proof (L 2) as L2. pose proof (L 3) as L3. pose proof (L 4) as L4.
    set (d1 := clamp01 (b - 1) - clamp01 (a - 1)) in *. set (d2 := clamp01 (b - 2) - clamp01 (a - 2)) in *.
    set (d3 := clamp01 (b - 3) - clamp01 (a - 3)) in *. set (d4 := clamp01 (b - 4) - clamp01 (a - 4)) in *.
    assert (E : h1 r + (h2 r - h1 r) * clamp01 (b - 1) + (h3 r - h2 r) * clamp01 (b - 2)
       + (h4 r - h3 r) * clamp01 (b - 3) + (h5 r - h4 r) * clamp01 (b - 4) -
       (h1 r + (h2 r - h1 r) * clamp01 (a - 1) + (h3 r - h2 r) * clamp01 (a - 2)
       + (h4 r - h3 r) * clamp01 (a - 3) + (h5 r - h4 r) * clamp01 (a - 4))
       = (h2 r - h1 r) * d1 + (h3 r - h2 r) * d2 + (h4 r - h3 r) * d3 + (h5 r - h4 r) * d4)
      by (unfold d1, d2, d3, d4; ring).
    rewrite E.
    assert (B1 : 0 <= (h2 r - h1 r) * d1 <= h5 r * d1)
      by (split; [apply Rmult_le_pos; lra | apply Rmult_le_compat_r; lra]).
    assert (B2 : 0 <= (h3 r - h2 r) * d2 <= h5 r * d2)
      by (split; [apply Rmult_le_pos; lra | apply Rmult_le_compat_r; lra]).
    assert (B3 : 0 <= (h4 r - h3 r) * d3 <= h5 r * d3)
      by (split; [apply Rmult_le_pos; lra | apply Rmult_le_compat_r; lra]).
    assert (B4 : 0 <= (h5 r - h4 r) * d4 <= h5 r * d4)
      by (split; [apply Rmult_le_pos; lra | apply Rmult_le_compat_r; lra]).
    split; [lra|].
    eapply Rle_trans with (h5 r * (d1 + d2 + d3 + d4)); [lra|].
    apply Rmult_le_compat_l; lra. }
  destruct (Rle_dec e e') as [L|L].
  - pose proof (K e e' L). rewrite (Rabs_minus_sym e e'), (Rabs_pos_eq (e' - e)) by lra.
    rewrite Rabs_minus_sym, Rabs_pos_eq; lra.
  - pose proof (K e' e ltac:(lra)). rewrite (Rabs_pos_eq (e - e')) by lra.
    rewrite Rabs_pos_eq; lra.
Qed.
Lemma h0f_clamp_low r e : r <> 0 -> e <= 1 -> h0f RA r e = h0f RA r 1.
Proof. intros. rewrite !h0f_eq by assumption. unfold h0f_R. rewrite !clamp01_0 by lra. reflexivity. Qed.
Lemma h0f_clamp_high r e : r <> 0 -> 5 <= e -> h0f RA r e = h0f RA r 5.
Proof. intros. rewrite !h0f_eq by assumption. unfold h0f_R. rewrite !clamp01_1 by lra. reflexivity. Qed.
Lemma h0f_r0 e : h0f RA 0 e = Err ZeroDivisionError.
Proof.
  unfold h0f. runfold. cbn [bind].
  destruct (rfloor e <=? 0)%Z; [|destruct (5 <=? rfloor e)%Z]; unfold r_div; destruct (Req_EM_T 0 0);
    try lra; reflexivity.
Qed.
