(** Errors in the heights of a profile and the entries qlrpfl derives; a jump of the losses. *)
From Coq Require Import Lra Lia.
From Verif Require Import RTac SpecSense SpecProfile Misc Prep Stats Scripts PfHzns PfLsq PfDlthx PfTerrainCases PfPfl PfReverseCases PfSense PyFloat Cases PfRuns Arith.
Open Scope R_scope.

Lemma square_le (x c e : R) : 0 <= e -> x ^ 2 <= c * e ^ 2 -> c <= 2.4 ^ 2 -> - (2.4 * e) <= x <= 2.4 * e.
Proof. intros E H C. assert (x ^ 2 <= (2.4 * e) ^ 2) by (assert (0 <= e ^ 2) by apply pow2_ge_0; nra). nra. Qed.
Lemma offset_le (a b : R) : 0 <= a -> 9 * a <= b -> 0 < b -> 1 + 3 * ((a + b) / (b - a)) ^ 2 <= 2.4 ^ 2.
Proof.
  intros A B P. assert (0 <= (a + b) / (b - a) <= 1.25); [|nra]. split; [apply Rmult_le_pos; [lra | apply Rlt_le, Rinv_0_lt_compat; lra]|].
  apply Rmult_le_reg_r with (b - a); [lra|]. unfold Rdiv. rewrite Rmult_assoc, Rinv_l by lra. lra.
Qed.
Section near.
Context (f g : profile RA) (e : R) (SP : same_path f g) (H : heights_within e 0 (intervals f) f g).
Lemma err_pos : 0 <= e.
Proof. pose proof (H 0%nat ltac:(lia)). lra. Qed.
Lemma dist_in (d : R) : d <= path_length f -> d / (pf_xi f : R) <= INR (intervals f).
Proof.
  destruct SP as ((_ & X & _) & _). unfold path_length. change (num RA) with R in *. intro D. apply Rmult_le_reg_r with (pf_xi f : R); [exact X|]. unfold Rdiv. rewrite Rmult_assoc, Rinv_l by lra. lra.
Qed.
Lemma near_start (d x u v u' v' : R) : 0 < d <= path_length f -> 0 < x <= d / 10 -> zlsq1 RA f x (9 / 10 * d)%R = Ok (u, v) -> zlsq1 RA g x (9 / 10 * d)%R = Ok (u', v') -> - (2.4 * e) <= u' - u <= 2.4 * e.
Proof.
  intros D X E E'. pose proof err_pos as EP. pose proof (proj1 SP) as F. assert (P : proper f x (9 / 10 * d)) by (unfold proper; lra).
  destruct (zlsq1_spec f x (9 / 10 * d) F P) as (lo & hi & _ & _ & W & L & _).
  assert (HW : heights_within e lo hi f g) by (intros k K; apply H; lia). pose proof (line_moves f g _ _ e _ _ _ _ lo hi SP P W HW E E' 0%nat) as Q.
  unfold line_at in Q. cbn [INR] in Q. unfold Rdiv in Q. rewrite !Rmult_0_r, !Rmult_0_l, !Rplus_0_r in Q. apply (square_le _ _ _ EP Q).
  destruct F as (_ & FX & _). destruct W as [W1 W2]. pose proof (dist_in d ltac:(lra)) as DI. change (num RA) with R in *. set (xi := pf_xi f : R) in *. set (m := d / xi) in *.
  assert (M : 0 < m) by (apply Rdiv_lt_0_compat; lra). assert (XM : x / xi <= m / 10) by (unfold m; apply Rmult_le_reg_r with xi; [exact FX|]; field_simplify; lra).
  assert (A : INR lo <= m / 10) by (apply Rle_trans with (1 := proj1 W1); apply Rmax_lub; lra).
  assert (B : 9 / 10 * m <= INR hi). { apply Rle_trans with (2 := proj2 W2). apply Rmin_glb; [unfold m, Rdiv; lra | lra]. }
  pose proof (pos_INR lo). unfold offset. cbn [INR]. replace ((2 * 0 - INR lo - INR hi) / (INR hi - INR lo)) with (- ((INR lo + INR hi) / (INR hi - INR lo))) by (field; lra).
  rewrite <- Rsqr_pow2, <- Rsqr_neg, Rsqr_pow2. apply offset_le; lra.
Qed.
Lemma near_end (d x u v u' v' : R) : 0 < d <= path_length f -> 0 < x <= d / 10 -> zlsq1 RA f (path_length f - 9 / 10 * d)%R (path_length f - x)%R = Ok (u, v) ->
  zlsq1 RA g (path_length f - 9 / 10 * d)%R (path_length f - x)%R = Ok (u', v') -> - (2.4 * e) <= v' - v <= 2.4 * e.
Proof.
  intros D X E E'. pose proof err_pos as EP. pose proof (proj1 SP) as F. assert (P : proper f (path_length f - 9 / 10 * d) (path_length f - x)) by (unfold proper; lra).
  destruct (zlsq1_spec f (path_length f - 9 / 10 * d) (path_length f - x) F P) as (lo & hi & _ & _ & W & L & _).
  assert (HW : heights_within e lo hi f g) by (intros k K; apply H; lia). pose proof (line_moves f g _ _ e _ _ _ _ lo hi SP P W HW E E' (intervals f)) as Q.
  assert (NI : INR (intervals f) <> 0) by (apply not_0_INR; lia). unfold line_at in Q.
  replace (u' + (v' - u') * INR (intervals f) / INR (intervals f) - (u + (v - u) * INR (intervals f) / INR (intervals f))) with (v' - v) in Q by (field; exact NI). apply (square_le _ _ _ EP Q).
  destruct F as (_ & FX & _). destruct W as [W1 W2]. pose proof (dist_in d ltac:(lra)) as DI. change (num RA) with R in *. set (xi := pf_xi f : R) in *. set (m := d / xi) in *. set (N := INR (intervals f)) in *.
  assert (PL : path_length f = N * xi) by reflexivity. rewrite PL in W1, W2.
  assert (M : 0 < m) by (apply Rdiv_lt_0_compat; lra). assert (XM : x / xi <= m / 10) by (unfold m; apply Rmult_le_reg_r with xi; [exact FX|]; field_simplify; lra).
  replace ((N * xi - 9 / 10 * d) / xi) with (N - 9 / 10 * m) in W1 by (unfold m; field; lra). replace ((N * xi - x) / xi) with (N - x / xi) in W2 by (field; lra).
  assert (A : INR lo <= N - 9 / 10 * m) by (apply Rle_trans with (1 := proj1 W1); apply Rmax_lub; lra).
  assert (B : N - m / 10 <= INR hi). { apply Rle_trans with (2 := proj2 W2). apply Rmin_glb; lra. }
  assert (C : INR hi <= N) by (apply le_INR; lia). unfold offset. fold N.
  replace ((2 * N - INR lo - INR hi) / (INR hi - INR lo)) with (((N - INR hi) + (N - INR lo)) / ((N - INR lo) - (N - INR hi))) by (field; lra). apply offset_le; lra.
Qed.
End near.
Lemma above_moves hg (e z w z' w' : R) : - e <= z' - z <= e -> - (2.4 * e) <= w' - w <= 2.4 * e -> Rabs (above_trend hg z' w' - above_trend hg z w) <= 3.4 * e.
Proof. intros A B. apply Rabs_le. unfold above_trend, Rmax. destruct (Rle_dec (z' - w') 0), (Rle_dec (z - w) 0); lra. Qed.
Lemma obstructed_moves f g (p q p' q' : prop RA) v v' (e t0 t1 u0 u1 d0 d1 : R) : same_path f g -> heights_within e 0 (intervals f) f g ->
  path_entries p f v -> path_entries p' g v' -> (forall k, In k [HG0; HG1; GME] -> v' k = v k) -> qlrpfl RA p = Ok q -> qlrpfl RA p' = Ok q' ->
  hzns RA f (path_length f) (v HG0) (v HG1) (v GME) = Ok (t0, t1, d0, d1) -> hzns RA g (path_length f) (v HG0) (v HG1) (v GME) = Ok (u0, u1, d0, d1) -> d0 + d1 < 3 / 2 * path_length f ->
  exists w w', values q [HE0; HE1; DH; THE0; THE1] w /\ values q' [HE0; HE1; DH; THE0; THE1] w' /\ Rabs (w' HE0 - w HE0) <= 3.4 * e /\ Rabs (w' HE1 - w HE1) <= 3.4 * e /\
    Rabs (w' DH - w DH) <= 30 * e /\ Rabs (w' THE0 - w THE0) <= 2 * e / pf_xi f /\ Rabs (w' THE1 - w THE1) <= 2 * e / pf_xi f.
Proof.
  intros SP H PE PE' V E E' Z Z' O. pose proof SP as (F & G & _). destruct (same_len f g SP) as [L1 L2].
  destruct (pfl_obstructed p q f v t0 t1 d0 d1 PE E Z O) as (za & za' & zb' & zb & dh & A1 & A2 & A3 & A4 & A5 & A6 & _ & _ & A9 & A10).
  pose proof (V HG0 ltac:(cbn; auto)) as V0. pose proof (V HG1 ltac:(cbn; auto)) as V1. pose proof (V GME ltac:(cbn; auto)) as V2.
  pose proof (pfl_obstructed p' q' g v' u0 u1 d0 d1 PE' E') as B. rewrite L1, L2, V0, V1, V2 in B. destruct (B Z' O) as (ya & ya' & yb' & yb & eh & B1 & B2 & B3 & B4 & B5 & B6 & _ & _ & B9 & B10).
  destruct (hzns_distances f _ _ _ _ _ _ _ F Z) as (_ & _ & D0 & D1). assert (HG : 0 < v HG0 /\ 0 < v HG1) by (destruct PE as (_ & _ & PE); tauto).
  assert (X0 : 0 < setback (v HG0) d0 <= d0 / 10) by (split; [apply Rmin_glb_lt; lra | apply Rmin_r]). assert (X1 : 0 < setback (v HG1) d1 <= d1 / 10) by (split; [apply Rmin_glb_lt; lra | apply Rmin_r]).
  exists (fun k => match k with HE0 => above_trend (v HG0) (ground f 0) za | HE1 => above_trend (v HG1) (ground f (intervals f)) zb | DH => dh | THE0 => t0 | _ => t1 end).
  exists (fun k => match k with HE0 => above_trend (v HG0) (ground g 0) ya | HE1 => above_trend (v HG1) (ground g (intervals f)) yb | DH => eh | THE0 => u0 | _ => u1 end).
  split; [intros k I; cbn in I; repeat destruct I as [<-|I]; assumption || contradiction|]. split; [intros k I; cbn in I; repeat destruct I as [<-|I]; assumption || contradiction|].
  split; [apply above_moves; [apply H; lia | exact (near_start f g e SP H d0 _ _ _ _ _ D0 X0 A1 B1)]|]. split; [apply above_moves; [apply H; lia | exact (near_end f g e SP H d1 _ _ _ _ _ D1 X1 A2 B2)]|].
  split; [eapply (dlthx_moves f g _ _ e _ _ SP H); try eassumption; lra|]. eapply angles_within; eassumption.
Qed.
Lemma los_moves f g (p q p' q' : prop RA) v v' (e : R) : same_path f g -> heights_within e 0 (intervals f) f g ->
  path_entries p f v -> path_entries p' g v' -> (forall k, In k [HG0; HG1; GME] -> v' k = v k) -> qlrpfl RA p = Ok q -> qlrpfl RA p' = Ok q' ->
  unobstructed f (v HG0) (v HG1) (v GME) -> unobstructed g (v HG0) (v HG1) (v GME) -> exists dh dh' : R, pn q DH = Some dh /\ pn q' DH = Some dh' /\ Rabs (dh' - dh) <= 30 * e.
Proof.
  intros SP H PE PE' V E E' O O'. pose proof SP as (F & G & _). destruct (same_len f g SP) as [L1 L2].
  pose proof (V HG0 ltac:(cbn; auto)) as V0. pose proof (V HG1 ltac:(cbn; auto)) as V1. pose proof (V GME ltac:(cbn; auto)) as V2.
  destruct (hzns_angles f (v HG0) (v HG1) (v GME) F) as (t0 & t1 & d0 & d1 & Z & _ & _ & U). destruct (U O) as [-> ->].
  destruct (hzns_angles g (v HG0) (v HG1) (v GME) G) as (u0 & u1 & e0 & e1 & Z' & _ & _ & U'). destruct (U' O') as [-> ->].
  assert (HG : 0 < v HG0 /\ 0 < v HG1) by (destruct PE as (_ & _ & PE); tauto). destruct (hzns_distances f _ _ _ _ _ _ _ F Z) as (_ & _ & D0 & _).
  destruct (pfl_los p q f v _ _ _ _ PE E Z ltac:(lra)) as (za & zb & s & dh & h0 & h1 & l0 & l1 & _ & A & _ & _ & _ & _ & _ & _ & _ & DHf & _).
  rewrite <- V0, <- V1, <- V2 in Z'. destruct (pfl_los p' q' g v' _ _ _ _ PE' E' Z' ltac:(rewrite L2; lra)) as (ya & yb & s' & dh' & k0 & k1 & m0 & m1 & _ & B & _ & _ & _ & _ & _ & _ & _ & DHg & _).
  rewrite V0, V1, L2 in B. exists dh, dh'. split; [exact DHf|]. split; [exact DHg|].
  assert (X0 : 0 < setback (v HG0) (path_length f) <= path_length f / 10) by (split; [apply Rmin_glb_lt; lra | apply Rmin_r]). assert (X1 : 0 < setback (v HG1) (path_length f) <= path_length f / 10) by (split; [apply Rmin_glb_lt; lra | apply Rmin_r]).
  eapply (dlthx_moves f g _ _ e _ _ SP H); try eassumption; lra.
Qed.

(** ** A millimetre *)
Definition edge (mm : Z) : list (num TA) := PI 500 :: L mm 1000 :: map PI [0; 0; 0; 0; 0; 0; 0; 0; 0]%Z.
Lemma edge_jump : exists o o', itmlogic_p2p TA (edge 457933) (link 20 10 10) = Ok o /\ itmlogic_p2p TA (edge 457934) (link 20 10 10) = Ok o' /\
  length (out_rows TA o) = 15%nat /\ length (out_rows TA o') = 15%nat /\ exceeds (PI 9) o' o = true.
Proof.
  assert (C : match itmlogic_p2p TA (edge 457933) (link 20 10 10), itmlogic_p2p TA (edge 457934) (link 20 10 10) with
    | Ok o, Ok o' => (length (out_rows TA o) =? 15)%nat && (length (out_rows TA o') =? 15)%nat && exceeds (PI 9) o' o | _, _ => false end = true) by (vm_compute; reflexivity).
  destruct (itmlogic_p2p TA (edge 457933) (link 20 10 10)) as [o|]; [|discriminate]. destruct (itmlogic_p2p TA (edge 457934) (link 20 10 10)) as [o'|]; [|discriminate].
  apply andb_prop in C as [C C3]. apply andb_prop in C as [C1 C2]. apply Nat.eqb_eq in C1, C2. exists o, o'. auto.
Qed.
