(** Least squares and terrain irregularity of a profile seen from its other end. *)
From Coq Require Import Lra Lia Sorting.Permutation Sorting.Sorted.
From Verif Require Import RTac SpecReverse Prep PfHzns PfLsq PfDlthx.
Open Scope R_scope.

Lemma sum_rev (g : nat -> R) l : fold_right Rplus 0 (map g (rev l)) = fold_right Rplus 0 (map g l).
Proof.
  induction l as [|x l IH]; [reflexivity|]. cbn [rev map fold_right]. rewrite map_app, fold_right_app. cbn [map fold_right].
  rewrite <- IH. generalize (map g (rev l)). intro m. generalize (g x). intro y. clear. induction m as [|z m IH]; cbn [fold_right]; [ring|]. rewrite IH. ring.
Qed.
Lemma seq_rev s c n : (s + c <= S n)%nat -> map (fun k => (n - k)%nat) (seq s c) = rev (seq (n + 1 - s - c) c).
Proof.
  revert s. induction c as [|c IH]; intros s H; [reflexivity|]. rewrite (seq_S c (n + 1 - s - S c)), rev_app_distr. cbn [seq map rev app].
  rewrite (IH (S s)) by lia. f_equal; [lia|]. do 2 f_equal. lia.
Qed.
Lemma trap_rev n lo hi (g : nat -> R) : (lo < hi <= n)%nat -> trapezoid (n - hi) (n - lo) g = trapezoid lo hi (fun k => g (n - k)%nat).
Proof.
  intro H. unfold trapezoid. replace (n - lo - (n - hi) - 1)%nat with (hi - lo - 1)%nat by lia.
  rewrite <- (map_map (fun k => (n - k)%nat) g). rewrite seq_rev by lia. rewrite sum_rev.
  replace (n + 1 - S lo - (hi - lo - 1))%nat with (S (n - hi))%nat by lia. lra.
Qed.
Lemma misfit_rev f lo hi a b : well_formed f -> (lo < hi <= intervals f)%nat ->
  misfit (reverse_profile f) (intervals f - hi) (intervals f - lo) a b = misfit f lo hi (a + b * INR (intervals f)) (- b).
Proof.
  intros W H. unfold misfit. rewrite trap_rev by exact H. apply trap_ext; [lia|]. intros k K.
  rewrite ground_rev by (assumption || lia). replace (intervals f - (intervals f - k))%nat with k by lia. rewrite minus_INR by lia. f_equal. ring.
Qed.
Lemma best_rev f lo hi a b : well_formed f -> (lo < hi <= intervals f)%nat -> best_line f lo hi a b ->
  best_line (reverse_profile f) (intervals f - hi) (intervals f - lo) (a + b * INR (intervals f)) (- b).
Proof.
  intros W H B a' b'. rewrite !misfit_rev by assumption.
  replace (a + b * INR (intervals f) + - b * INR (intervals f)) with a by ring. rewrite Ropp_involutive.
  destruct (B (a' + b' * INR (intervals f)) (- b')) as [B1 B2]. split; [exact B1|]. intro E. destruct (B2 E) as [E1 E2].
  assert (b' = - b) by lra. subst b'. split; [lra | reflexivity].
Qed.
Lemma Rmax_flip u n : Rmax (n - u) 0 = n - Rmin u n.
Proof. unfold Rmax, Rmin. destruct (Rle_dec (n - u) 0), (Rle_dec u n); lra. Qed.
Lemma Rmin_flip u n : Rmin (n - u) n = n - Rmax u 0.
Proof. unfold Rmax, Rmin. destruct (Rle_dec (n - u) n), (Rle_dec u 0); lra. Qed.
Lemma flip_div f x : well_formed f -> (path_length f - x) / (pf_xi f : R) = INR (intervals f) - x / (pf_xi f : R).
Proof. intros (_ & X & _). unfold path_length. field. change (num RA) with R in *. lra. Qed.
Lemma window_rev f x1 x2 lo hi : well_formed f -> (lo < hi <= intervals f)%nat -> window f x1 x2 lo hi ->
  window (reverse_profile f) (path_length f - x2) (path_length f - x1) (intervals f - hi) (intervals f - lo).
Proof.
  intros W H [L U]. unfold window. rewrite intervals_rev. change (pf_xi (reverse_profile f)) with (pf_xi f). rewrite !flip_div by exact W.
  rewrite Rmax_flip, Rmin_flip, !minus_INR by lia. lra.
Qed.
Lemma proper_rev f x1 x2 : proper f x1 x2 -> proper (reverse_profile f) (path_length f - x2) (path_length f - x1).
Proof. intros (H1 & H2 & H3). unfold proper. rewrite length_rev. lra. Qed.
Lemma zlsq1_reverse (f : profile RA) (x1 x2 u v : R) : well_formed f -> proper f x1 x2 -> zlsq1 RA f x1 x2 = Ok (u, v) ->
  zlsq1 RA (reverse_profile f) (path_length f - x2)%R (path_length f - x1)%R = Ok (v, u).
Proof.
  intros W P H. destruct (zlsq1_spec f x1 x2 W P) as (lo & hi & a & b & Wi & R & B & E).
  destruct (zlsq1_spec _ _ _ (wf_rev f W) (proper_rev f x1 x2 P)) as (lo' & hi' & a' & b' & Wi' & R' & B' & E').
  destruct (window_unique _ _ _ _ _ _ _ (window_rev f x1 x2 lo hi W R Wi) Wi') as [<- <-].
  destruct (best_unique _ _ _ _ _ _ _ (best_rev f lo hi a b W R B) B') as [<- <-].
  rewrite E in H. assert (u = a /\ v = a + b * INR (intervals f)) as [-> ->] by (split; congruence).
  rewrite E', intervals_rev. do 2 f_equal. ring.
Qed.

(** ** Irregularity *)
Lemma terrain_rev f d y : well_formed f -> terrain_at f d y -> terrain_at (reverse_profile f) (path_length f - d) y.
Proof.
  intros W (k & K & D & Y). pose proof W as (_ & X & _). change (num RA) with R in *. exists (intervals f - S k)%nat. rewrite intervals_rev. split; [lia|].
  change (pf_xi (reverse_profile f)) with (pf_xi f). unfold path_length.
  replace (S (intervals f - S k)) with (intervals f - k)%nat by lia. rewrite !ground_rev by (assumption || lia).
  replace (intervals f - (intervals f - S k))%nat with (S k) by lia. replace (intervals f - (intervals f - k))%nat with k by lia.
  rewrite !minus_INR by lia. rewrite S_INR in *. split; [nra|]. rewrite Y. field. lra.
Qed.
Lemma nth_error_rev' {T} (l : list T) j v : nth_error (rev l) j = Some v -> nth_error l (length l - 1 - j) = Some v.
Proof. intro H. apply nth_error_rev in H. rewrite rev_involutive, rev_length in H. exact H. Qed.
Lemma samples_rev f x1 x2 n s : well_formed f -> (2 <= n)%nat -> samples f x1 x2 n s ->
  samples (reverse_profile f) (path_length f - x2) (path_length f - x1) n (rev s).
Proof.
  intros W N [L S]. split; [rewrite rev_length; exact L|]. intros j y H.
  assert (J : (j < n)%nat). { rewrite <- L, <- rev_length. apply nth_error_Some. congruence. }
  apply nth_error_rev' in H. rewrite L in H. apply S in H. apply (terrain_rev f _ _ W) in H.
  match goal with H : terrain_at _ ?a y |- terrain_at _ ?b y => replace b with a; [exact H|] end.
  rewrite !minus_INR by lia. cbn [INR]. assert (0 < INR n - 1) by (apply le_INR in N; cbn in N; lra). field. lra.
Qed.
Lemma nth_rev' (s : list R) j : (j < length s)%nat -> nth j (rev s) 0 = nth (length s - 1 - j) s 0.
Proof. intro H. rewrite rev_nth by exact H. f_equal. lia. Qed.
Lemma residuals_rev s a b m : length s = S m -> residuals (rev s) (a + b * INR m) (- b) = rev (residuals s a b).
Proof.
  intro L. unfold residuals. rewrite rev_length, L, <- map_rev.
  assert (E : rev (seq 0 (S m)) = map (fun k => (m - k)%nat) (seq 0 (S m))).
  { rewrite seq_rev by lia. do 2 f_equal. lia. }
  rewrite E, map_map. apply map_ext_in. intros j J. apply in_seq in J. rewrite nth_rev' by lia. rewrite L. replace (S m - 1 - j)%nat with (m - j)%nat by lia.
  rewrite minus_INR by lia. ring.
Qed.
Lemma kl_perm l l' k v : Permutation l l' -> kth_largest l k v -> kth_largest l' k v.
Proof. intros P (m & Q & S). exists m. split; [|exact S]. eapply Permutation_trans; [apply Permutation_sym; exact P | exact Q]. Qed.
Lemma ks_perm l l' k v : Permutation l l' -> kth_smallest l k v -> kth_smallest l' k v.
Proof. intros P (m & Q & S). exists m. split; [|exact S]. eapply Permutation_trans; [apply Permutation_sym; exact P | exact Q]. Qed.
Lemma irr_rev f x1 x2 dh : well_formed f -> irregularity f x1 x2 dh -> irregularity (reverse_profile f) (path_length f - x2) (path_length f - x1) dh.
Proof.
  intros W (q & s & a & b & u & v & D & S & B & U & V & E). pose proof (decile_range _ _ D) as Q.
  set (m := (10 * q - 6)%nat) in *. assert (Ls : length s = Datatypes.S m) by (rewrite (proj1 S); unfold m; lia).
  assert (Ws : well_formed (@Profile RA (Z.of_nat m) 1 s)). { unfold well_formed. cbn [pf_np pf_xi pf_z]. split; [unfold m; lia|]. split; [apply Rlt_0_1|]. change (num RA) with R. rewrite Ls. lia. }
  assert (Is : intervals (@Profile RA (Z.of_nat m) 1 s) = m) by (unfold intervals; cbn [pf_np]; lia).
  exists q, (rev s), (a + b * INR m), (- b), u, v.
  replace (path_length f - x1 - (path_length f - x2)) with (x2 - x1) by ring. change (pf_xi (reverse_profile f)) with (pf_xi f).
  split; [exact D|]. split; [apply samples_rev; [exact W | lia | exact S]|].
  split. { pose proof (best_rev _ 0 m a b Ws ltac:(rewrite Is; unfold m; lia) B) as B'. rewrite Is, Nat.sub_diag, Nat.sub_0_r in B'. exact B'. }
  rewrite residuals_rev by exact Ls. split; [eapply kl_perm; [apply Permutation_rev | exact U]|]. split; [eapply ks_perm; [apply Permutation_rev | exact V] | exact E].
Qed.
Lemma dlthx_reverse (f : profile RA) (x1 x2 : R) : well_formed f -> 0 <= x1 -> x2 <= path_length f ->
  dlthx RA (reverse_profile f) (path_length f - x2)%R (path_length f - x1)%R = dlthx RA f x1 x2.
Proof.
  intros W H1 H2. pose proof (wf_rev f W) as W'. destruct (Rlt_dec (x2 - x1) (2 * (pf_xi f : R))) as [C|C].
  - rewrite (dlthx_short f) by assumption. apply dlthx_short; [exact W'|]. change (pf_xi (reverse_profile f)) with (pf_xi f). lra.
  - destruct (dlthx_spec f x1 x2 W H1 H2 ltac:(lra)) as (dh & E & I).
    destruct (dlthx_spec (reverse_profile f) (path_length f - x2) (path_length f - x1) W') as (dh' & E' & I'); [lra | rewrite length_rev; lra | change (pf_xi (reverse_profile f)) with (pf_xi f); lra|].
    rewrite E, E'. f_equal. eapply irregularity_unique; [exact W' | exact I' | apply irr_rev; assumption].
Qed.
