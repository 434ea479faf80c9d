(** How errors in the heights of a profile reach horizons, fitted lines and irregularity. *)
From Coq Require Import Lra Lia Sorting.Permutation Sorting.Sorted.
From Verif Require Import RTac SpecSense Misc Prep PfHzns PfLsq PfDlthx PfTerrainCases Arith.
Open Scope R_scope.

(** ** Horizons *)
Lemma largest_move l l' th th' (e : R) : largest_angle l th -> largest_angle l' th' -> (forall d a, In (d, a) l -> exists a', In (d, a') l' /\ a <= a' + e) -> th <= th' + e.
Proof. intros [[d I] _] [_ M] H. destruct (H d th I) as (a' & I' & L). specialize (M d a' I'). lra. Qed.
Lemma same_len f g : same_path f g -> intervals g = intervals f /\ path_length g = path_length f.
Proof. intros (_ & _ & N & X). unfold path_length, intervals. rewrite N, X. auto. Qed.
Lemma rev_path f g : same_path f g -> same_path (reverse_profile f) (reverse_profile g).
Proof. intros (W & W' & N & X). repeat split; try (apply wf_rev; assumption); assumption. Qed.
Lemma sights_move f g gme (za za' zb zb' e : R) : same_path f g -> zb - za <= zb' - za' + e -> 0 <= e ->
  (forall j, (1 <= j <= intervals f - 1)%nat -> ground f j - za <= ground g j - za' + e) ->
  forall d a, In (d, a) (sights f gme za zb) -> exists a', In (d, a') (sights g gme za' zb') /\ a <= a' + e / pf_xi f.
Proof.
  intros S B E H d a I. pose proof S as (W & W' & N & X). destruct (same_len f g S) as [L1 L2]. pose proof W as (W1 & W2 & W3). change (num RA) with R in *.
  assert (D : forall s u v : R, (pf_xi f : R) <= s -> u <= v + e -> u / s <= v / s + e / pf_xi f).
  { intros s u v Hs Hu. apply Rle_trans with ((v + e) / s). { apply Rmult_le_compat_r; [apply Rlt_le, Rinv_0_lt_compat; lra | exact Hu]. }
    unfold Rdiv. rewrite Rmult_plus_distr_r. apply Rplus_le_compat_l. apply Rmult_le_compat_l; [exact E|]. apply Rinv_le_contravar; lra. }
  assert (J : forall j, (1 <= j)%nat -> (pf_xi f : R) <= INR j * (pf_xi f : R)).
  { intros j Hj. apply le_INR in Hj. cbn in Hj. nra. }
  assert (NI : (1 <= intervals f)%nat) by (unfold intervals; lia).
  apply in_sights in I as [[-> ->]|[j [Hj [-> ->]]]].
  - eexists. split; [apply in_sights; left; split; [symmetry; exact L2 | reflexivity]|]. rewrite L2. unfold sight_angle. specialize (D (path_length f) (zb - za) (zb' - za')).
    assert (pf_xi f <= path_length f) by (apply J, NI). specialize (D H0 B). lra.
  - eexists. split; [apply in_sights; right; exists j; split; [rewrite L1; exact Hj | split; [rewrite X; reflexivity | reflexivity]]|]. rewrite X. unfold sight_angle.
    specialize (D (INR j * (pf_xi f : R)) (ground f j - za) (ground g j - za')). specialize (H j ltac:(lia)). specialize (D (J j ltac:(lia)) H). lra.
Qed.
Lemma angles_move f g (hg0 hg1 gme e t0 t1 d0 d1 u0 u1 x0 x1 : R) : same_path f g -> 0 <= e ->
  (forall j k, (j <= intervals f)%nat -> (k = 0%nat \/ k = intervals f) -> ground f j - ground f k <= ground g j - ground g k + e) ->
  hzns RA f (path_length f) hg0 hg1 gme = Ok (t0, t1, d0, d1) -> hzns RA g (path_length f) hg0 hg1 gme = Ok (u0, u1, x0, x1) -> t0 <= u0 + e / pf_xi f /\ t1 <= u1 + e / pf_xi f.
Proof.
  intros S E H H1 H2. pose proof S as (W & W' & N & X). destruct (same_len f g S) as [L1 L2].
  destruct (hzns_angles f hg0 hg1 gme W) as (a0 & a1 & b0 & b1 & A & A0 & A1 & _). rewrite A in H1. injection H1 as <- <- <- <-.
  destruct (hzns_angles g hg0 hg1 gme W') as (a0' & a1' & b0' & b1' & B & B0 & B1 & _). rewrite L2 in B. rewrite B in H2. injection H2 as <- <- <- <-.
  unfold sights0, sights1 in *. rewrite L1 in *. change (num RA) with R in *. split.
  - eapply largest_move; [exact A0 | exact B0 |]. apply sights_move; try assumption.
    + specialize (H (intervals f) 0%nat ltac:(lia) ltac:(auto)). lra.
    + intros j Hj. specialize (H j 0%nat ltac:(lia) ltac:(auto)). lra.
  - eapply largest_move; [exact A1 | exact B1 |].
    change (e / pf_xi f) with (e / (pf_xi (reverse_profile f) : R)). apply sights_move; try assumption.
    + apply rev_path, S.
    + specialize (H 0%nat (intervals f) ltac:(lia) ltac:(auto)). lra.
    + intros j Hj. rewrite intervals_rev in Hj. rewrite !ground_rev by (assumption || rewrite ?L1; lia). rewrite L1. specialize (H (intervals f - j)%nat (intervals f) ltac:(lia) ltac:(auto)). lra.
Qed.
Lemma angles_raised f g (hg0 hg1 gme t0 t1 d0 d1 u0 u1 x0 x1 : R) : same_path f g -> ground g 0 = ground f 0 -> ground g (intervals f) = ground f (intervals f) ->
  (forall j, (j <= intervals f)%nat -> ground f j <= ground g j) -> hzns RA f (path_length f) hg0 hg1 gme = Ok (t0, t1, d0, d1) -> hzns RA g (path_length f) hg0 hg1 gme = Ok (u0, u1, x0, x1) ->
  t0 <= u0 /\ t1 <= u1.
Proof.
  intros S A B H H1 H2. destruct (angles_move f g hg0 hg1 gme 0 t0 t1 d0 d1 u0 u1 x0 x1 S ltac:(lra)) as [L M]; try assumption.
  - intros j k J [-> | ->]; specialize (H j J); lra.
  - unfold Rdiv in *. rewrite Rmult_0_l, Rplus_0_r in *. auto.
Qed.
Lemma angles_within f g (hg0 hg1 gme e t0 t1 d0 d1 u0 u1 x0 x1 : R) : same_path f g -> heights_within e 0 (intervals f) f g ->
  hzns RA f (path_length f) hg0 hg1 gme = Ok (t0, t1, d0, d1) -> hzns RA g (path_length f) hg0 hg1 gme = Ok (u0, u1, x0, x1) ->
  Rabs (u0 - t0) <= 2 * e / pf_xi f /\ Rabs (u1 - t1) <= 2 * e / pf_xi f.
Proof.
  intros S H H1 H2. assert (E : 0 <= e) by (specialize (H 0%nat ltac:(lia)); lra). destruct (same_len f g S) as [L1 L2].
  assert (S' : same_path g f) by (destruct S as (W & W' & N & X); repeat split; try apply W; try apply W'; auto).
  destruct (angles_move f g hg0 hg1 gme (2 * e) t0 t1 d0 d1 u0 u1 x0 x1 S ltac:(lra)) as [L M]; try assumption.
  { intros j k J K. pose proof (H j ltac:(lia)). pose proof (H k ltac:(lia)). lra. }
  rewrite <- L2 in H1, H2. destruct (angles_move g f hg0 hg1 gme (2 * e) u0 u1 x0 x1 t0 t1 d0 d1 S' ltac:(lra)) as [L' M']; try assumption.
  { rewrite L1. intros j k J K. pose proof (H j ltac:(lia)). pose proof (H k ltac:(lia)). lra. }
  destruct S as (_ & _ & _ & X). change (num RA) with R in *. rewrite X in L', M'. split; apply Rabs_le; lra.
Qed.

(** ** Fitted lines *)
Lemma sum_le (g h : nat -> R) l : (forall k, In k l -> g k <= h k) -> fold_right Rplus 0 (map g l) <= fold_right Rplus 0 (map h l).
Proof. induction l as [|k l IH]; intro H; cbn; [lra|]. specialize (IH (fun k K => H k (or_intror K))). specialize (H k (or_introl eq_refl)). lra. Qed.
Lemma trap_le lo hi g h : (lo < hi)%nat -> (forall k, (lo <= k <= hi)%nat -> g k <= h k) -> trapezoid lo hi g <= trapezoid lo hi h.
Proof.
  intros L H. unfold trapezoid. pose proof (H lo ltac:(lia)). pose proof (H hi ltac:(lia)).
  assert (fold_right Rplus 0 (map g (seq (S lo) (hi - lo - 1))) <= fold_right Rplus 0 (map h (seq (S lo) (hi - lo - 1)))) by (apply sum_le; intros k K; apply in_seq in K; apply H; lia). lra.
Qed.
Lemma trap_zero lo hi : (lo < hi)%nat -> trapezoid lo hi (fun _ => 0) = 0.
Proof. intro L. rewrite (trap_ext lo hi _ (fun k => 0 * 0)) by (assumption || intros; ring). rewrite trap_scal. ring. Qed.
Section fit.
Context (lo hi : nat) (L : (lo < hi)%nat) (d : nat -> R) (e : R) (D : forall k, (lo <= k <= hi)%nat -> - e <= d k <= e).
Let n := INR (hi - lo).
Let xc := INR hi - n / 2.
Lemma fit_energy : n * fit_mean lo hi d ^ 2 + n * (n ^ 2 + 2) / 12 * fit_slope lo hi d ^ 2 <= n * e ^ 2.
Proof.
  pose proof (n_ge1 lo hi L) as N. pose proof (nn_pos lo hi L) as P. fold n in N, P. set (m := fit_mean lo hi d). set (s := fit_slope lo hi d).
  assert (Q : 0 <= trapezoid lo hi (fun k => (d k - m - s * (INR k - xc)) ^ 2)).
  { rewrite <- (trap_zero lo hi L). apply trap_le; [exact L|]. intros k _. apply pow2_ge_0. }
  rewrite (trap_ext lo hi _ (fun k => d k ^ 2 + (-2 * m) * d k + (-2 * s) * (d k * (INR k - xc)) + m ^ 2 * 1 + (2 * m * s) * (INR k - xc) + s ^ 2 * (INR k - xc) ^ 2)) in Q by (exact L || (intros; ring)).
  rewrite !trap_plus, !trap_scal in Q. unfold xc, n in Q. rewrite (trap_1 lo hi L), (trap_x lo hi L), (trap_xx lo hi L) in Q. fold n in Q. fold xc in Q.
  assert (M : trapezoid lo hi d = n * m) by (unfold m, fit_mean; fold n; field; lra).
  assert (T : trapezoid lo hi (fun k => d k * (INR k - xc)) = n * (n ^ 2 + 2) / 12 * s) by (unfold s, fit_slope; fold n; fold xc; field; nra).
  rewrite M, T in Q.
  assert (B : trapezoid lo hi (fun k => d k ^ 2) <= e ^ 2 * n).
  { replace n with (trapezoid lo hi (fun _ => 1)) by (apply trap_1, L). rewrite <- trap_scal. apply trap_le; [exact L|]. intros k K. specialize (D k K). nra. }
  nra.
Qed.
Lemma fit_point (y t : R) : y = t * n / 2 -> (fit_mean lo hi d + fit_slope lo hi d * y) ^ 2 <= (1 + 3 * t ^ 2) * e ^ 2.
Proof.
  intros ->. pose proof fit_energy as Q. pose proof (n_ge1 lo hi L) as N. fold n in N. set (m := fit_mean lo hi d) in *. set (s := fit_slope lo hi d) in *.
  assert (K : m ^ 2 + s ^ 2 * n ^ 2 / 12 <= e ^ 2).
  { apply Rmult_le_reg_l with n; [lra|]. assert (0 <= n * s ^ 2) by (apply Rmult_le_pos; [lra | apply pow2_ge_0]). nra. }
  assert (C : (m + s * (t * n / 2)) ^ 2 <= (1 + 3 * t ^ 2) * (m ^ 2 + s ^ 2 * n ^ 2 / 12)).
  { assert (Z : (1 + 3 * t ^ 2) * (m ^ 2 + s ^ 2 * n ^ 2 / 12) - (m + s * (t * n / 2)) ^ 2 = 3 * (t * m - s * n / 6) ^ 2) by field. pose proof (pow2_ge_0 (t * m - s * n / 6)). lra. }
  apply Rle_trans with (1 := C). apply Rmult_le_compat_l; [|exact K]. pose proof (pow2_ge_0 t). lra.
Qed.
End fit.
Lemma fit_diff lo hi g h : (lo < hi)%nat -> fit_mean lo hi (fun k => g k - h k) = fit_mean lo hi g - fit_mean lo hi h /\ fit_slope lo hi (fun k => g k - h k) = fit_slope lo hi g - fit_slope lo hi h.
Proof.
  intro L. assert (A : forall u v w : nat -> R, (forall k, w k = u k - v k) -> trapezoid lo hi w = trapezoid lo hi u - trapezoid lo hi v).
  { intros u v w H. rewrite (trap_ext lo hi w (fun k => u k + -1 * v k)) by (exact L || (intros; rewrite H; ring)). rewrite trap_plus, trap_scal. ring. }
  unfold fit_mean, fit_slope. split.
  - rewrite (A g h) by reflexivity. unfold Rdiv. ring.
  - rewrite (A (fun k => g k * (INR k - (INR hi - INR (hi - lo) / 2))) (fun k => h k * (INR k - (INR hi - INR (hi - lo) / 2)))) by (intro; ring). unfold Rdiv. ring.
Qed.
Lemma best_moves f g lo hi a b a' b' (e : R) (k : nat) : (lo < hi)%nat -> heights_within e lo hi f g -> best_line f lo hi a b -> best_line g lo hi a' b' ->
  (a' + b' * INR k - (a + b * INR k)) ^ 2 <= (1 + 3 * offset lo hi k ^ 2) * e ^ 2.
Proof.
  intros L H B B'. destruct (best_unique _ _ _ _ _ _ _ B (fit_best lo hi L f)) as [-> ->]. destruct (best_unique _ _ _ _ _ _ _ B' (fit_best lo hi L g)) as [-> ->].
  destruct (fit_diff lo hi (ground g) (ground f) L) as [M S]. pose proof (fit_point lo hi L (fun k => ground g k - ground f k) e H (INR k - (INR hi - INR (hi - lo) / 2)) (offset lo hi k)) as P.
  rewrite M, S in P. refine (Rle_trans _ _ _ (Req_le _ _ _) (P _)).
  - ring.
  - pose proof (n_ge1 lo hi L) as N. unfold offset. rewrite minus_INR in * by lia. field. lra.
Qed.
Lemma line_moves f g (x1 x2 e u v u' v' : R) lo hi : same_path f g -> proper f x1 x2 -> window f x1 x2 lo hi -> heights_within e lo hi f g ->
  zlsq1 RA f x1 x2 = Ok (u, v) -> zlsq1 RA g x1 x2 = Ok (u', v') -> forall k, (line_at f u' v' k - line_at f u v k) ^ 2 <= (1 + 3 * offset lo hi k ^ 2) * e ^ 2.
Proof.
  intros S P W H Z Z' k. pose proof S as (F & G & N & X). destruct (same_len f g S) as [L1 _].
  destruct (zlsq1_spec f x1 x2 F P) as (l1 & h1 & a & b & W1 & L & B & E). destruct (window_unique _ _ _ _ _ _ _ W1 W) as [-> ->]. rewrite E in Z. injection Z as <- <-.
  destruct (zlsq1_spec g x1 x2 G (same_proper f g x1 x2 N X P)) as (l2 & h2 & a' & b' & W2 & _ & B' & E'). apply (same_window f g) in W2; [|assumption..].
  destruct (window_unique _ _ _ _ _ _ _ W2 W) as [-> ->]. rewrite E', L1 in Z'. injection Z' as <- <-.
  assert (NI : INR (intervals f) <> 0) by (apply not_0_INR; lia).
  pose proof (best_moves f g lo hi a b a' b' e k ltac:(lia) H B B') as Q. refine (Rle_trans _ _ _ (Req_le _ _ _) Q). unfold line_at. field. exact NI.
Qed.

(** ** Irregularity *)
Lemma terrain_moves f g (e d y y' : R) : same_path f g -> heights_within e 0 (intervals f) f g -> terrain_at f d y -> terrain_at g d y' -> - e <= y' - y <= e.
Proof.
  intros SP H (k & K & Hd & ->) T. pose proof SP as (F & G & N & X). destruct (same_len f g SP) as [L1 _]. change (num RA) with R in *.
  assert (T' : terrain_at g d (ground g k + (ground g (S k) - ground g k) * ((d - INR k * (pf_xi f : R)) / (pf_xi f : R)))).
  { exists k. rewrite L1, X. auto. }
  rewrite (terrain_unique g d y' _ G T T'). pose proof (H k ltac:(lia)) as A. pose proof (H (S k) ltac:(lia)) as B. destruct F as (_ & F & _). change (num RA) with R in *.
  set (t := (d - INR k * (pf_xi f : R)) / (pf_xi f : R)). assert (0 <= t <= 1).
  { unfold t. rewrite S_INR in Hd. split; [apply Rmult_le_pos; [lra | apply Rlt_le, Rinv_0_lt_compat, F]|]. apply Rmult_le_reg_r with (pf_xi f : R); [exact F|]. unfold Rdiv. rewrite Rmult_assoc, Rinv_l by lra. lra. }
  set (A0 := ground g k) in *. set (B0 := ground f k) in *. set (A1 := ground g (S k)) in *. set (B1 := ground f (S k)) in *.
  replace (A0 + (A1 - A0) * t - (B0 + (B1 - B0) * t)) with ((1 - t) * (A0 - B0) + t * (A1 - B1)) by ring. nra.
Qed.
Definition cnt_ge (x : R) (l : list R) : nat := length (filter (fun y => if Rle_dec x y then true else false) l).
Lemma cnt_cons x y l : cnt_ge x (y :: l) = ((if Rle_dec x y then 1 else 0) + cnt_ge x l)%nat.
Proof. unfold cnt_ge. cbn. destruct (Rle_dec x y); reflexivity. Qed.
Lemma cnt_perm x l l' : Permutation l l' -> cnt_ge x l = cnt_ge x l'.
Proof. induction 1; rewrite ?cnt_cons; try lia; reflexivity. Qed.
Lemma sorted_cnt l : StronglySorted Rge l -> forall k v, nth_error l k = Some v -> (k < cnt_ge v l)%nat.
Proof.
  induction 1 as [|a l S IH A]; intros k v E; [destruct k; discriminate|]. rewrite cnt_cons. destruct k as [|k]; cbn in E.
  - injection E as ->. destruct (Rle_dec v v); [lia | lra].
  - specialize (IH k v E). assert (v <= a) by (rewrite Forall_forall in A; apply Rge_le, A; eapply nth_error_In; exact E). destruct (Rle_dec v a); [lia | lra].
Qed.
Lemma cnt_sorted l x : StronglySorted Rge l -> forall k v, nth_error l k = Some v -> v < x -> (cnt_ge x l <= k)%nat.
Proof.
  induction 1 as [|a l S IH A]; intros k v E V; [destruct k; discriminate|]. rewrite cnt_cons. destruct k as [|k]; cbn in E.
  - injection E as ->. destruct (Rle_dec x v); [lra|]. enough (cnt_ge x l = 0%nat) by lia. unfold cnt_ge. clear - A V. induction A as [|b l B A IH]; [reflexivity|].
    cbn. destruct (Rle_dec x b); [lra | exact IH].
  - specialize (IH k v E V). destruct (Rle_dec x a); lia.
Qed.
Lemma cnt_move l l' (x d : R) : Forall2 (fun y y' => y - d <= y') l l' -> (cnt_ge x l <= cnt_ge (x - d) l')%nat.
Proof. induction 1 as [|y y' l l' Y F IH]; [reflexivity|]. rewrite !cnt_cons. destruct (Rle_dec x y), (Rle_dec (x - d) y'); try lia. lra. Qed.
Lemma largest_moves l l' k u u' (d : R) : Forall2 (fun y y' => y - d <= y') l l' -> kth_largest l k u -> kth_largest l' k u' -> u - d <= u'.
Proof.
  intros F (s & P & S & E) (s' & P' & S' & E'). apply Rnot_lt_le. intro V. pose proof (cnt_sorted s' (u - d) S' _ _ E' V) as A. pose proof (sorted_cnt s S _ _ E) as B.
  pose proof (cnt_move l l' u d F) as C. rewrite (cnt_perm u l s P), (cnt_perm (u - d) l' s' P') in C. lia.
Qed.
Lemma smallest_largest l k v : (1 <= k <= length l)%nat -> kth_smallest l k v -> kth_largest l (length l + 1 - k) v.
Proof.
  intros K S. destruct (qtile_largest l (length l + 1 - k) ltac:(lia)) as (w & _ & W). rewrite (smallest_fun l k v w S (largest_smallest l k w K W)). exact W.
Qed.
Lemma forall2_nth (P : R -> R -> Prop) (s s' : list R) : length s = length s' -> (forall j, (j < length s)%nat -> P (nth j s 0) (nth j s' 0)) -> Forall2 P s s'.
Proof.
  revert s'. induction s as [|a s IH]; intros [|b s'] E H; try discriminate; constructor.
  - apply (H 0%nat). cbn. lia.
  - apply IH; [cbn in E; lia|]. intros j J. apply (H (S j)). cbn. lia.
Qed.
Lemma irr_moves f g (x1 x2 e u v : R) : same_path f g -> heights_within e 0 (intervals f) f g -> x1 <= x2 -> irregularity f x1 x2 u -> irregularity g x1 x2 v ->
  (u - v) * (1 - 8 / 10 * exp (- ((x2 - x1) / 50000))) <= 6 * e.
Proof.
  intros SP H X (q & s & a & b & s1 & s2 & Q & SA & B & K1 & K2 & ->) (q' & s' & a' & b' & s1' & s2' & Q' & SA' & B' & K1' & K2' & ->). pose proof SP as (F & G & N & XI).
  assert (E0 : 0 <= e) by (specialize (H 0%nat ltac:(lia)); lra).
  change (num RA) with R in *. rewrite XI in Q'. pose proof (decile_fun _ _ _ Q' Q) as ->. pose proof (decile_range _ _ Q) as QR. destruct SA as [LS SA]. destruct SA' as [LS' SA'].
  destruct (spread_pos (x2 - x1) ltac:(lra)) as [D _]. set (w := 1 - 8 / 10 * exp (- ((x2 - x1) / 50000))) in *.
  assert (T : forall j, (j < 10 * q - 5)%nat -> - e <= nth j s' 0 - nth j s 0 <= e).
  { intros j J. destruct (nth_error s j) as [y|] eqn:Y; [|apply nth_error_None in Y; lia]. destruct (nth_error s' j) as [y'|] eqn:Y'; [|apply nth_error_None in Y'; lia].
    rewrite (nth_nth_error s j y Y), (nth_nth_error s' j y' Y'). eapply (terrain_moves f g e); [exact SP | exact H | exact (SA j y Y) | exact (SA' j y' Y')]. }
  assert (M : forall j, (j < 10 * q - 5)%nat -> - (2 * e) <= a' + b' * INR j - (a + b * INR j) <= 2 * e).
  { intros j J. assert (HW : heights_within e 0 (10 * q - 6) (@Profile RA (Z.of_nat (10 * q - 6)) 1 s) (@Profile RA (Z.of_nat (10 * q - 6)) 1 s')) by (intros k K; apply T; lia).
    pose proof (best_moves _ _ 0 (10 * q - 6) a b a' b' e j ltac:(lia) HW B B') as P. assert (O : offset 0 (10 * q - 6) j ^ 2 <= 1).
    { assert (0 < INR (10 * q - 6)) by (apply lt_0_INR; lia). assert (J' : INR j <= INR (10 * q - 6)) by (apply le_INR; lia). pose proof (pos_INR j). unfold offset. cbn [INR]. rewrite !Rminus_0_r.
      set (z := INR (10 * q - 6)) in *. assert (-1 <= (2 * INR j - z) / z <= 1); [|nra]. split; apply Rmult_le_reg_r with z; try lra; unfold Rdiv; rewrite Rmult_assoc, Rinv_l by lra; lra. }
    assert (P2 : (a' + b' * INR j - (a + b * INR j)) ^ 2 <= (2 * e) ^ 2) by nra. nra. }
  assert (FF : forall P : R -> R -> Prop, (forall y y', - (3 * e) <= y' - y <= 3 * e -> P y y') -> Forall2 P (residuals s a b) (residuals s' a' b')).
  { intros P HP. apply forall2_nth; rewrite !residuals_length; [lia|]. intros j J. rewrite LS in J. apply HP. unfold residuals. rewrite !nth_map_seq by lia. specialize (T j J). specialize (M j J). lra. }
  pose proof (largest_moves _ _ q s1 s1' (3 * e) (FF (fun y y' => y - 3 * e <= y') (fun y y' Hy => ltac:(lra))) K1 K1') as U.
  apply smallest_largest in K2; [|rewrite residuals_length; lia]. apply smallest_largest in K2'; [|rewrite residuals_length; lia]. rewrite residuals_length in K2, K2'. rewrite LS in K2. rewrite LS' in K2'.
  assert (FB : Forall2 (fun y y' => y - 3 * e <= y') (residuals s' a' b') (residuals s a b)).
  { apply forall2_nth; rewrite !residuals_length; [lia|]. intros j J. rewrite LS' in J. unfold residuals. rewrite !nth_map_seq by lia. specialize (T j J). specialize (M j J). lra. }
  pose proof (largest_moves _ _ _ s2' s2 (3 * e) FB K2' K2) as V.
  replace (((s1 - s2) / w - (s1' - s2') / w) * w) with ((s1 - s2) - (s1' - s2')) by (field; lra). lra.
Qed.
Lemma dlthx_moves f g (x1 x2 e u v : R) : same_path f g -> heights_within e 0 (intervals f) f g -> 0 <= x1 -> x1 <= x2 -> x2 <= path_length f ->
  dlthx RA f x1 x2 = Ok u -> dlthx RA g x1 x2 = Ok v -> Rabs (v - u) <= 6 * e / (1 - 8 / 10 * exp (- ((x2 - x1) / 50000))) /\ Rabs (v - u) <= 30 * e.
Proof.
  intros SP H X0 X X1 U V. pose proof SP as (F & G & N & XI). destruct (same_len f g SP) as [L1 L2]. assert (E0 : 0 <= e) by (specialize (H 0%nat ltac:(lia)); lra).
  destruct (spread_pos (x2 - x1) ltac:(lra)) as [D _]. set (w := 1 - 8 / 10 * exp (- ((x2 - x1) / 50000))) in *. change (num RA) with R in *.
  assert (A : - (6 * e / w) <= v - u <= 6 * e / w).
  { assert (P : forall z, z * w <= 6 * e -> z <= 6 * e / w). { intros z Z. apply Rmult_le_reg_r with w; [lra|]. unfold Rdiv. rewrite Rmult_assoc, Rinv_l by lra. lra. }
    destruct (Rlt_le_dec (x2 - x1) (2 * (pf_xi f : R))) as [Q|Q].
    - rewrite (dlthx_short f x1 x2 F Q) in U. rewrite (dlthx_short g x1 x2 G) in V by (rewrite XI; exact Q). injection U as <-. injection V as <-.
      rewrite Rminus_0_r. assert (0 <= 6 * e / w); [|lra]. apply P. lra.
    - destruct (dlthx_spec f x1 x2 F X0 X1 Q) as (d & E & I). rewrite E in U. injection U as <-.
      destruct (dlthx_spec g x1 x2 G X0 ltac:(rewrite L2; exact X1) ltac:(rewrite XI; exact Q)) as (d' & E' & I'). rewrite E' in V. injection V as <-.
      pose proof (P _ (irr_moves f g x1 x2 e d d' SP H X I I')) as A1. assert (SP' : same_path g f) by (repeat split; try apply F; try apply G; auto).
      assert (H' : heights_within e 0 (intervals g) g f) by (rewrite L1; intros k K; specialize (H k K); lra).
      pose proof (P _ (irr_moves g f x1 x2 e d' d SP' H' X I' I)) as A2. lra. }
  assert (B : 6 * e / w <= 30 * e). { apply Rmult_le_reg_r with w; [lra|]. unfold Rdiv. rewrite Rmult_assoc, Rinv_l by lra. nra. }
  split; apply Rabs_le; lra.
Qed.
