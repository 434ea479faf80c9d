(** terrain_module.py over the reals. *)
From Verif Require Import RTac SpecScripts PfRegime PfMisc PfSort PfLsq PfDlthx Scripts.
From Coq Require Import Sorting.Permutation Sorting.Sorted.
Open Scope R_scope.

(** * determine_num_samples *)
Definition dns (d : R) : R := -1 / (1 / 100000 * d + 1 / 598) + 600.
Lemma dns_run (d : R) : 0 <= d -> determine_num_samples RA d = Ok (rrint (dns d)).
Proof.
  intro D. unfold determine_num_samples. cbn [n_div n_mul n_add n_Z n_lit n_rint RA]. rewrite r_div_ok by lra. cbn [bind]. rewrite r_div_ok by lra. reflexivity.
Qed.
Lemma dns_0 : dns 0 = 2. Proof. unfold dns. field. Qed.
Lemma dns_mono d d' : 0 <= d -> d <= d' -> dns d <= dns d'.
Proof.
  intros D L. unfold dns. assert (H : / (1 / 100000 * d' + 1 / 598) <= / (1 / 100000 * d + 1 / 598)) by (apply Rinv_le_contravar; lra).
  unfold Rdiv at 1 4. lra.
Qed.
Lemma dns_lt d : 0 <= d -> dns d < 600.
Proof. intro D. unfold dns. assert (0 < / (1 / 100000 * d + 1 / 598)) by (apply Rinv_0_lt_compat; lra). unfold Rdiv at 1. lra. Qed.
Lemma num_range (d : R) : 0 <= d -> exists n, determine_num_samples RA d = Ok n /\ (2 <= n <= 600)%Z.
Proof.
  intro D. rewrite dns_run by exact D. eexists; split; [reflexivity|]. split.
  - rewrite <- (rrint_Z 2). apply rrint_mono. rewrite <- dns_0. apply dns_mono; lra.
  - rewrite <- (rrint_Z 600). apply rrint_mono. left. apply dns_lt; exact D.
Qed.
Lemma num_zero : determine_num_samples RA 0 = Ok 2%Z.
Proof. rewrite dns_run by lra. rewrite dns_0. f_equal. exact (rrint_Z 2). Qed.
Lemma num_mono (d d' : R) n n' : 0 <= d -> d <= d' -> determine_num_samples RA d = Ok n -> determine_num_samples RA d' = Ok n' -> (n <= n')%Z.
Proof.
  intros D L. rewrite !dns_run by lra. intros H K. injection H as <-. injection K as <-. apply rrint_mono. apply dns_mono; assumption.
Qed.
Lemma num_600 (d : R) : 0 <= d -> (determine_num_samples RA d = Ok 600%Z <-> 100000 * (2 - 1 / 598) <= d).
Proof.
  intro D. rewrite dns_run by exact D. set (y := 1 / 100000 * d + 1 / 598). assert (Y : 0 < y) by (unfold y; lra).
  assert (E : dns d = 600 - / y) by (unfold dns; fold y; field; lra).
  split.
  - intro H. injection H as H. pose proof (rrint_spec (dns d)) as [S _]. rewrite H in S. pose proof (Rle_abs (dns d - 600)); pose proof (Rle_abs (- (dns d - 600))) as S2; rewrite Rabs_Ropp in S2.
    assert (Q : / y <= 1 / 2) by lra. assert (Q2 : 2 <= y). { apply Rmult_le_compat_r with (r := y) in Q; [|lra]. rewrite Rinv_l in Q by lra. lra. } unfold y in Q2. lra.
  - intro H. f_equal. assert (2 <= y) by (unfold y; lra). assert (/ y <= / 2) by (apply Rinv_le_contravar; lra). assert (0 < / y) by (apply Rinv_0_lt_compat; lra).
    apply rrint_unique; [apply Rabs_le; lra | intros _; reflexivity].
Qed.
Lemma num_spec (d : R) : 0 <= d -> exists n, determine_num_samples RA d = Ok n /\ Rabs (600 - 1 / (d / 100000 + 1 / 598) - IZR n) <= 1 / 2.
Proof.
  intro D. rewrite dns_run by exact D. eexists; split; [reflexivity|]. pose proof (rrint_spec (dns d)) as [S _].
  replace (600 - 1 / (d / 100000 + 1 / 598)) with (dns d); [exact S|]. unfold dns. field. lra.
Qed.

(** * The sampling positions *)
Lemma steps_run n (len : R) : (1 <= n)%Z -> exists xs : list R, terrain_steps RA n len = Ok xs /\ length xs = Z.to_nat n /\
  forall i, (i < Z.to_nat n)%nat -> nth_error xs i = Some (INR i * (len / IZR n)).
Proof.
  intro N. assert (N0 : 0 < IZR n) by (apply IZR_lt; lia).
  unfold terrain_steps. cbn [n_div n_mul n_add n_sub n_Z RA]. rewrite r_div_ok by lra. cbn [bind]. eexists; split; [reflexivity|]. split.
  - rewrite map_length, seq_length. reflexivity.
  - intros i I. rewrite nth_error_map. rewrite (nth_error_nth' _ 0%nat) by (rewrite seq_length; exact I). rewrite seq_nth by exact I. cbn [option_map]. f_equal.
    rewrite <- INR_IZR_INZ, Nat.add_0_l. field. lra.
Qed.
Lemma sampling_run (d len : R) (xs : list R) : 0 <= d -> terrain_sampling RA d len = Ok xs ->
  exists n, determine_num_samples RA d = Ok n /\ Z.of_nat (length xs) = n /\ forall i, (i < length xs)%nat -> nth_error xs i = Some (INR i * (len / IZR n)).
Proof.
  intros D H. unfold terrain_sampling in H. destruct (num_range d D) as (n & E & N). rewrite E in H. cbn [bind] in H.
  destruct (steps_run n len ltac:(lia)) as (xs' & E' & L & I). rewrite E' in H. injection H as <-. exists n. split; [exact E|]. split; [lia|]. intros i Hi. apply I. lia.
Qed.
Lemma sampling_total (d len : R) : 0 <= d -> exists xs : list R, terrain_sampling RA d len = Ok xs.
Proof.
  intro D. unfold terrain_sampling. destruct (num_range d D) as (n & E & N). rewrite E. cbn [bind].
  destruct (steps_run n len ltac:(lia)) as (xs' & E' & _). exists xs'. exact E'.
Qed.
Lemma sampling_short (d len : R) (xs : list R) : 0 <= d -> 0 < len -> terrain_sampling RA d len = Ok xs -> forall x, In x xs -> x <= len - len / 600.
Proof.
  intros D L H x I. destruct (num_range d D) as (n & E & N). destruct (sampling_run d len xs D H) as (n' & E' & Ln & Hx).
  rewrite E in E'. injection E' as <-. apply In_nth_error in I as [i I]. assert (Hi : (i < length xs)%nat) by (apply nth_error_Some; congruence).
  rewrite (Hx i Hi) in I. injection I as <-.
  assert (N0 : 0 < IZR n) by (apply IZR_lt; lia). assert (N6 : IZR n <= 600) by (apply IZR_le; lia).
  assert (J : INR i <= IZR n - 1). { rewrite INR_IZR_INZ, <- minus_IZR. apply IZR_le. lia. }
  assert (0 < len / IZR n) by (apply Rdiv_lt_0_compat; lra).
  apply Rle_trans with ((IZR n - 1) * (len / IZR n)); [apply Rmult_le_compat_r; lra|].
  replace ((IZR n - 1) * (len / IZR n)) with (len - len / IZR n) by (field; lra).
  assert (len / 600 <= len / IZR n); [|lra]. unfold Rdiv. apply Rmult_le_compat_l; [lra|]. apply Rinv_le_contravar; lra.
Qed.
Lemma sampling_spacing (d len : R) (xs : list R) : 0 <= d -> terrain_sampling RA d len = Ok xs ->
  nth_error xs 0 = Some 0 /\
  exists h, len = INR (length xs) * h /\ forall i x y, nth_error xs i = Some x -> nth_error xs (S i) = Some y -> y - x = h.
Proof.
  intros D H. destruct (num_range d D) as (n & E & N). destruct (sampling_run d len xs D H) as (n' & E' & Ln & Hx).
  rewrite E in E'. injection E' as <-. assert (N0 : 0 < IZR n) by (apply IZR_lt; lia). split.
  - rewrite Hx by lia. f_equal. cbn [INR]. ring.
  - exists (len / IZR n). split; [rewrite INR_IZR_INZ, Ln; field; lra|]. intros i x y X Y.
    assert (Hi : (S i < length xs)%nat) by (apply nth_error_Some; congruence). rewrite Hx in X by lia. rewrite Hx in Y by lia. assert (X' : x = INR i * (len / IZR n)) by congruence. assert (Y' : y = INR (S i) * (len / IZR n)) by congruence. rewrite X', Y', S_INR. ring.
Qed.

(** * Percentiles *)
Lemma sorted_nth (l : list R) i j u v : StronglySorted Rle l -> (i <= j)%nat -> nth_error l i = Some u -> nth_error l j = Some v -> u <= v.
Proof.
  intro S. revert i j; induction S as [|x l S IH F]; intros i j L U V; [destruct i; discriminate|].
  destruct j as [|j]; [assert (i = O) by lia; subst; cbn in *; inversion U; inversion V; lra|]. destruct i as [|i]; cbn in U, V.
  - inversion U; subst. rewrite Forall_forall in F. apply nth_error_In in V. apply F in V. exact V.
  - apply (IH i j); [lia | assumption | assumption].
Qed.
Lemma INR_unit i j p : INR i <= p < INR i + 1 -> INR j <= p < INR j + 1 -> i = j.
Proof.
  intros H K. assert (A : INR i < INR (S j)) by (rewrite S_INR; lra). assert (B : INR j < INR (S i)) by (rewrite S_INR; lra).
  apply INR_lt in A, B. lia.
Qed.
Lemma percentile_unique x q u v : percentile x q u -> percentile x q v -> u = v.
Proof.
  intros (s & i & lo & hi & P & S & I & N & M & ->) (s' & i' & lo' & hi' & P' & S' & I' & N' & M' & ->).
  assert (s = s') as <-. { apply asc_unique; [exact S | exact S'|]. eapply perm_trans; [symmetry; exact P | exact P']. }
  assert (i = i') as <- by (eapply INR_unit; eassumption). rewrite N in N'. injection N' as <-.
  assert (hi = hi') as <-; [|reflexivity]. destruct M as [M|[M ->]], M' as [M'|[M' ->]]; [congruence | | |reflexivity].
  - assert (Datatypes.S i < length s)%nat by (apply nth_error_Some; congruence). lia.
  - assert (Datatypes.S i < length s)%nat by (apply nth_error_Some; congruence). lia.
Qed.
Lemma percentile_perm x y q v : Permutation x y -> percentile x q v -> percentile y q v.
Proof.
  intros P (s & i & lo & hi & P' & H). exists s, i, lo, hi. split; [eapply perm_trans; [symmetry; exact P | exact P']|].
  rewrite <- (Permutation_length P). exact H.
Qed.
Lemma sorted_shift c (l : list R) : StronglySorted Rle l -> StronglySorted Rle (map (fun z => z + c) l).
Proof.
  induction 1 as [|x l S IH F]; cbn [map]; [constructor|]. constructor; [exact IH|].
  apply Forall_forall. intros y I. apply in_map_iff in I as (z & <- & I). rewrite Forall_forall in F. specialize (F z I). lra.
Qed.
Lemma percentile_shift x q v c : percentile x q v -> percentile (map (fun z => z + c) x) q (v + c).
Proof.
  intros (s & i & lo & hi & P & S & I & N & M & ->). exists (map (fun z => z + c) s), i, (lo + c), (hi + c).
  split; [apply Permutation_map; exact P|]. split; [apply sorted_shift; exact S|]. rewrite map_length. split; [exact I|].
  rewrite !nth_error_map, N. split; [reflexivity|]. split; [|ring].
  destruct M as [M|[M ->]]; [left; rewrite M; reflexivity | right; rewrite map_length; auto].
Qed.
Lemma percentile_mono x q q' u v : 0 < INR (length x) -> q <= q' -> percentile x q u -> percentile x q' v -> u <= v.
Proof.
  intros L Q (s & i & lo & hi & P & S & I & N & M & ->) (s' & i' & lo' & hi' & P' & S' & I' & N' & M' & ->).
  assert (s = s') as <-. { apply asc_unique; [exact S | exact S'|]. eapply perm_trans; [symmetry; exact P | exact P']. }
  assert (W : 0 <= INR (length x) - 1). { apply INR_lt with (n := O) in L. assert (H : INR 1 <= INR (length x)) by (apply le_INR; lia). cbn in H. lra. }
  set (a := q / 100 * (INR (length x) - 1)) in *. set (b := q' / 100 * (INR (length x) - 1)) in *.
  assert (AB : a <= b) by (unfold a, b; apply Rmult_le_compat_r; lra).
  assert (H1 : lo <= hi) by (destruct M as [M|[M ->]]; [eapply (sorted_nth s i (Datatypes.S i)); eauto|lra]).
  assert (H2 : lo' <= hi') by (destruct M' as [M'|[M' ->]]; [eapply (sorted_nth s i' (Datatypes.S i')); eauto|lra]).
  assert (LE : (i <= i')%nat). { assert (A : INR i < INR (Datatypes.S i')) by (rewrite S_INR; lra). apply INR_lt in A. lia. }
  destruct (Nat.eq_dec i i') as [<-|NE].
  - assert (lo = lo') as <- by congruence. assert (hi = hi') as <-.
    { destruct M as [M|[M ->]], M' as [M'|[M' ->]]; [congruence | | |reflexivity].
      - assert (Datatypes.S i < length s)%nat by (apply nth_error_Some; congruence). lia.
      - assert (Datatypes.S i < length s)%nat by (apply nth_error_Some; congruence). lia. }
    assert ((hi - lo) * (a - INR i) <= (hi - lo) * (b - INR i)); [|lra]. apply Rmult_le_compat_l; lra.
  - assert (Hs : (i' < length s)%nat) by (apply nth_error_Some; congruence).
    assert (H3 : hi <= lo'). { destruct M as [M|[M ->]]; [|lia]. eapply (sorted_nth s (Datatypes.S i) i'); eauto. lia. }
    assert ((hi - lo) * (a - INR i) <= (hi - lo) * 1) by (apply Rmult_le_compat_l; lra).
    assert (0 <= (hi' - lo') * (b - INR i')) by (apply Rmult_le_pos; lra). lra.
Qed.
Lemma percentile_const x q v c : (forall z, In z x -> z = c) -> percentile x q v -> v = c.
Proof.
  intros C (s & i & lo & hi & P & S & I & N & M & ->).
  assert (Hs : forall z, In z s -> z = c) by (intros z Z; apply C; eapply Permutation_in; [symmetry; exact P | exact Z]).
  assert (lo = c) as -> by (apply Hs; eapply nth_error_In; exact N).
  assert (hi = c) as -> by (destruct M as [M|[M ->]]; [apply Hs; eapply nth_error_In; exact M | reflexivity]). ring.
Qed.

Lemma pyget_nat {T} (l : list T) (k : nat) v : nth_error l k = Some v -> pyget l (Z.of_nat k) = Ok v.
Proof.
  intro N. assert (L : (k < length l)%nat) by (apply nth_error_Some; congruence). unfold pyget.
  replace (Z.of_nat k <? 0)%Z with false by (symmetry; apply Z.ltb_ge; lia).
  replace (Z.of_nat k <? 0)%Z with false by (symmetry; apply Z.ltb_ge; lia). cbn [orb].
  replace (Z.of_nat (length l) <=? Z.of_nat k)%Z with false by (symmetry; apply Z.leb_gt; lia). rewrite Nat2Z.id, N. reflexivity.
Qed.
Lemma percentile_run (x : list R) (q : R) : x <> [] -> 0 <= q <= 100 -> exists v : R, np_percentile RA x q = Ok v /\ percentile x q v.
Proof.
  intros X Q. unfold np_percentile. cbn [n_div n_mul n_add n_sub n_Z n_lit n_floor n_leb RA]. rewrite r_div_ok by lra. cbn [bind].
  set (n := length x). assert (N : (0 < n)%nat) by (destruct x; [congruence | cbn; lia]).
  assert (EN : IZR (Z.of_nat n - 1) = INR n - 1) by (rewrite minus_IZR, <- INR_IZR_INZ; reflexivity). change (@length (num RA) x) with n. rewrite EN.
  assert (N1 : 1 <= INR n). { assert (H : INR 1 <= INR n) by (apply le_INR; lia). exact H. }
  set (pos := q / 100 * (INR n - 1)). assert (P : 0 <= pos <= INR n - 1).
  { unfold pos. split; [apply Rmult_le_pos; lra|]. replace (INR n - 1) with (1 * (INR n - 1)) at 2 by ring. apply Rmult_le_compat_r; lra. }
  destruct (floor_nat pos (proj1 P)) as (i & -> & I).
  set (s := rev (sort_desc RA x)).
  assert (PS : Permutation x s) by (unfold s; eapply perm_trans; [symmetry; apply sort_perm | apply Permutation_rev]).
  assert (SS : StronglySorted Rle s) by (apply rev_sorted, sort_sorted).
  assert (LS : @length R s = n) by (symmetry; exact (Permutation_length PS)).
  assert (Li : (i < n)%nat). { assert (A : INR i < INR n) by lra. apply INR_lt in A. exact A. }
  destruct (@nth_error R s i) as [lo|] eqn:NL; [|apply nth_error_None in NL; lia]. rewrite (pyget_nat s i lo NL). cbn [bind]. rewrite <- INR_IZR_INZ.
  assert (H : exists hi : R, pyget s (Z.min (Z.of_nat i + 1) (Z.of_nat n - 1)) = Ok hi /\ (nth_error s (S i) = Some hi \/ (S i = @length R s /\ hi = lo))).
  { destruct (Nat.eq_dec (S i) n) as [E|E].
    - exists lo. rewrite Z.min_r by lia. replace (Z.of_nat n - 1)%Z with (Z.of_nat i) by lia. split; [apply pyget_nat; exact NL | right; split; [lia | reflexivity]].
    - destruct (@nth_error R s (S i)) as [hi|] eqn:NH; [|apply nth_error_None in NH; lia]. exists hi. rewrite Z.min_l by lia.
      replace (Z.of_nat i + 1)%Z with (Z.of_nat (S i)) by lia. split; [apply pyget_nat; exact NH | left; exact NH]. }
  destruct H as (hi & -> & M). cbn [bind].
  exists (lo + (hi - lo) * (pos - INR i)). split.
  - destruct (r_leb _ _); [|reflexivity]. f_equal. ring.
  - exists s, i, lo, hi. split; [exact PS|]. split; [exact SS|]. fold n. fold pos. split; [exact I|]. split; [exact NL|]. split; [exact M | reflexivity].
Qed.

(** * interdecile_range *)
Lemma idr_run (x : list R) : x <> [] -> exists u v, percentile x 90 u /\ percentile x 10 v /\ v <= u /\ interdecile_range RA x = Ok (rrint (u - v)).
Proof.
  intro X. destruct (percentile_run x 90 X ltac:(lra)) as (u & U & PU). destruct (percentile_run x 10 X ltac:(lra)) as (v & V & PV).
  exists u, v. split; [exact PU|]. split; [exact PV|].
  assert (L : 0 < INR (length x)). { apply lt_0_INR. destruct x; [congruence | cbn; lia]. }
  assert (LE : v <= u) by (eapply (percentile_mono x 10 90); eauto; lra). split; [exact LE|].
  unfold interdecile_range. change (n_Z 90) with 90. change (n_Z 10) with 10. cbn [n_Z RA]. rewrite U, V. cbn [bind n_sub n_round n_trunc RA]. unfold r_round. change (10 ^ 0)%Z with 1%Z. cbn [bind].
  replace ((u - v) * 1) with (u - v) by ring. f_equal. replace (IZR (rrint (u - v)) / 1) with (IZR (rrint (u - v))) by field.
  apply trunc_Z. rewrite <- (rrint_Z 0). apply rrint_mono. lra.
Qed.
Lemma idr_nonneg (x : list R) : x <> [] -> exists k, interdecile_range RA x = Ok k /\ (0 <= k)%Z /\
  exists u v, percentile x 90 u /\ percentile x 10 v /\ Rabs (u - v - IZR k) <= 1 / 2.
Proof.
  intro X. destruct (idr_run x X) as (u & v & U & V & L & E). exists (rrint (u - v)). split; [exact E|]. split.
  - rewrite <- (rrint_Z 0). apply rrint_mono. lra.
  - exists u, v. split; [exact U|]. split; [exact V|]. apply rrint_spec.
Qed.
Lemma idr_shift (x : list R) c : x <> [] -> interdecile_range RA (map (fun z => z + c) x) = interdecile_range RA x.
Proof.
  intro X. destruct (idr_run x X) as (u & v & U & V & L & E).
  destruct (idr_run (map (fun z => z + c) x) ltac:(destruct x; [congruence | discriminate])) as (u' & v' & U' & V' & L' & E').
  rewrite E, E'. rewrite (percentile_unique _ _ _ _ U' (percentile_shift _ _ _ c U)), (percentile_unique _ _ _ _ V' (percentile_shift _ _ _ c V)).
  do 2 f_equal. ring.
Qed.
Lemma idr_perm (x y : list R) : Permutation x y -> interdecile_range RA x = interdecile_range RA y.
Proof.
  intro P. destruct x as [|a x]; [apply Permutation_nil in P; subst; reflexivity|].
  destruct (idr_run (a :: x) ltac:(discriminate)) as (u & v & U & V & L & E).
  destruct (idr_run y) as (u' & v' & U' & V' & L' & E'). { intros ->. symmetry in P. apply Permutation_nil in P. discriminate. }
  rewrite E, E'. rewrite (percentile_unique _ _ _ _ U' (percentile_perm _ _ _ _ P U)), (percentile_unique _ _ _ _ V' (percentile_perm _ _ _ _ P V)). reflexivity.
Qed.
Lemma idr_const (x : list R) c : x <> [] -> (forall z, In z x -> z = c) -> interdecile_range RA x = Ok 0%Z.
Proof.
  intros X C. destruct (idr_run x X) as (u & v & U & V & L & E). rewrite E. rewrite (percentile_const _ _ _ _ C U), (percentile_const _ _ _ _ C V).
  f_equal. replace (c - c) with 0 by ring. exact (rrint_Z 0).
Qed.
