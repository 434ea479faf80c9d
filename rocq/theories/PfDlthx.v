(** dlthx over the reals. *)
From Coq Require Import Sorting.Permutation Sorting.Sorted.
From Verif Require Import RTac Prep SpecTerrain PfSort PfMisc PfHzns PfRegime PfLsq.
Open Scope R_scope.

(** ** The specification is functional *)
Lemma terrain_step f d y y' k k' : well_formed f -> (k < k')%nat ->
  INR k * (pf_xi f : R) <= d <= INR (S k) * (pf_xi f : R) -> INR k' * (pf_xi f : R) <= d ->
  y = ground f k + (ground f (S k) - ground f k) * ((d - INR k * (pf_xi f : R)) / (pf_xi f : R)) ->
  y' = ground f k' + (ground f (S k') - ground f k') * ((d - INR k' * (pf_xi f : R)) / (pf_xi f : R)) -> y = y'.
Proof.
  intros (_ & X & _) L D D' E E'. set (xi := pf_xi f : R) in *. change (pf_xi f : R) with xi in X.
  assert (INR (S k) <= INR k') by (apply le_INR; lia). assert (INR (S k) * xi <= INR k' * xi) by (apply Rmult_le_compat_r; lra).
  assert (INR k' * xi = INR (S k) * xi) by lra. assert (K : INR k' = INR (S k)) by (eapply Rmult_eq_reg_r; [eassumption | lra]). apply INR_eq in K. subst k'.
  assert (Ed : d = INR (S k) * xi) by lra. rewrite E, E', Ed. rewrite S_INR. field. lra.
Qed.
Lemma terrain_unique f d y y' : well_formed f -> terrain_at f d y -> terrain_at f d y' -> y = y'.
Proof.
  intros W (k & K & D & E) (k' & K' & D' & E'). destruct (Nat.lt_trichotomy k k') as [L|[->|L]].
  - eapply (terrain_step f d y y' k k'); eauto. tauto.
  - congruence.
  - symmetry. eapply (terrain_step f d y' y k' k); eauto. tauto.
Qed.
Lemma nth_error_ext {T} (l l' : list T) : (forall j, nth_error l j = nth_error l' j) -> l = l'.
Proof.
  revert l'; induction l as [|x l IH]; intros [|y l'] H; [reflexivity | specialize (H 0%nat); discriminate | specialize (H 0%nat); discriminate|].
  f_equal; [specialize (H 0%nat); cbn in H; congruence|]. apply IH. intro j. exact (H (S j)).
Qed.
Lemma samples_unique f x1 x2 n s s' : well_formed f -> samples f x1 x2 n s -> samples f x1 x2 n s' -> s = s'.
Proof.
  intros W (L & H) (L' & H'). apply nth_error_ext. intro j. destruct (nth_error s j) as [y|] eqn:E.
  - assert (J : (j < length s)%nat) by (apply nth_error_Some; congruence). destruct (nth_error s' j) as [y'|] eqn:E'; [|apply nth_error_None in E'; lia].
    f_equal. eapply terrain_unique; eauto.
  - symmetry. apply nth_error_None. apply nth_error_None in E. lia.
Qed.
Lemma rev_sorted (l : list R) : StronglySorted Rge l -> StronglySorted Rle (rev l).
Proof.
  induction 1 as [|x l S IH F]; [constructor|]. cbn [rev]. clear S.
  assert (G : Forall (fun y => y <= x) (rev l)). { apply Forall_forall. intros y I. apply in_rev in I. rewrite Forall_forall in F. specialize (F y I). lra. }
  induction (rev l) as [|y m IHm]; [repeat constructor|]. inversion IH as [|? ? IH1 IH2]; subst. inversion G as [|? ? G1 G2]; subst. cbn [app]. constructor; [apply IHm; assumption|].
  apply Forall_app. split; [exact IH2 | constructor; [exact G1 | constructor]].
Qed.
Lemma asc_unique (l l' : list R) : StronglySorted Rle l -> StronglySorted Rle l' -> Permutation l l' -> l = l'.
Proof.
  revert l'; induction l as [|x l IH]; intros l' S S' P.
  - apply Permutation_nil in P. auto.
  - destruct l' as [|y l']; [symmetry in P; apply Permutation_nil in P; discriminate|].
    inversion S as [|? ? S1 F1]; subst. inversion S' as [|? ? S2 F2]; subst. rewrite Forall_forall in F1, F2.
    assert (x = y). { assert (I1 : In x (y :: l')) by (eapply Permutation_in; [exact P | left; reflexivity]). assert (I2 : In y (x :: l)) by (eapply Permutation_in; [symmetry; exact P | left; reflexivity]).
      destruct I1 as [->|I1]; [reflexivity|]. destruct I2 as [->|I2]; [reflexivity|]. apply Rle_antisym; auto. }
    subst y. f_equal. apply IH; try assumption. eapply Permutation_cons_inv; exact P.
Qed.
Lemma largest_fun l k u u' : kth_largest l k u -> kth_largest l k u' -> u = u'.
Proof.
  intros (m & P & S & E) (m' & P' & S' & E'). assert (m = m') by (apply desc_unique; [exact S | exact S' | rewrite <- P; exact P']). congruence.
Qed.
Lemma smallest_fun l k u u' : kth_smallest l k u -> kth_smallest l k u' -> u = u'.
Proof.
  intros (m & P & S & E) (m' & P' & S' & E'). assert (m = m') by (apply asc_unique; [exact S | exact S' | rewrite <- P; exact P']). congruence.
Qed.
Lemma decile_fun w q q' : decile w q -> decile w q' -> q = q'.
Proof.
  intros (m & B & E) (m' & B' & E'). assert (m = m'). { assert (IZR m < IZR (m' + 1)) by (rewrite plus_IZR; lra). assert (IZR m' < IZR (m + 1)) by (rewrite plus_IZR; lra). apply lt_IZR in H, H0. lia. }
  subst. lia.
Qed.
Lemma decile_range w q : decile w q -> (4 <= q <= 25)%nat.
Proof. intros (m & _ & E). lia. Qed.
Lemma irregularity_unique f x1 x2 d d' : well_formed f -> irregularity f x1 x2 d -> irregularity f x1 x2 d' -> d = d'.
Proof.
  intros W (q & s & a & b & u & v & Q & S & B & U & V & ->) (q' & s' & a' & b' & u' & v' & Q' & S' & B' & U' & V' & ->).
  assert (q = q') by (eapply decile_fun; eassumption). subst q'. assert (s = s') by (eapply samples_unique; eassumption). subst s'.
  destruct (best_unique _ _ _ _ _ _ _ B B') as [<- <-]. rewrite (largest_fun _ _ _ _ U U'), (smallest_fun _ _ _ _ V V'). reflexivity.
Qed.

(** ** The run *)
Lemma while_spec np fuel (xa : R) (k : nat) : (k <= np)%nat -> (np - k <= fuel)%nat -> -1 <= xa -> xa + INR k <= INR np ->
  exists (xa' : R) (k' : nat), dlthx_while RA fuel (Z.of_nat np) xa (Z.of_nat k) = (xa', Z.of_nat k') /\ (k <= k' <= np)%nat /\ xa' + INR k' = xa + INR k /\ -1 <= xa' <= 0.
Proof.
  revert xa k; induction fuel as [|c IH]; intros xa k K F X0 X1.
  - exists xa, k. assert (k = np) by lia. subst k. repeat split; try lia; try reflexivity; lra.
  - cbn [dlthx_while]. cbn [n_ltb n_Z n_sub RA]. destruct (r_ltb 0 xa) eqn:B; rbool; cbn [andb].
    + assert (Kn : (k < np)%nat) by (apply INR_lt; lra). destruct (Z.ltb_spec (Z.of_nat k) (Z.of_nat np)); [|lia].
      replace (Z.of_nat k + 1)%Z with (Z.of_nat (S k)) by lia. destruct (IH (xa - 1) (S k)) as (xa' & k' & E & K' & X' & R'); [lia | lia | lra | rewrite S_INR; lra|].
      exists xa', k'. rewrite S_INR in X'. repeat split; [exact E | lia | lia | lra | lra | lra].
    + exists xa, k. repeat split; try lia; lra.
Qed.
Lemma sample_spec (f : profile RA) (k : nat) (xa : R) : well_formed f -> (1 <= k <= intervals f)%nat -> -1 <= xa <= 0 ->
  exists y : R, dlthx_sample RA f (Z.of_nat k) xa = Ok y /\ terrain_at f ((xa + INR k) * (pf_xi f : R)) y.
Proof.
  intros W K X. destruct (wf_len f W) as (L & N & N1). pose proof W as (_ & Xi & _). unfold dlthx_sample.
  assert (Len : Z.of_nat (length (pfl_list f)) = (Z.of_nat (intervals f) + 3)%Z) by (unfold pfl_list; cbn [length]; lia).
  rewrite Len. destruct (Z.leb_spec (Z.of_nat k + 2) (Z.of_nat (intervals f) + 3)); [|lia].
  rewrite pfl_height by lia. replace (Z.of_nat k + 1)%Z with (Z.of_nat (k - 1) + 2)%Z by lia. rewrite pfl_height by lia. cbn [bind].
  eexists. split; [reflexivity|]. exists (k - 1)%nat. set (xi := pf_xi f : R) in *. change (pf_xi f : R) with xi in Xi. replace (S (k - 1)) with k by lia. split; [lia|].
  assert (E : INR (k - 1) = INR k - 1) by (rewrite minus_INR by lia; reflexivity). rewrite E. split.
  - split; apply Rmult_le_compat_r; lra.
  - cbn [n_add n_sub n_mul RA]. field. lra.
Qed.
Lemma loop_samples (f : profile RA) c (xa step : R) (k : nat) : well_formed f -> (1 <= k <= intervals f)%nat -> -1 <= xa -> 0 <= step ->
  xa + INR k + INR (c - 1) * step <= INR (intervals f) ->
  exists s, dlthx_loop RA f c xa step (Z.of_nat k) = Ok s /\ length s = c /\
    forall j y, nth_error s j = Some y -> terrain_at f ((xa + INR k + INR j * step) * (pf_xi f : R)) y.
Proof.
  intro W. destruct (wf_len f W) as (L & N & N1). revert xa k; induction c as [|c IH]; intros xa k K X0 S0 X1.
  - exists []. cbn. repeat split. intros [|j] y; discriminate.
  - cbn [dlthx_loop]. assert (C0 : 0 <= INR c * step) by (apply Rmult_le_pos; [apply pos_INR | exact S0]). replace (S c - 1)%nat with c in X1 by lia.
    rewrite <- N. destruct (while_spec (intervals f) (Z.to_nat (Z.of_nat (intervals f) - Z.of_nat k)) xa k) as (xa' & k' & E & K' & X' & R'); [lia | lia | exact X0 | lra|].
    rewrite E. destruct (sample_spec f k' xa' W ltac:(lia) R') as (y & Ey & T). rewrite Ey. cbn [bind].
    cbn [n_add RA]. destruct c as [|c].
    + cbn [dlthx_loop bind]. exists [y]. repeat split. intros [|j] z H; [|destruct j; discriminate]. injection H as <-. cbn [INR]. rewrite Rmult_0_l, Rplus_0_r, <- X'. exact T.
    + assert (S1 : INR (S c) * step = INR c * step + step) by (rewrite S_INR; ring).
      destruct (IH (xa' + step) k') as (s & Es & Ls & Ts); [lia | lra | exact S0 | replace (S c - 1)%nat with c by lia; lra|].
      cbn [num RA] in Es |- *. rewrite Es. cbn [bind]. exists (y :: s). split; [reflexivity|]. split; [cbn [length]; f_equal; exact Ls|]. intros [|j] z H; cbn [nth_error] in H.
      * injection H as <-. cbn [INR]. rewrite Rmult_0_l, Rplus_0_r, <- X'. exact T.
      * specialize (Ts j z H). rewrite S_INR. replace (xa + INR k + (INR j + 1) * step) with (xa' + step + INR k' + INR j * step) by lra. exact Ts.
Qed.
Lemma detrend_res (s : list R) (a b : R) : dlthx_detrend RA s a b = residuals s a b.
Proof.
  unfold residuals. change (num RA) with R. assert (G : forall i (s : list R) a, dlthx_detrend RA s a b = map (fun j => nth (j - i) s 0 - (a + b * INR (j - i))) (seq i (length s))).
  { intros i s0; revert i; induction s0 as [|y s0 IH]; intros i a0; cbn [dlthx_detrend]; [reflexivity|]. cbn [length seq map]. rewrite Nat.sub_diag. cbn [nth INR]. f_equal.
    - cbn [n_sub RA]. change (num RA) with R in *. ring.
    - rewrite (IH (S i)). apply map_ext_in. intros j I. apply in_seq in I. replace (j - i)%nat with (S (j - S i)) by lia. cbn [nth n_add RA]. rewrite S_INR. change (num RA) with R in *. ring. }
  rewrite (G 0%nat). apply map_ext. intro j. rewrite Nat.sub_0_r. reflexivity.
Qed.
Lemma residuals_length s a b : length (residuals s a b) = length s.
Proof. unfold residuals. rewrite map_length, seq_length. reflexivity. Qed.
Lemma qtile_largest (l : list R) (k : nat) : (1 <= k <= length l)%nat -> exists v : R, qtile RA l (Z.of_nat k - 1) = Ok v /\ kth_largest l k v.
Proof.
  intro K. destruct (proj2 (qtile_defined l (Z.of_nat k - 1)) ltac:(lia)) as [v E]. exists v. split; [exact E|]. unfold qtile in E. apply pyget_inv in E as (i & N & I).
  destruct (Z.ltb_spec (Z.of_nat k - 1) 0); [lia|]. exists (sort_desc RA l). split; [symmetry; apply sort_perm|]. split; [apply sort_sorted|].
  replace (k - 1)%nat with i by lia. exact N.
Qed.
Lemma nth_error_rev {T} (l : list T) i v : nth_error l i = Some v -> nth_error (rev l) (length l - 1 - i) = Some v.
Proof.
  intro H. assert (I : (i < length l)%nat) by (apply nth_error_Some; congruence). rewrite (nth_error_nth' _ v) by (rewrite rev_length; lia). f_equal.
  rewrite rev_nth by lia. replace (length l - S (length l - 1 - i))%nat with i by lia. apply nth_error_nth with (1 := H).
Qed.
Lemma largest_smallest l k v : (1 <= k <= length l)%nat -> kth_largest l (length l + 1 - k) v -> kth_smallest l k v.
Proof.
  intros K (m & P & S & N). exists (rev m). split; [rewrite <- Permutation_rev; exact P|]. split; [apply rev_sorted; exact S|].
  apply Permutation_length in P. apply nth_error_rev in N. replace (k - 1)%nat with (length m - 1 - (length l + 1 - k - 1))%nat by lia. exact N.
Qed.
Lemma spread_pos x : 0 <= x -> 2 / 10 <= 1 - 8 / 10 * exp (- (x / 50000)) /\ (0 < x -> 2 / 10 < 1 - 8 / 10 * exp (- (x / 50000))).
Proof.
  intro X. assert (E : forall y, exp y <= 1 <-> y <= 0).
  { intro y. rewrite <- exp_0 at 1. split; intro H; [|destruct H as [H|<-]; [left; apply exp_increasing; exact H | lra]].
    destruct (Rle_dec y 0) as [|Q]; [assumption|]. exfalso. pose proof (exp_increasing 0 y ltac:(lra)). lra. }
  split; [pose proof (proj2 (E (- (x / 50000))) ltac:(lra)); lra|]. intro P. pose proof (exp_increasing (- (x / 50000)) 0 ltac:(lra)) as I. rewrite exp_0 in I. lra.
Qed.
Lemma dlthx_short (f : profile RA) (x1 x2 : R) : well_formed f -> x2 - x1 < 2 * (pf_xi f : R) -> dlthx RA f x1 x2 = Ok 0.
Proof.
  intros (_ & X & _) H. set (xi := pf_xi f : R) in *. change (pf_xi f : R) with xi in X. unfold dlthx. cbn [n_div n_sub n_leb n_Z RA]. change (pf_xi f) with xi. rewrite !r_div_ok by lra. cbn [bind].
  destruct (r_leb 2 (x2 / xi - x1 / xi)) eqn:B; rbool; [|reflexivity]. exfalso.
  assert (2 * xi <= (x2 / xi - x1 / xi) * xi) by (apply Rmult_le_compat_r; lra). replace ((x2 / xi - x1 / xi) * xi) with (x2 - x1) in H0 by (field; lra). lra.
Qed.
Lemma dlthx_spec (f : profile RA) (x1 x2 : R) : well_formed f -> 0 <= x1 -> x2 <= path_length f -> 2 * (pf_xi f : R) <= x2 - x1 ->
  exists dh : R, dlthx RA f x1 x2 = Ok dh /\ irregularity f x1 x2 dh.
Proof.
  intros W P1 P2 P3. destruct (wf_len f W) as (L & N & N1). pose proof W as (_ & X & _). unfold path_length in P2. unfold irregularity. set (xi := pf_xi f : R) in *. change (pf_xi f : R) with xi in X.
  assert (Q1 : 0 <= x1 / xi) by (apply Rmult_le_pos; [exact P1 | left; apply Rinv_0_lt_compat; exact X]).
  assert (Q2 : x2 / xi <= INR (intervals f)). { apply Rmult_le_reg_r with (1 := X). unfold Rdiv. rewrite Rmult_assoc, Rinv_l by lra. lra. }
  assert (Q4 : (x2 - x1) / xi = x2 / xi - x1 / xi) by (field; lra).
  assert (Q3 : 2 <= x2 / xi - x1 / xi). { rewrite <- Q4. apply Rmult_le_reg_r with (1 := X). unfold Rdiv. rewrite Rmult_assoc, Rinv_l by lra. lra. }
  unfold dlthx. cbn [n_div n_sub n_leb n_Z n_trunc n_mul n_add n_lit RA]. change (pf_xi f) with xi. rewrite !r_div_ok by lra. cbn [bind].
  destruct (r_leb 2 (x2 / xi - x1 / xi)) eqn:B; rbool; [|lra]. clear B.
  rewrite !trunc_floor by lra. set (m := rfloor (1 / 10 * (x2 / xi - x1 / xi + 8))). pose proof (rfloor_spec (1 / 10 * (x2 / xi - x1 / xi + 8))) as Fm. fold m in Fm. cbn [bind].
  destruct (floor_nat (x1 / xi + 1) ltac:(lra)) as (k & Ek & Bk). rewrite Ek.
  assert (Q0 : exists q, decile ((x2 - x1) / xi) q /\ Z.min (Z.max 4 m) 25 = Z.of_nat q).
  { exists (Z.to_nat (Z.min (Z.max 4 m) 25)). split; [exists m; rewrite Q4; split; [lra | lia] | lia]. }
  destruct Q0 as (q & Dq & ->). pose proof (decile_range _ _ Dq) as Rq. clear Fm m.
  replace (10 * Z.of_nat q - 5 - 1)%Z with (Z.of_nat (10 * q - 6)) by lia. replace (Z.to_nat (10 * Z.of_nat q - 5)) with (10 * q - 5)%nat by lia.
  rewrite <- INR_IZR_INZ. set (M := INR (10 * q - 6)). assert (M0 : 0 < M) by (apply lt_0_INR; lia). rewrite r_div_ok by lra. cbn [bind].
  set (step := (x2 / xi - x1 / xi) / M). assert (S0 : 0 <= step) by (apply Rmult_le_pos; [lra | left; apply Rinv_0_lt_compat; exact M0]).
  assert (K1 : (1 <= k <= intervals f)%nat). { split; apply INR_le; [|lra]. assert (1 < INR (S k)) by (rewrite S_INR; lra). change 1 with (INR 1) in H. apply INR_lt in H. apply le_INR. lia. }
  rewrite <- INR_IZR_INZ. destruct (loop_samples f (10 * q - 5) (x1 / xi - INR k) step k W K1 ltac:(lra) S0) as (s & Es & Ls & Ts).
  { replace (10 * q - 5 - 1)%nat with (10 * q - 6)%nat by lia. fold M. replace (M * step) with (x2 / xi - x1 / xi) by (unfold step; field; lra). lra. }
  cbn [num RA] in Es |- *. rewrite Es. cbn [bind].
  assert (Smp : samples f x1 x2 (10 * q - 5) s).
  { split; [exact Ls|]. intros j y Hj. specialize (Ts j y Hj). replace (10 * q - 5 - 1)%nat with (10 * q - 6)%nat by lia. fold M.
    change (pf_xi f : R) with xi in Ts. replace ((x1 / xi - INR k + INR k + INR j * step) * xi) with (x1 + INR j * ((x2 - x1) / M)) in Ts by (unfold step; field; lra). exact Ts. }
  set (g := @Profile RA (Z.of_nat (10 * q - 6)) 1 s). assert (Wg : well_formed g) by (unfold well_formed, g; cbn [pf_np pf_xi pf_z]; split; [lia|]; split; [lra|]; change (num RA) with R in *; lia).
  assert (Ig : intervals g = (10 * q - 6)%nat) by (unfold intervals, g; cbn [pf_np]; lia).
  assert (Pg : proper g 0 M) by (unfold proper, path_length; rewrite Ig; fold M; cbn [pf_xi g]; change (num RA) with R in *; lra).
  destruct (zlsq1_spec g 0 M Wg Pg) as (lo & hi & a & b & Wd & H & Bl & Ez). rewrite Ig in Ez, H. fold M in Ez.
  assert (lo = 0 /\ hi = 10 * q - 6)%nat as [-> ->].
  { apply (window_unique g 0 M); [exact Wd|]. unfold window. cbn [pf_xi g]. rewrite Ig. fold M. change (pf_xi g : R) with 1. unfold Rdiv. rewrite Rmult_0_l, Rinv_1, Rmult_1_r. rewrite Rmax_left by lra. rewrite Rmin_left by lra. cbn [INR]. lra. }
  cbn [num RA] in Ez |- *. rewrite Ez. cbn [bind]. rewrite r_div_ok by lra. cbn [bind]. replace ((a + b * M - a) / M) with b by (field; lra).
  assert (Lr : @length R s = (10 * q - 5)%nat) by exact Ls. clear Ls.
  rewrite detrend_res. destruct (qtile_largest (residuals s a b) q) as (u & Eu & Ku); [rewrite residuals_length; lia|]. rewrite Eu. cbn [bind].
  replace (10 * Z.of_nat q - 5 - Z.of_nat q + 1 - 1)%Z with (Z.of_nat (9 * q - 4) - 1)%Z by lia.
  destruct (qtile_largest (residuals s a b) (9 * q - 4)) as (v & Ev & Kv); [rewrite residuals_length; lia|]. rewrite Ev. cbn [bind].
  assert (Kv' : kth_smallest (residuals s a b) q v).
  { assert (RL : length (residuals s a b) = (10 * q - 5)%nat) by (rewrite residuals_length; exact Lr).
    apply largest_smallest; rewrite RL; [lia|]. replace (10 * q - 5 + 1 - q)%nat with (9 * q - 4)%nat by lia. exact Kv. }
  cbn [n_opp m_exp RA bind].
  destruct (spread_pos (x2 - x1) ltac:(lra)) as [D _]. replace (- (x2 - x1) / (50000 / 1)) with (- ((x2 - x1) / 50000)) by field. rewrite r_div_ok by lra.
  eexists. split; [reflexivity|]. exists q, s, a, b, u, v. exact (conj Dq (conj Smp (conj Bl (conj Ku (conj Kv' eq_refl))))).
Qed.

(** ** Consequences *)
Lemma kth_order l k u v : (1 <= k)%nat -> (2 * k <= length l + 1)%nat -> kth_largest l k u -> kth_smallest l k v -> v <= u.
Proof.
  intros K L U V. destruct (qtile_largest l (length l + 1 - k) ltac:(lia)) as (v' & _ & KV).
  rewrite (smallest_fun _ _ _ _ V (largest_smallest l k v' ltac:(lia) KV)). destruct U as (m & P & Sm & N). destruct KV as (m' & P' & Sm' & N').
  assert (m = m') by (apply desc_unique; [exact Sm | exact Sm' | rewrite <- P; exact P']). subst m'. eapply desc_nth; [exact Sm | | exact N | exact N']. lia.
Qed.
Lemma irr_nonneg f x1 x2 dh : x1 <= x2 -> irregularity f x1 x2 dh -> 0 <= dh.
Proof.
  intros X (q & s & a & b & u & v & Q & S & B & U & V & ->). pose proof (decile_range _ _ Q). destruct S as [Ls _].
  assert (v <= u) by (eapply kth_order; [| |exact U | exact V]; [lia | rewrite residuals_length; lia]).
  destruct (spread_pos (x2 - x1) ltac:(lra)) as [D _]. apply Rmult_le_pos; [lra|]. left. apply Rinv_0_lt_compat. lra.
Qed.
Lemma nth_nth_error (s : list R) j y : nth_error s j = Some y -> nth j s 0 = y.
Proof. apply nth_error_nth. Qed.
Lemma nth_map_seq (g : nat -> R) n j : (j < n)%nat -> nth j (map g (seq 0 n)) 0 = g j.
Proof. intro H. rewrite (nth_indep _ 0 (g 0%nat)) by (rewrite map_length, seq_length; exact H). rewrite map_nth, seq_nth by exact H. reflexivity. Qed.
Lemma terrain_add_line f a b d y : well_formed f -> terrain_at f d y -> terrain_at (add_line f a b) d (y + (a + b * (d / (pf_xi f : R)))).
Proof.
  intros W (k & K & D & ->). destruct (wf_len f W) as (L & _ & _). pose proof W as (_ & X & _). exists k. split; [exact K|]. change (pf_xi (add_line f a b)) with (pf_xi f). split; [exact D|].
  rewrite !add_line_ground by lia. rewrite S_INR. set (xi := pf_xi f : R) in *. change (pf_xi f : R) with xi in X. field. lra.
Qed.
Lemma irr_add_line f a b x1 x2 dh : well_formed f -> irregularity f x1 x2 dh -> irregularity (add_line f a b) x1 x2 dh.
Proof.
  intros W (q & s & A & B & u & v & Q & S & Bl & U & V & E). pose proof (decile_range _ _ Q) as Rq. destruct S as [Ls Hs]. pose proof W as (_ & X & _).
  set (xi := pf_xi f : R) in *. change (pf_xi f : R) with xi in X, Q.
  set (c := a + b * (x1 / xi)). set (e := b * ((x2 - x1) / INR (10 * q - 5 - 1) / xi)).
  set (s' := map (fun j => nth j s 0 + (c + e * INR j)) (seq 0 (length s))).
  assert (N' : forall j, (j < length s)%nat -> nth j s' 0 = nth j s 0 + (c + e * INR j)) by (intros j J; apply nth_map_seq; exact J).
  assert (Ls' : length s' = length s) by (unfold s'; rewrite map_length, seq_length; reflexivity).
  assert (Res : residuals s' (A + c) (B + e) = residuals s A B).
  { unfold residuals. rewrite Ls'. apply map_ext_in. intros j J. apply in_seq in J. rewrite N' by lia. ring. }
  exists q, s', (A + c), (B + e), u, v. change (pf_xi (add_line f a b) : R) with xi. split; [exact Q|]. split; [|split; [|rewrite Res; auto]].
  - split; [congruence|]. intros j y Hj. assert (J : (j < length s)%nat) by (rewrite <- Ls'; apply nth_error_Some; congruence).
    apply nth_nth_error in Hj. rewrite N' in Hj by exact J. rewrite <- Hj.
    assert (T := Hs j (nth j s 0) ltac:(apply nth_error_nth'; exact J)). apply (terrain_add_line f a b _ _ W) in T. fold xi in T.
    replace (c + e * INR j) with (a + b * ((x1 + INR j * ((x2 - x1) / INR (10 * q - 5 - 1))) / xi)); [exact T|]. unfold c, e. field. split; [apply not_0_INR; lia | lra].
  - eapply best_add; [lia| |exact Bl]. intros k K. unfold ground. cbn [pf_z]. apply N'. lia.
Qed.
Lemma sorted_map_ge c l : 0 <= c -> StronglySorted Rge l -> StronglySorted Rge (map (fun z => c * z) l).
Proof.
  intros C. induction 1 as [|x l S IH F]; cbn [map]; constructor; [exact IH|]. rewrite Forall_forall in *. intros y I. apply in_map_iff in I as (z & <- & I). apply Rle_ge, Rmult_le_compat_l; [exact C|]. specialize (F z I). lra.
Qed.
Lemma sorted_map_le c l : 0 <= c -> StronglySorted Rle l -> StronglySorted Rle (map (fun z => c * z) l).
Proof.
  intros C. induction 1 as [|x l S IH F]; cbn [map]; constructor; [exact IH|]. rewrite Forall_forall in *. intros y I. apply in_map_iff in I as (z & <- & I). apply Rmult_le_compat_l; [exact C|]. specialize (F z I). lra.
Qed.
Lemma terrain_scale f c d y : well_formed f -> terrain_at f d y -> terrain_at (scale f c) d (c * y).
Proof.
  intros W (k & K & D & ->). destruct (wf_len f W) as (L & _ & _). exists k. split; [exact K|]. split; [exact D|].
  rewrite !scale_ground by lia. change (pf_xi (scale f c)) with (pf_xi f). ring.
Qed.
Lemma irr_scale f c x1 x2 dh : well_formed f -> 0 <= c -> irregularity f x1 x2 dh -> irregularity (scale f c) x1 x2 (c * dh).
Proof.
  intros W C (q & s & A & B & u & v & Q & S & Bl & U & V & E). pose proof (decile_range _ _ Q) as Rq. destruct S as [Ls Hs].
  set (s' := map (fun z => c * z) s). assert (N' : forall j, nth j s' 0 = c * nth j s 0). { intro j. unfold s'. replace 0 with (c * 0) at 1 by ring. apply (map_nth (fun z => c * z)). }
  assert (Ls' : length s' = length s) by apply map_length.
  assert (Res : residuals s' (c * A) (c * B) = map (fun z => c * z) (residuals s A B)).
  { unfold residuals. rewrite Ls', map_map. apply map_ext. intros j. rewrite N'. ring. }
  exists q, s', (c * A), (c * B), (c * u), (c * v). split; [exact Q|]. split; [|split; [|rewrite Res; split; [|split]]].
  - split; [congruence|]. intros j y Hj. assert (J : (j < length s)%nat) by (rewrite <- Ls'; apply nth_error_Some; congruence).
    apply nth_nth_error in Hj. rewrite N' in Hj. rewrite <- Hj. apply terrain_scale; [exact W|]. apply Hs. apply nth_error_nth'. exact J.
  - eapply best_scale; [lia| |exact Bl]. intros k K. unfold ground. cbn [pf_z]. apply N'.
  - destruct U as (m & P & Sm & N). exists (map (fun z => c * z) m). split; [apply Permutation_map; exact P|]. split; [apply sorted_map_ge; assumption|]. apply map_nth_error with (1 := N).
  - destruct V as (m & P & Sm & N). exists (map (fun z => c * z) m). split; [apply Permutation_map; exact P|]. split; [apply sorted_map_le; assumption|]. apply map_nth_error with (1 := N).
  - rewrite E. unfold Rdiv. ring.
Qed.

Lemma dlthx_total (f : profile RA) (x1 x2 : R) : well_formed f -> 0 <= x1 -> x2 <= path_length f -> exists dh : R, dlthx RA f x1 x2 = Ok dh /\ 0 <= dh.
Proof.
  intros W P1 P2. destruct (Rle_dec (2 * (pf_xi f : R)) (x2 - x1)) as [L|L].
  - destruct (dlthx_spec f x1 x2 W P1 P2 L) as (dh & E & I). exists dh. split; [exact E|]. pose proof W as (_ & X & _). eapply irr_nonneg; [|exact I]. lra.
  - exists 0. split; [apply dlthx_short; [exact W | lra] | lra].
Qed.
Lemma dlthx_add_line (f : profile RA) (a b x1 x2 : R) : well_formed f -> 0 <= x1 -> x2 <= path_length f -> dlthx RA (add_line f a b) x1 x2 = dlthx RA f x1 x2.
Proof.
  intros W P1 P2. pose proof (add_line_wf f a b W) as W'. destruct (Rle_dec (2 * (pf_xi f : R)) (x2 - x1)) as [L|L].
  - destruct (dlthx_spec f x1 x2 W P1 P2 L) as (dh & E & I). destruct (dlthx_spec (add_line f a b) x1 x2 W' P1 P2 L) as (dh' & E' & I').
    rewrite E, E'. f_equal. eapply irregularity_unique; [exact W' | exact I' | apply irr_add_line; assumption].
  - rewrite !dlthx_short; [reflexivity | exact W | lra | exact W' | change (pf_xi (add_line f a b)) with (pf_xi f); lra].
Qed.
Lemma dlthx_scale (f : profile RA) (c x1 x2 dh : R) : well_formed f -> 0 <= c -> 0 <= x1 -> x2 <= path_length f -> dlthx RA f x1 x2 = Ok dh ->
  dlthx RA (scale f c) x1 x2 = Ok (c * dh)%R.
Proof.
  intros W C P1 P2 E0. pose proof (scale_wf f c W) as W'. destruct (Rle_dec (2 * (pf_xi f : R)) (x2 - x1)) as [L|L].
  - destruct (dlthx_spec f x1 x2 W P1 P2 L) as (d & E & I). destruct (dlthx_spec (scale f c) x1 x2 W' P1 P2 L) as (dh' & E' & I').
    rewrite E in E0. injection E0 as <-. rewrite E'. f_equal. eapply irregularity_unique; [exact W' | exact I' | apply irr_scale; assumption].
  - rewrite dlthx_short in E0 by (assumption || lra). injection E0 as <-. rewrite Rmult_0_r. apply dlthx_short; [exact W' | change (pf_xi (scale f c)) with (pf_xi f); lra].
Qed.
Lemma dlthx_straight (f : profile RA) (c d x1 x2 : R) : well_formed f -> 0 <= x1 -> x2 <= path_length f ->
  (forall k, (k <= intervals f)%nat -> ground f k = c + d * INR k) -> dlthx RA f x1 x2 = Ok 0.
Proof.
  intros W P1 P2 G. destruct (wf_len f W) as (L & _ & _). assert (E : f = add_line (scale f 0) c d).
  { unfold add_line. assert (L' : length (pf_z (scale f 0)) = length (pf_z f)) by (cbn [scale pf_z]; apply map_length). destruct f as [np xi z] eqn:Ef. cbn [scale pf_np pf_xi pf_z] in *. f_equal.
    apply nth_error_ext. intro j. change (num RA) with R in *. destruct (Nat.lt_ge_cases j (length z)) as [J|J].
    - rewrite (nth_error_nth' _ 0) by exact J. rewrite (nth_error_nth' _ 0) by (rewrite map_length, seq_length, map_length; exact J). f_equal.
      rewrite nth_map_seq by (rewrite map_length; exact J). rewrite (scale_ground (@Profile RA np xi z) 0 j J). specialize (G j ltac:(lia)). unfold ground in G. cbn [pf_z] in G. rewrite G. ring.
    - rewrite (proj2 (nth_error_None _ _) J). symmetry. apply nth_error_None. rewrite map_length, seq_length, map_length. exact J. }
  destruct (dlthx_total f x1 x2 W P1 P2) as (dh & E0 & _). rewrite E. rewrite dlthx_add_line by (try apply scale_wf; assumption).
  rewrite (dlthx_scale f 0 x1 x2 dh) by (assumption || lra). rewrite Rmult_0_l. reflexivity.
Qed.
