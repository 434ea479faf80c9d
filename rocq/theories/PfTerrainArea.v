(** The irregularity around a transmitter. *)
From Coq Require Import Lra Lia Permutation Sorted.
From Verif Require Import RTac SpecTerrainArea PfMisc PfLsq PfTerrainMod Arith.
Open Scope R_scope.

Lemma sorted_two lo hi a b : lo <= hi -> StronglySorted Rle (repeat lo a ++ repeat hi b).
Proof.
  intro H. induction a as [|a IH]; cbn [repeat app].
  - induction b as [|b IH]; cbn [repeat]; [constructor|]. constructor; [exact IH|]. apply Forall_forall. intros y Y. apply repeat_spec in Y as ->. lra.
  - constructor; [exact IH|]. apply Forall_forall. intros y Y. apply in_app_or in Y as [Y|Y]; apply repeat_spec in Y as ->; lra.
Qed.
Lemma nth_low (lo hi : R) a b i : (i < a)%nat -> nth_error (repeat lo a ++ repeat hi b) i = Some lo.
Proof. intro H. rewrite nth_error_app1 by (rewrite repeat_length; exact H). apply nth_error_repeat. exact H. Qed.
Lemma nth_high (lo hi : R) a b i : (a <= i < a + b)%nat -> nth_error (repeat lo a ++ repeat hi b) i = Some hi.
Proof. intro H. rewrite nth_error_app2 by (rewrite repeat_length; lia). rewrite repeat_length. apply nth_error_repeat. lia. Qed.

Lemma two_levels (x : list R) lo hi a b : lo <= hi -> Permutation x (repeat lo a ++ repeat hi b) -> (a + b + 9 < 10 * a)%nat -> (a + b + 9 < 10 * b)%nat ->
  percentile x 10 lo /\ percentile x 90 hi.
Proof.
  intros LE P HA HB. assert (N : length x = (a + b)%nat) by (rewrite (Permutation_length P), app_length, !repeat_length; reflexivity).
  assert (NR : INR (length x) = INR a + INR b) by (rewrite N; apply plus_INR).
  assert (RA' : INR a + INR b + 9 < 10 * INR a). { apply lt_INR in HA. rewrite !plus_INR, mult_INR in HA. cbn in HA. lra. }
  assert (RB' : INR a + INR b + 9 < 10 * INR b). { apply lt_INR in HB. rewrite !plus_INR, mult_INR in HB. cbn in HB. lra. }
  pose proof (pos_INR a). pose proof (pos_INR b). split.
  - destruct (floor_nat (10 / 100 * (INR (length x) - 1)) ltac:(lra)) as (i & _ & I). exists (repeat lo a ++ repeat hi b), i, lo, lo.
    assert (Si : (S i < a)%nat). { apply INR_lt. rewrite S_INR. lra. }
    split; [exact P|]. split; [apply sorted_two, LE|]. split; [exact I|]. split; [apply nth_low; lia|]. split; [left; apply nth_low, Si | ring].
  - destruct (floor_nat (90 / 100 * (INR (length x) - 1)) ltac:(lra)) as (i & _ & I). exists (repeat lo a ++ repeat hi b), i, hi, hi.
    assert (Ai : (a <= i)%nat). { apply INR_le. destruct (Rle_dec (INR a) (INR i)) as [|n]; [assumption|]. apply Rnot_le_lt, INR_lt in n. assert (Q : INR (S i) <= INR a) by (apply le_INR; lia). rewrite S_INR in Q. lra. }
    assert (Si : (S i < a + b)%nat). { apply INR_lt. rewrite S_INR, plus_INR. lra. }
    split; [exact P|]. split; [apply sorted_two, LE|]. split; [exact I|]. split; [apply nth_high; lia|]. split; [left; apply nth_high; lia | ring].
Qed.
Lemma plateau_perm (w : masked_array RA) c c' : plateau w c c' -> Permutation (map fst w) (repeat c (inside w) ++ repeat c' (outside w)).
Proof.
  unfold plateau, inside, outside. induction w as [|[h m] w IH]; intro H; [constructor|]. specialize (IH (fun x y I => H x y (or_intror I))).
  pose proof (H h m (or_introl eq_refl)) as E. cbn [map filter fst snd negb]. destruct m; cbn [negb length repeat]; subst h.
  - eapply perm_trans; [apply perm_skip; exact IH|]. apply Permutation_middle.
  - cbn [app]. apply perm_skip. exact IH.
Qed.
Lemma count_cells (w : masked_array RA) : length w = (inside w + outside w)%nat.
Proof. unfold inside, outside. induction w as [|[h []] w IH]; cbn [filter snd negb length]; lia. Qed.
Lemma plateau_range (w : masked_array RA) c c' : plateau w c c' -> over_a_tenth (inside w) w -> over_a_tenth (outside w) w ->
  terrain_area RA w = Ok (rrint (Rabs (c - c'))) /\ interdecile_range RA (compressed RA w) = Ok 0%Z.
Proof.
  unfold over_a_tenth. rewrite count_cells. intros P I O. split.
  - pose proof (plateau_perm w c c' P) as Q. unfold terrain_area. assert (X : map fst w <> []). { intro E. rewrite E in Q. apply Permutation_nil in Q. destruct (inside w); [lia | discriminate]. }
    destruct (idr_run _ X) as (u & v & U & V & _ & ->). f_equal. f_equal. destruct (Rle_dec c c') as [L|L].
    + destruct (two_levels _ c c' _ _ L Q ltac:(lia) ltac:(lia)) as [V' U']. rewrite (percentile_unique _ _ _ _ U U'), (percentile_unique _ _ _ _ V V'). rewrite Rabs_left1 by lra. ring.
    + assert (Q' : Permutation (map fst w) (repeat c' (outside w) ++ repeat c (inside w))) by (eapply perm_trans; [exact Q | apply Permutation_app_comm]).
      destruct (two_levels _ c' c _ _ ltac:(lra) Q' ltac:(lia) ltac:(lia)) as [V' U']. rewrite (percentile_unique _ _ _ _ U U'), (percentile_unique _ _ _ _ V V'). rewrite Rabs_right by lra. ring.
  - apply (idr_const _ c).
    + intro E. unfold inside, compressed in *. assert (L : length (map fst (filter (fun c : R * bool => negb (snd c)) w)) = 0%nat) by (cbn [num RA] in *; rewrite E; reflexivity). rewrite map_length in L. cbn [num RA] in *. lia.
    + unfold compressed. intros z Z. apply in_map_iff in Z as ([h m] & <- & Z). apply filter_In in Z as [Z N]. destruct m; [discriminate|]. exact (P h false Z).
Qed.
Lemma unmasked (A : arith) (w : masked_array A) : (forall v m, In (v, m) w -> m = false) -> terrain_area A w = interdecile_range A (compressed A w).
Proof.
  intro H. unfold terrain_area, compressed. f_equal. f_equal. induction w as [|[v m] w IH]; [reflexivity|]. cbn [filter snd].
  rewrite (H v m (or_introl eq_refl)). cbn [negb]. f_equal. apply IH. intros v' m' I. apply (H v' m'). right. exact I.
Qed.
Lemma mask_free (A : arith) (w w' : masked_array A) : map fst w = map fst w' -> terrain_area A w = terrain_area A w'.
Proof. unfold terrain_area. intros ->. reflexivity. Qed.
Lemma in_range_only_refuted : exists (w w' : masked_array RA) k k', compressed RA w = compressed RA w' /\ map snd w = map snd w' /\
  terrain_area RA w = Ok k /\ terrain_area RA w' = Ok k' /\ k <> k'.
Proof.
  set (w := fun c' : R => repeat (100, false) 30 ++ repeat (c', true) 10). exists (w 100), (w 0), 0%Z, 100%Z. split; [unfold w, compressed; cbn [repeat app filter snd fst map negb]; reflexivity|]. split; [unfold w; cbn [repeat app map snd]; reflexivity|].
  assert (P : forall c', plateau (w c') 100 c').
  { intros c' h m I. unfold w in I. apply in_app_or in I as [I|I]; apply repeat_spec in I; injection I as -> ->; reflexivity. }
  assert (Q : forall c', over_a_tenth (inside (w c')) (w c') /\ over_a_tenth (outside (w c')) (w c')) by (intro c'; unfold over_a_tenth, inside, outside, w; cbn; lia).
  destruct (plateau_range (w 100) 100 100 (P 100) (proj1 (Q 100)) (proj2 (Q 100))) as [-> _]. destruct (plateau_range (w 0) 100 0 (P 0) (proj1 (Q 0)) (proj2 (Q 0))) as [-> _].
  replace (100 - 100) with 0 by ring. replace (100 - 0) with 100 by ring. rewrite Rabs_R0, (Rabs_right 100) by lra. split; [f_equal; exact (rrint_Z 0)|]. split; [f_equal; exact (rrint_Z 100) | lia].
Qed.
Lemma all_data_in (w : masked_array RA) (h : R) : In h (all_data RA w) <-> in_range w h /\ 0 < h.
Proof.
  unfold all_data, compressed, in_range. rewrite filter_In, in_map_iff. split.
  - intros [([v m] & <- & I) G]. apply filter_In in I as [I N]. destruct m; [discriminate|]. split; [exact I|]. apply r_ltb_true in G. exact G.
  - intros [I G]. split; [exists (h, false); split; [reflexivity | apply filter_In; split; [exact I | reflexivity]]|]. apply r_ltb_true. exact G.
Qed.
Lemma plateau_drop (w : masked_array RA) (c c' : R) : plateau w c c' -> over_a_tenth (inside w) w -> over_a_tenth (outside w) w ->
  (exists k, terrain_area RA w = Ok k /\ Rabs (Rabs (c - c') - IZR k) <= 1 / 2) /\ interdecile_range RA (compressed RA w) = Ok 0%Z.
Proof. intros P I O. destruct (plateau_range w c c' P I O) as [E Z]. split; [|exact Z]. exists (rrint (Rabs (c - c'))). split; [exact E | apply rrint_spec]. Qed.
Lemma island : let w := repeat (100, false) 30 ++ repeat (0, true) 10 in plateau w 100 0 /\ over_a_tenth (inside w) w /\ over_a_tenth (outside w) w.
Proof.
  split; [|unfold over_a_tenth, inside, outside; cbn; lia]. intros h m I. apply in_app_or in I as [I|I]; apply repeat_spec in I; injection I as -> ->; reflexivity.
Qed.
