(** hzns over the reals. *)
From Verif Require Import RTac Prep SpecTerrain PfSort.
Open Scope R_scope.

Lemma mul_np x y : x <= 0 -> 0 <= y -> x * y <= 0.
Proof. intros. nra. Qed.
Lemma pfl_height (f : profile RA) (j : nat) : (j < length (pf_z f))%nat -> pflget f (Z.of_nat j + 2) = Ok (ground f j).
Proof.
  intro H. unfold pflget, pyget, pfl_list. cbn [length]. rewrite !Nat2Z.inj_succ.
  destruct (Z.ltb_spec (Z.of_nat j + 2) 0); [lia|]. destruct (Z.ltb_spec (Z.of_nat j + 2) 0); [lia|]. cbn [orb].
  destruct (Z.leb_spec (Z.succ (Z.succ (Z.of_nat (length (pf_z f))))) (Z.of_nat j + 2)); [lia|].
  replace (Z.to_nat (Z.of_nat j + 2)) with (S (S j)) by lia. cbn [nth_error].
  rewrite (nth_error_nth' _ 0) by exact H. reflexivity.
Qed.
Lemma wf_len f : well_formed f -> length (pf_z f) = S (intervals f) /\ Z.of_nat (intervals f) = pf_np f /\ (1 <= intervals f)%nat.
Proof. intros (A & _ & B). unfold intervals. lia. Qed.
Lemma len_pos f : well_formed f -> 0 < path_length f.
Proof.
  intro W. destruct (wf_len f W) as (_ & _ & N). destruct W as (_ & X & _). unfold path_length. apply Rmult_lt_0_compat; [|exact X].
  apply lt_0_INR. lia.
Qed.

Lemma shift_eq (z za g t s : R) : s <> 0 -> z - (g / 2 * s + t) * s - za = (sight_angle g za z s - t) * s.
Proof. intro. unfold sight_angle. field. assumption. Qed.
Section scan.
Context (f : profile RA) (W : well_formed f) (za zb gme : R).
Let xi : R := pf_xi f.
Let n := intervals f.
Let D := path_length f.
Definition angA (j : nat) : R := sight_angle gme za (ground f j) (INR j * xi).
Definition angB (j : nat) : R := sight_angle gme zb (ground f j) (D - INR j * xi).
Let th0 := sight_angle gme za zb D.
Let th1 := sight_angle gme zb za D.
(** State after the points 1..j. *)
Definition scanned (j : nat) (s : hz RA) : Prop :=
  (hz_sa _ s : R) = INR j * xi /\ (hz_sb _ s : R) = D - INR j * xi /\
  th0 <= (hz_the0 _ s : R) /\ th1 <= (hz_the1 _ s : R) /\
  (forall i, (1 <= i <= j)%nat -> angA i <= (hz_the0 _ s : R) /\ angB i <= (hz_the1 _ s : R)) /\
  (((hz_the0 _ s : R) = th0 /\ (hz_dl0 _ s : R) = D) \/ exists i, (1 <= i <= j)%nat /\ (hz_the0 _ s : R) = angA i /\ (hz_dl0 _ s : R) = INR i * xi) /\
  (((hz_the1 _ s : R) = th1 /\ (hz_dl1 _ s : R) = D) \/ exists i, (1 <= i <= j)%nat /\ (hz_the1 _ s : R) = angB i /\ (hz_dl1 _ s : R) = D - INR i * xi) /\
  (hz_wq _ s = true -> (hz_the0 _ s : R) = th0 /\ (hz_dl0 _ s : R) = D /\ (hz_the1 _ s : R) = th1 /\ (hz_dl1 _ s : R) = D) /\
  (hz_wq _ s = false -> exists i, (1 <= i <= j)%nat /\ th0 < angA i).
(** A point below the line of sight of one terminal is below that of the other. *)
Lemma sym_sight j : 0 < INR j * xi < D -> (angA j <= th0 <-> angB j <= th1).
Proof.
  intros [P Q]. unfold angA, angB, th0, th1, sight_angle. set (s := INR j * xi) in *. set (z := ground f j). clearbody s z.
  assert (E : ((z - za) / s - gme / 2 * s - ((zb - za) / D - gme / 2 * D)) * s = ((z - zb) / (D - s) - gme / 2 * (D - s) - ((za - zb) / D - gme / 2 * D)) * (D - s)).
  { clearbody D. field. lra. }
  set (x := (z - za) / s - gme / 2 * s - ((zb - za) / D - gme / 2 * D)) in *. set (y := (z - zb) / (D - s) - gme / 2 * (D - s) - ((za - zb) / D - gme / 2 * D)) in *.
  split; intro H.
  - enough (y <= 0) by (unfold y in *; lra). assert (x <= 0) by (unfold x; lra). clearbody x y. clearbody D.
    destruct (Rle_dec y 0); [assumption|]. assert (0 < y * (D - s)) by (apply Rmult_lt_0_compat; lra). assert (x * s <= 0) by (apply mul_np; lra). lra.
  - enough (x <= 0) by (unfold x in *; lra). assert (y <= 0) by (unfold y; lra). clearbody x y. clearbody D.
    destruct (Rle_dec x 0); [assumption|]. assert (0 < x * s) by (apply Rmult_lt_0_compat; lra). assert (y * (D - s) <= 0) by (apply mul_np; lra). lra.
Qed.
Lemma inner j : (1 <= j < n)%nat -> 0 < INR j * xi < D.
Proof.
  intros [A B]. destruct W as (_ & X & _). fold xi in X. unfold D, path_length. fold xi n. apply lt_INR in B. apply le_INR in A. cbn in A. split.
  - apply Rmult_lt_0_compat; lra.
  - apply Rmult_lt_compat_r; lra.
Qed.
Lemma step_spec j s : (1 <= j < n)%nat -> scanned (j - 1) s ->
  exists s', hzns_step RA xi za zb (gme / 2)%R s (ground f j) = Ok s' /\ scanned j s'.
Proof.
  intros J (Sa & Sb & T0 & T1 & Mx & A0 & A1 & Wt & Wf). pose proof (inner j J) as [P Q].
  assert (Ij : INR (j - 1) + 1 = INR j) by (rewrite <- S_INR; f_equal; lia).
  unfold hzns_step. destruct s as [t0 t1 d0 d1 sa sb wq]. cbn [hz_the0 hz_the1 hz_dl0 hz_dl1 hz_sa hz_sb hz_wq] in *.
  cbn [n_add n_sub n_mul n_ltb n_div n_Z RA]. change (num RA) with R in *.
  assert (Ea : sa + xi = INR j * xi) by (rewrite Sa, <- Ij; ring). assert (Eb : sb - xi = D - INR j * xi) by (rewrite Sb, <- Ij; ring).
  rewrite Ea, Eb. clear Sa Sb Ea Eb sa sb.
  assert (KA : ground f j - (gme / 2 * (INR j * xi) + t0) * (INR j * xi) - za = (angA j - t0) * (INR j * xi)) by (apply shift_eq; lra).
  assert (KB : ground f j - (gme / 2 * (D - INR j * xi) + t1) * (D - INR j * xi) - zb = (angB j - t1) * (D - INR j * xi)) by (apply shift_eq; lra).
  rewrite KA, KB. clear KA KB. set (sa := INR j * xi) in *. set (sb := D - sa) in *. assert (Pb : 0 < sb) by (unfold sb; lra).
  assert (Grow : forall i, (1 <= i <= j)%nat -> (1 <= i <= j - 1)%nat \/ i = j) by lia.
  assert (Sym := sym_sight j). fold sa in Sym. specialize (Sym (conj P Q)).
  (* the first terminal *)
  assert (B0 : exists t0' d0' wq', (if r_ltb 0 ((angA j - t0) * sa) then let! t := r_div ((angA j - t0) * sa) sa in Ok (t0 + t, sa, false) else Ok (t0, d0, wq)) = Ok (t0', d0', wq')
     /\ ((t0 < angA j /\ t0' = angA j /\ d0' = sa /\ wq' = false) \/ (angA j <= t0 /\ t0' = t0 /\ d0' = d0 /\ wq' = wq))).
  { destruct (r_ltb 0 ((angA j - t0) * sa)) eqn:B; rbool.
    - rewrite r_div_ok by lra. cbn [bind]. exists (angA j), sa, false. split; [f_equal; f_equal; f_equal; field; lra|]. left.
      assert (0 < angA j - t0); [|repeat split; lra]. destruct (Rlt_dec 0 (angA j - t0)); [assumption|]. exfalso. assert ((angA j - t0) * sa <= 0) by (apply mul_np; lra). lra.
    - exists t0, d0, wq. split; [reflexivity|]. right. assert (angA j - t0 <= 0); [|repeat split; lra].
      destruct (Rle_dec (angA j - t0) 0); [assumption|]. exfalso. assert (0 < (angA j - t0) * sa) by (apply Rmult_lt_0_compat; lra). lra. }
  destruct B0 as (t0' & d0' & wq' & E0 & C0). rewrite E0. cbn [bind]. clear E0.
  assert (Wq : wq' = true -> wq = true /\ t0' = t0 /\ d0' = d0 /\ angA j <= t0) by (destruct C0 as [(? & ? & ? & ->)|(? & ? & ? & ->)]; [discriminate | auto]).
  assert (B1 : exists t1' d1', (if negb wq' then if r_ltb 0 ((angB j - t1) * sb) then let! t := r_div ((angB j - t1) * sb) sb in Ok (t1 + t, sb) else Ok (t1, d1) else Ok (t1, d1)) = Ok (t1', d1')
     /\ ((wq' = false /\ t1 < angB j /\ t1' = angB j /\ d1' = sb) \/ (angB j <= t1 /\ t1' = t1 /\ d1' = d1))).
  { destruct wq' eqn:Ew; cbn [negb].
    - exists t1, d1. split; [reflexivity|]. right. destruct (Wq eq_refl) as (-> & _ & _ & L). destruct (Wt eq_refl) as (-> & _ & -> & _). split; [|auto]. apply Sym. exact L.
    - destruct (r_ltb 0 ((angB j - t1) * sb)) eqn:B; rbool.
      + rewrite r_div_ok by lra. cbn [bind]. exists (angB j), sb. split; [f_equal; f_equal; field; lra|]. left.
        assert (0 < angB j - t1); [|repeat split; lra]. destruct (Rlt_dec 0 (angB j - t1)); [assumption|]. exfalso. assert ((angB j - t1) * sb <= 0) by (apply mul_np; lra). lra.
      + exists t1, d1. split; [reflexivity|]. right. assert (angB j - t1 <= 0); [|repeat split; lra].
        destruct (Rle_dec (angB j - t1) 0); [assumption|]. exfalso. assert (0 < (angB j - t1) * sb) by (apply Rmult_lt_0_compat; lra). lra. }
  destruct B1 as (t1' & d1' & E1 & C1). rewrite E1. cbn [bind]. clear E1.
  eexists. split; [reflexivity|]. unfold scanned. cbn [hz_the0 hz_the1 hz_dl0 hz_dl1 hz_sa hz_sb hz_wq].
  assert (U0 : t0 <= t0' /\ angA j <= t0') by (destruct C0 as [(? & -> & _)|(? & -> & _)]; lra).
  assert (U1 : t1 <= t1' /\ angB j <= t1') by (destruct C1 as [(_ & ? & -> & _)|(? & -> & _)]; lra).
  split; [reflexivity|]. split; [reflexivity|]. split; [lra|]. split; [lra|]. split; [|split; [|split; [|split]]].
  - intros i I. destruct (Grow i I) as [I'| ->]; [destruct (Mx i I'); lra | lra].
  - destruct C0 as [(? & -> & -> & _)|(? & -> & -> & _)].
    + right. exists j. repeat split; lia || lra.
    + destruct A0 as [A0|[i [I A0]]]; [left; exact A0 | right; exists i; split; [lia | exact A0]].
  - destruct C1 as [(_ & ? & -> & ->)|(? & -> & ->)].
    + right. exists j. repeat split; lia || lra.
    + destruct A1 as [A1|[i [I A1]]]; [left; exact A1 | right; exists i; split; [lia | exact A1]].
  - intro E. destruct (Wq E) as (-> & -> & -> & L). destruct (Wt eq_refl) as (X0 & X1 & X2 & X3). subst t0.
    destruct C1 as [(Ew & _)|(_ & -> & ->)]; [congruence | auto].
  - intro E. destruct C0 as [(L & _)|(L & _ & _ & Ew)].
    + exists j. split; [lia | lra].
    + rewrite Ew in E. destruct (Wf E) as [i [I Hi]]. exists i. split; [lia | exact Hi].
Qed.
Lemma loop_spec c j s : (1 <= j)%nat -> (j + c <= n)%nat -> scanned (j - 1) s ->
  exists s', hzns_loop RA f xi za zb (gme / 2)%R c (Z.of_nat j + 2) s = Ok s' /\ scanned (j + c - 1) s'.
Proof.
  revert j s; induction c as [|c IH]; intros j s J1 Jn Sc; cbn [hzns_loop].
  - exists s. split; [reflexivity|]. rewrite Nat.add_0_r. exact Sc.
  - destruct (wf_len f W) as (L & _ & _). rewrite pfl_height by (rewrite L; fold n; lia). cbn [bind].
    destruct (step_spec j s) as [s1 [E1 S1]]; [lia | exact Sc|]. fold xi. rewrite E1. cbn [bind].
    destruct (IH (S j) s1) as [s' [E S']]; [lia | lia | replace (S j - 1)%nat with j by lia; exact S1|].
    exists s'. replace (Z.of_nat j + 2 + 1)%Z with (Z.of_nat (S j) + 2)%Z by lia. split; [exact E|]. replace (j + S c - 1)%nat with (S j + c - 1)%nat by lia. exact S'.
Qed.
End scan.

Lemma ground_rev f j : well_formed f -> (j <= intervals f)%nat -> ground (reverse_profile f) j = ground f (intervals f - j).
Proof.
  intros W J. destruct (wf_len f W) as (L & _ & _). unfold ground, reverse_profile. cbn [pf_z]. rewrite rev_nth by (rewrite L; lia). f_equal. rewrite L. lia.
Qed.
Lemma wf_rev f : well_formed f -> well_formed (reverse_profile f).
Proof. intros (A & B & C). unfold well_formed, reverse_profile. cbn [pf_np pf_xi pf_z]. rewrite rev_length. auto. Qed.
Lemma intervals_rev f : intervals (reverse_profile f) = intervals f. Proof. reflexivity. Qed.
Lemma length_rev f : path_length (reverse_profile f) = path_length f. Proof. reflexivity. Qed.

Lemma in_sights f gme za zb d a : In (d, a) (sights f gme za zb) <->
  (d = path_length f /\ a = sight_angle gme za zb (path_length f)) \/
  exists j, (1 <= j < intervals f)%nat /\ d = INR j * (pf_xi f : R) /\ a = sight_angle gme za (ground f j) (INR j * (pf_xi f : R)).
Proof.
  unfold sights. cbn [In]. rewrite in_map_iff. split.
  - intros [E|[j [E I]]]; [left; split; congruence|]. right. exists j. apply in_seq in I. split; [lia|]. split; congruence.
  - intros [[-> ->]|[j [J [-> ->]]]]; [left; reflexivity|]. right. exists j. split; [reflexivity|]. apply in_seq. lia.
Qed.
Lemma sight_rev f gme za zb d a : well_formed f -> In (d, a) (sights (reverse_profile f) gme zb za) <->
  (d = path_length f /\ a = sight_angle gme zb za (path_length f)) \/
  exists j, (1 <= j < intervals f)%nat /\ d = path_length f - INR j * (pf_xi f : R) /\ a = sight_angle gme zb (ground f j) (path_length f - INR j * (pf_xi f : R)).
Proof.
  intro W. rewrite in_sights. rewrite intervals_rev, length_rev. change (pf_xi (reverse_profile f)) with (pf_xi f).
  assert (K : forall j, (j <= intervals f)%nat -> INR (intervals f - j) * (pf_xi f : R) = path_length f - INR j * (pf_xi f : R)).
  { intros j J. unfold path_length. rewrite minus_INR by exact J. ring. }
  split; (intros [H|[j [J [-> ->]]]]; [left; exact H|]); right; exists (intervals f - j)%nat; (split; [lia|]).
  - rewrite ground_rev by (assumption || lia). assert (E : INR j * (pf_xi f : R) = path_length f - INR (intervals f - j) * (pf_xi f : R)) by (rewrite K by lia; ring).
    rewrite <- E. split; reflexivity.
  - rewrite ground_rev by (assumption || lia). rewrite K by lia. replace (intervals f - (intervals f - j))%nat with j by lia. split; reflexivity.
Qed.

Lemma hzns_spec (f : profile RA) (hg0 hg1 gme : R) : well_formed f ->
  exists t0 t1 d0 d1 : R, hzns RA f (path_length f) hg0 hg1 gme = Ok (t0, t1, d0, d1) /\
    In (d0, t0) (sights0 f hg0 hg1 gme) /\ In (d1, t1) (sights1 f hg0 hg1 gme) /\
    (forall d a, In (d, a) (sights0 f hg0 hg1 gme) -> a <= t0) /\ (forall d a, In (d, a) (sights1 f hg0 hg1 gme) -> a <= t1) /\
    (unobstructed f hg0 hg1 gme -> d0 = path_length f /\ d1 = path_length f).
Proof.
  intro W. destruct (wf_len f W) as (L & N & N1). pose proof (len_pos f W) as DP.
  set (za := ground f 0 + hg0). set (zb := ground f (intervals f) + hg1).
  assert (Q2 : 5 / 10 * gme = gme / 2) by lra.
  assert (M0 : (zb - za) / path_length f - gme / 2 * path_length f = sight_angle gme za zb (path_length f)) by reflexivity.
  assert (M1 : - ((zb - za) / path_length f) - gme / 2 * path_length f = sight_angle gme zb za (path_length f)) by (unfold sight_angle; field; lra).
  assert (G : exists s : hz RA, hzns RA f (path_length f) hg0 hg1 gme = Ok (hz_the0 _ s, hz_the1 _ s, hz_dl0 _ s, hz_dl1 _ s) /\ scanned f za zb gme (intervals f - 1) s).
  { unfold hzns. rewrite (pfl_height f 0 ltac:(lia) : pflget f 2 = _). cbn [bind].
    rewrite <- N. rewrite (pfl_height f (intervals f)) by lia. cbn [bind].
    cbn [n_add n_sub n_mul n_opp n_div n_lit n_Z RA]. fold za zb. rewrite r_div_ok by lra. cbn [bind]. rewrite Q2, M0, M1.
    assert (S0 : scanned f za zb gme 0 (Hz RA (sight_angle gme za zb (path_length f)) (sight_angle gme zb za (path_length f)) (path_length f) (path_length f) 0 (path_length f) true)).
    { unfold scanned. cbn [hz_the0 hz_the1 hz_dl0 hz_dl1 hz_sa hz_sb hz_wq]. cbn [INR]. repeat split; try lra; try lia; try (left; split; reflexivity). }
    destruct (2 <=? Z.of_nat (intervals f))%Z eqn:B.
    - destruct (loop_spec f W za zb gme (Z.to_nat (Z.of_nat (intervals f) - 1)) 1 _ ltac:(lia) ltac:(lia) S0) as [s [E S]].
      change (Z.of_nat 1 + 2)%Z with 3%Z in E. rewrite E. cbn [bind]. exists s. split; [reflexivity|].
      replace (intervals f - 1)%nat with (1 + Z.to_nat (Z.of_nat (intervals f) - 1) - 1)%nat by lia. exact S.
    - eexists. split; [|replace (intervals f - 1)%nat with 0%nat by lia; exact S0]. reflexivity. }
  destruct G as (s & E & Sa & Sb & T0 & T1 & Mx & A0 & A1 & Wt & Wf).
  exists (hz_the0 _ s), (hz_the1 _ s), (hz_dl0 _ s), (hz_dl1 _ s). split; [exact E|]. unfold sights0, sights1. fold za zb.
  split; [|split; [|split; [|split]]].
  - apply in_sights. destruct A0 as [[-> ->]|[i [I [-> ->]]]]; [left; split; reflexivity|]. right. exists i. split; [lia|]. split; reflexivity.
  - apply sight_rev; [exact W|]. destruct A1 as [[-> ->]|[i [I [-> ->]]]]; [left; split; reflexivity|]. right. exists i. split; [lia|]. split; reflexivity.
  - intros d a I. apply in_sights in I as [[-> ->]|[j [J [-> ->]]]]; [exact T0|]. destruct (Mx j ltac:(lia)) as [X _]. exact X.
  - intros d a I. apply sight_rev in I; [|exact W]. destruct I as [[-> ->]|[j [J [-> ->]]]]; [exact T1|]. destruct (Mx j ltac:(lia)) as [_ X]. exact X.
  - intro U. destruct (hz_wq _ s) eqn:Q; [destruct (Wt eq_refl) as (_ & X & _ & Y); auto|]. exfalso. destruct (Wf eq_refl) as [i [I X]].
    assert (Y : angA f za gme i <= sight_angle gme za zb (path_length f)).
    { apply (U (INR i * (pf_xi f : R))). unfold sights0. fold za zb. apply in_sights. right. exists i. split; [lia|]. split; reflexivity. }
    lra.
Qed.

Lemma largest_unique l a b : largest_angle l a -> largest_angle l b -> a = b.
Proof. intros [[d A] A'] [[e B] B']. apply Rle_antisym; [eapply B'; exact A | eapply A'; exact B]. Qed.
Lemma sights_dist f gme za zb d a : well_formed f -> In (d, a) (sights f gme za zb) -> 0 < d <= path_length f.
Proof.
  intros W I. pose proof (len_pos f W). apply in_sights in I as [[-> _]|[j [J [-> _]]]]; [lra|].
  pose proof (inner f W j J). lra.
Qed.
Lemma hzns_reverse (f : profile RA) (hg0 hg1 gme t0 t1 d0 d1 : R) : well_formed f -> hzns RA f (path_length f) hg0 hg1 gme = Ok (t0, t1, d0, d1) ->
  exists e0 e1 : R, hzns RA (reverse_profile f) (path_length f) hg1 hg0 gme = Ok (t1, t0, e0, e1).
Proof.
  intros W H. destruct (hzns_spec f hg0 hg1 gme W) as (u0 & u1 & x0 & x1 & E & A0 & A1 & B0 & B1 & _).
  destruct (hzns_spec (reverse_profile f) hg1 hg0 gme (wf_rev f W)) as (v0 & v1 & y0 & y1 & F & C0 & C1 & D0 & D1 & _).
  rewrite E in H. assert (u0 = t0 /\ u1 = t1) as [-> ->] by (split; congruence). rewrite length_rev in F. rewrite F.
  assert (R0 : sights0 (reverse_profile f) hg1 hg0 gme = sights1 f hg0 hg1 gme).
  { unfold sights0, sights1. rewrite intervals_rev, !ground_rev by (assumption || lia). rewrite Nat.sub_diag, Nat.sub_0_r. reflexivity. }
  assert (R1 : sights1 (reverse_profile f) hg1 hg0 gme = sights0 f hg0 hg1 gme).
  { unfold sights0, sights1. rewrite intervals_rev, !ground_rev by (assumption || lia). rewrite Nat.sub_diag, Nat.sub_0_r.
    unfold reverse_profile at 1. cbn [pf_np pf_xi pf_z]. unfold reverse_profile. cbn [pf_np pf_xi pf_z]. rewrite rev_involutive. destruct f. reflexivity. }
  rewrite R0 in C0, D0. rewrite R1 in C1, D1.
  assert (v0 = t1) by (apply (largest_unique (sights1 f hg0 hg1 gme)); split; eauto).
  assert (v1 = t0) by (apply (largest_unique (sights0 f hg0 hg1 gme)); split; eauto). subst. eauto.
Qed.
