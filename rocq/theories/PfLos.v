(** Proofs about the line-of-sight coefficients of lrprop over the reals. *)
From Verif Require Import Frame SpecLr SpecRegime Scripts PfFrame PfLrGen PfArea PfRegime Cases PfRuns.
Open Scope R_scope.

(** The stored coefficients are those computed from the other entries. *)
Definition los_of (p : prop RA) : Prop := pb p WLOS = Some true ->
  exists k1 k2 ael : R, lr_los_coeffs RA p = Ok (k1, k2, ael) /\ pn p AK1 = Some k1 /\ pn p AK2 = Some k2 /\ pn p AEL = Some ael.
Lemma agree_frame nk zk bk ks (p q : prop RA) : same_except nk zk bk p q ->
  forallb (fun k => negb (memn k nk)) ks = true -> agree_on ks [] [] p q.
Proof.
  intros F N. split; [|split; intros k []]. intros k I. rewrite forallb_forall in N. specialize (N k I).
  apply negb_true_iff in N. symmetry. exact (fr_pn _ _ _ _ _ k F N).
Qed.
Lemma los_of_frame nk zk bk p q : same_except nk zk bk p q -> memb WLOS bk = false ->
  forallb (fun k => negb (memn k nk)) (AEL :: AK1 :: AK2 :: los_in) = true -> los_of p -> los_of q.
Proof.
  intros F B N J W. rewrite (fr_pb _ _ _ _ _ _ F B) in W. destruct (J W) as (k1 & k2 & ael & E & E1 & E2 & E3).
  cbn [forallb] in N. repeat (apply andb_true_iff in N; destruct N as [? N]).
  repeat match goal with H : negb _ = true |- _ => apply negb_true_iff in H end.
  exists k1, k2, ael. split; [|repeat split; erewrite fr_pn by eassumption; assumption].
  rewrite <- E. symmetry. apply lr_los_coeffs_ext. eapply agree_frame; [exact F|]. cbn [forallb los_in].
  repeat match goal with H : memn _ _ = false |- _ => rewrite ?H; clear H end. reflexivity.
Qed.
Lemma lr_los_of p q : los_of p -> lr_los RA p = Ok q -> los_of q.
Proof.
  intros J H. unfold lr_los in H. apply bind_inv in H as [dist [Ed H]]. apply bind_inv in H as [dlsa [Es H]].
  cbn [n_ltb RA] in H. destruct (r_ltb dist dlsa); [|inversion H; subst; exact J].
  apply bind_inv in H as [w [Ew H]]. destruct w; [inversion H; subst; exact J|].
  apply bind_inv in H as [[[k1 k2] ael] [Ec H]]. set (s := setb _ WLOS true) in H.
  assert (Fs : same_except [AK1; AK2; AEL] [] [WLOS] p s).
  { unfold s. apply fr_setb; [reflexivity|]. repeat (apply fr_setn; [reflexivity|]). apply fr_refl. }
  assert (J' : forall r, same_except [AREF] [] [] s r -> los_of r).
  { intros r F _. exists k1, k2, ael. split; [|thru F; repeat split; reflexivity].
    refine (eq_trans _ Ec). symmetry. apply lr_los_coeffs_ext.
    assert (F' : same_except [AK1; AK2; AEL; AREF] [] [WLOS] p r).
    { eapply fr_trans; [eapply fr_weaken; [|exact Fs]; reflexivity | eapply fr_weaken; [|exact F]; reflexivity]. }
    eapply agree_frame; [exact F' | reflexivity]. }
  destruct (r_ltb _ dist).
  - apply bind_inv in H as [l [_ H]]. inversion H; subst. apply J'. apply fr_setn; [reflexivity | apply fr_refl].
  - inversion H; subst. apply J'. apply fr_refl.
Qed.
Lemma lrprop_los_of d p p' : (exists m, pz p MDP = Some m /\ m <> 0%Z) \/ los_of p -> lrprop RA d p = Ok p' -> los_of p'.
Proof.
  intros J H. destruct (lrprop_stages RA d p p' H) as (th & m & p1 & p2 & p3 & p4 & a & _ & M & S & D & L & C & _ & ->).
  assert (J1 : los_of p1).
  { destruct S as [[-> ->]|[_ S]].
    - destruct J as [[m' [M' N]]|J]; [congruence | exact J].
    - apply lr_setup_flags in S as [W1 W2]. apply pb_getb in W1, W2. intro W; congruence. }
  apply lr_dist_frame in D. apply lr_scat_frame in C.
  assert (J2 : los_of p2) by (eapply los_of_frame; [exact D | reflexivity | reflexivity | exact J1]).
  assert (J3 := lr_los_of p2 p3 J2 L).
  assert (J4 : los_of p4) by (eapply los_of_frame; [exact C | reflexivity | reflexivity | exact J3]).
  set (v := pymax a _). assert (F : same_except [AREF] [] [] p4 (setn p4 AREF v)) by (apply fr_setn; [reflexivity | apply fr_refl]).
  eapply los_of_frame; try exact F; try reflexivity; assumption.
Qed.
Lemma lr_calls_los_of d ds p p' m : pz p MDP = Some m -> m <> 0%Z -> lr_calls RA (d :: ds) p = Ok p' -> los_of p'.
Proof.
  intros M N H. cbn [lr_calls] in H. apply bind_inv in H as [q [E H]].
  assert (J : los_of q) by (apply (lrprop_los_of d p q); [left; eauto | exact E]).
  clear E M. revert q J H. induction ds as [|e ds IH]; intros q J H; cbn [lr_calls] in H; [inversion H; subst; exact J|].
  apply bind_inv in H as [r [E H]]. apply (IH r); [|exact H]. exact (lrprop_los_of e q r (or_intror J) E).
Qed.

Lemma ln_div_pos x y : 0 < x -> x < y -> 0 < ln (y / x).
Proof. intros Hx Hy. rewrite <- ln_1. apply ln_increasing; [lra|]. apply (Rmult_lt_reg_r x); [lra|]. field_simplify; lra. Qed.

Lemma ln_over x y : 0 < x -> 0 < y -> ln (x / y) = ln x - ln y.
Proof. intros Hx Hy. unfold Rdiv. rewrite ln_mult; [|lra|apply Rinv_0_lt_compat; lra]. rewrite ln_Rinv by lra. ring. Qed.

(** What a call of lrprop that stored line-of-sight coefficients leaves behind. *)
Section Stored.
Context (d : R) (ds : list R) (p p' : prop RA) (m : Z) (c : branches) (dla : R).
Hypotheses (M : pz p MDP = Some m) (N : m <> 0%Z) (H : lr_calls RA (d :: ds) p = Ok p') (W : pb p' WLOS = Some true)
  (EL : los_entries p' c) (ED : diff_entries p' c) (EA : pn p' DLA = Some dla).

Lemma los_sane : 0 < dla <= 2 * b_dlsa c -> 0 <= diff_line c (b_dlsa c) ->
  0 <= b_ak2 c /\ (0 <= b_ak1 c \/ b_ak1 c = b_emd c).
Proof.
  intros Hd Ha. destruct (lr_calls_los_of d ds p p' m M N H W) as (k1 & k2 & ael & Ec & E1 & E2 & E3).
  destruct EL as (L1 & L2 & L3), ED as (D1 & D2 & D3). rewrite L1 in E3. rewrite L2 in E1. rewrite L3 in E2.
  injection E1 as <-. injection E2 as <-. injection E3 as <-.
  destruct (los_coeffs_inv p' _ _ _ Ec) as
    (d2 & aed & emd & wn & he0 & he1 & dla' & a1 & F1 & F2 & F3 & _ & _ & _ & F7 & Ne & Pd & K).
  rewrite D1 in F1. rewrite D2 in F2. rewrite D3 in F3. rewrite EA in F7.
  injection F1 as <-. injection F2 as <-. injection F3 as <-. injection F7 as <-.
  cbv zeta in K. destruct K as [_ [_ K]]. unfold diff_line in Ha.
  set (d0 := los_d0 wn he0 he1 dla (b_aed c)) in *. set (d1 := los_d1 wn he0 he1 dla (b_aed c) (b_emd c)) in *.
  assert (G : (0 <= b_aed c -> d0 < d1 /\ d0 <= b_dlsa c) /\ (b_aed c < 0 -> d1 <= b_dlsa c)).
  { unfold d1, d0, los_d1, los_d0. destruct (Rle_dec 0 (b_aed c)) as [P|P].
    - split; [intros _|lra]. pose proof (Rmin_r (1.908 * wn * he0 * he1) (0.5 * dla)). lra.
    - split; [lra|intros _]. apply Rmax_lub; [|lra].
      assert (0 < b_emd c) by nra. apply (Rmult_le_reg_r (b_emd c)); [assumption|]. field_simplify; nra. }
  destruct G as [G1 G2].
  destruct K as [[e [Ef ->]]|[Ef [K0 [Kd K]]]]; apply lr_fit_inv in Ef.
  - destruct Ef as [Ld [a0 [f [_ [Q2 [_ [_ [_ [Dd K]]]]]]]]].
    assert (P0 : 0 < d0).
    { destruct (Rle_dec d0 0) as [Z|Z]; [|lra]. exfalso. destruct (Req_dec d0 0) as [Z0|Z0].
      - rewrite Z0 in Q2. unfold Rdiv in Q2. rewrite Rinv_0 in Q2. lra.
      - assert (b_dlsa c / d0 <= 0); [|lra]. unfold Rdiv. assert (/ d0 < 0) by (apply Rinv_lt_0_compat; lra). nra. }
    assert (L02 : d0 < b_dlsa c) by (destruct (Rle_dec 0 (b_aed c)) as [P|P]; [specialize (G1 P); lra | specialize (G2 ltac:(lra)); lra]).
    assert (Q : 0 < ln (b_dlsa c / d0)) by (apply ln_div_pos; lra).
    destruct K as [[K1 [K2 K3]]|[K1 [_ [K2 K3]]]].
    + rewrite K3, K2. split; [apply Rmax_l | left; exact K1].
    + split.
      * rewrite K2. apply Rmult_le_pos; [apply Rmax_r | left; apply Rinv_0_lt_compat; exact Q].
      * destruct K3 as [[_ K3]|[_ K3]]; [right; exact K3 | left; rewrite K3; lra].
  - split; [lra|]. destruct K as [[_ K]|[_ K]]; [right; exact K|]. left. rewrite K.
    apply Rmult_le_pos; [apply Rmax_r|]. left. apply Rinv_0_lt_compat.
    destruct Ef as [Ef|Ef]; [destruct (Rle_dec 0 (b_aed c)) as [P|P]; [specialize (G1 P); lra|]|]; specialize (G2 ltac:(lra)); lra.
Qed.

Lemma los_three_points (wn he0 he1 : R) : pn p' WN = Some wn -> pn p' HE0 = Some he0 -> pn p' HE1 = Some he1 ->
  0 < b_ak1 c -> 0 < b_ak2 c ->
  let d0 := los_d0 wn he0 he1 dla (b_aed c) in let d1 := los_d1 wn he0 he1 dla (b_aed c) (b_emd c) in
  d0 < d1 /\ alos RA d0 p' = Ok (los_curve c d0) /\ alos RA d1 p' = Ok (los_curve c d1) /\
  los_curve c (b_dlsa c) = diff_line c (b_dlsa c).
Proof.
  intros Ew E0 E1' P1 P2 d0 d1. destruct (lr_calls_los_of d ds p p' m M N H W) as (k1 & k2 & ael & Ec & E1 & E2 & E3).
  destruct EL as (L1 & L2 & L3), ED as (D1 & D2 & D3). rewrite L1 in E3. rewrite L2 in E1. rewrite L3 in E2.
  injection E1 as <-. injection E2 as <-. injection E3 as <-.
  destruct (los_coeffs_inv p' _ _ _ Ec) as
    (d2 & aed & emd & wn' & he0' & he1' & dla' & a1 & F1 & F2 & F3 & F4 & F5 & F6 & F7 & Ne & Pd & K).
  rewrite D1 in F1. rewrite D2 in F2. rewrite D3 in F3. rewrite EA in F7. rewrite Ew in F4. rewrite E0 in F5. rewrite E1' in F6.
  injection F1 as <-. injection F2 as <-. injection F3 as <-. injection F7 as <-. injection F4 as <-. injection F5 as <-. injection F6 as <-.
  cbv zeta in K. destruct K as [Ea1 [El K]]. fold d0 d1 in Ea1, K.
  destruct K as [[e [Ef ->]]|[_ [K0 _]]]; [|lra]. apply lr_fit_inv in Ef.
  destruct Ef as [Ld [a0 [f [Ea0 [Q2 [Q1 [Df [Ef [Dd K]]]]]]]]]. cbv zeta in K.
  assert (P0 : 0 < d0).
  { destruct (Rle_dec d0 0) as [Z|Z]; [|lra]. exfalso. destruct (Req_dec d0 0) as [Z0|Z0].
    - rewrite Z0 in Q2. unfold Rdiv in Q2. rewrite Rinv_0 in Q2. lra.
    - assert (b_dlsa c / d0 <= 0); [|lra]. unfold Rdiv. assert (/ d0 < 0) by (apply Rinv_lt_0_compat; lra). nra. }
  destruct K as [[_ [K1 K2]]|[_ [_ [_ [[K3 _]|[_ K3]]]]]]; [|lra|lra].
  assert (Kf : b_ak2 c = f) by (rewrite K2 in *; unfold Rmax in *; destruct (Rle_dec 0 f); lra).
  assert (B2 : ln (b_dlsa c / d0) = ln (b_dlsa c) - ln d0) by (apply ln_over; lra).
  assert (B1 : ln (d1 / d0) = ln d1 - ln d0) by (apply ln_over; lra).
  rewrite B1, B2 in Ef, Df. rewrite B2 in K1. rewrite <- K2 in K1.
  assert (C1 : b_ak1 c * (b_dlsa c - d0) = diff_line c (b_dlsa c) - a0 - b_ak2 c * (ln (b_dlsa c) - ln d0)).
  { rewrite K1. unfold diff_line. field. exact Dd. }
  assert (C2 : los_curve c d0 = a0).
  { unfold los_curve. rewrite El. unfold diff_line in C1. lra. }
  split; [exact Ld|]. split; [rewrite C2; exact Ea0|]. split.
  - rewrite Ea1. f_equal. apply (Rmult_eq_reg_r (b_dlsa c - d0)); [|exact Dd].
    assert (C3 : b_ak2 c * ((b_dlsa c - d0) * (ln d1 - ln d0) - (d1 - d0) * (ln (b_dlsa c) - ln d0)) =
      (b_dlsa c - d0) * (a1 - a0) - (d1 - d0) * (b_aed c + b_dlsa c * b_emd c - a0)).
    { rewrite Kf, Ef. field. exact Df. }
    unfold diff_line in C1. unfold los_curve in *. nra.
  - unfold los_curve, diff_line. rewrite El. ring.
Qed.
End Stored.

Lemma los_monotone c x y : 0 <= b_ak2 c -> 0 <= b_ak1 c \/ b_ak1 c = b_emd c -> 0 <= b_emd c -> 0 < x -> x <= y ->
  los_curve c x <= los_curve c y.
Proof.
  intros K2 K1 Ke Px Hy. unfold los_curve. assert (ln x <= ln y) by (apply ln_le_mono; lra). assert (0 <= b_ak1 c) by lra. nra.
Qed.

(** All three branches rise and meet: the whole curve rises. *)
Lemma curve_monotone c x y : joints c -> 0 <= b_ak2 c -> 0 <= b_ak1 c \/ b_ak1 c = b_emd c -> 0 <= b_emd c ->
  0 <= b_ems c \/ y <= b_dx c \/ y < b_dlsa c -> 0 < x -> x <= y -> reference c x <= reference c y.
Proof.
  intros (J1 & J2 & J3 & J4) K2 K1 Ke Ks Px Hy. unfold reference. apply Rle_max_compat_l.
  assert (ML : forall u v, 0 < u -> u <= v -> los_curve c u <= los_curve c v) by (intros; apply los_monotone; assumption).
  assert (MD : forall u v, u <= v -> diff_line c u <= diff_line c v) by (intros; unfold diff_line; nra).
  assert (MS : 0 <= b_ems c -> forall u v, u <= v -> scat_line c u <= scat_line c v) by (intros; unfold scat_line; nra).
  destruct (Rlt_dec x (b_dlsa c)), (Rlt_dec y (b_dlsa c)); try lra.
  - apply ML; lra.
  - (* through the horizon *)
    apply Rle_trans with (diff_line c (b_dlsa c)); [rewrite <- J3; apply ML; lra|].
    destruct (Rle_dec y (b_dx c)); [apply MD; lra|].
    destruct J1 as [J1 | [J11 J12]].
    + apply Rle_trans with (diff_line c (b_dx c)); [apply MD; lra|]. rewrite <- J2. apply MS; lra.
    + unfold scat_line. rewrite J11, J12. apply MD. lra.
  - destruct (Rle_dec x (b_dx c)), (Rle_dec y (b_dx c)); try lra.
    + apply MD; lra.
    + apply Rle_trans with (diff_line c (b_dx c)); [apply MD; lra|]. rewrite <- J2. apply MS; lra.
    + apply MS; lra.
Qed.
Lemma aref_monotone (p p0 : prop RA) (m : Z) (c : branches) (dla x y : R) :
  pz p MDP = Some m -> (0 < m)%Z -> lrprop RA 0 p = Ok p0 ->
  los_entries p0 c -> diff_entries p0 c -> scat_entries p0 c -> pn p0 DLA = Some dla ->
  0 < dla <= 2 * b_dlsa c -> 0 <= diff_line c (b_dlsa c) -> 0 <= b_emd c ->
  0 <= b_ems c \/ y <= b_dx c \/ y < b_dlsa c -> 0 < x -> x <= y ->
  exists px py (ax ay : R), lrprop RA x p = Ok px /\ lrprop RA y p = Ok py /\ pn px AREF = Some ax /\ pn py AREF = Some ay /\ ax <= ay.
Proof.
  intros M Pm H EL ED ES EA Hd Ha He Hs Px Hy.
  destruct (curve_facts p p0 m M Pm H) as (c' & (EL' & ED' & ES') & J & (W & _) & K).
  assert (c' = c).
  { destruct c, c'. destruct EL as (A1 & A2 & A3), ED as (A4 & A5 & A6), ES as (A7 & A8 & A9),
      EL' as (B1 & B2 & B3), ED' as (B4 & B5 & B6), ES' as (B7 & B8 & B9). cbn in *. congruence. }
  subst c'.
  assert (Hc : lr_calls RA [0] p = Ok p0) by (cbn [lr_calls]; rewrite H; reflexivity).
  destruct (los_sane 0 [] p p0 m c dla M ltac:(lia) Hc W EL ED EA Hd Ha) as [K2 K1].
  destruct (K x Px) as (px & Hx & Ax). destruct (K y ltac:(lra)) as (py & Hy' & Ay).
  exists px, py, (reference c x), (reference c y). repeat split; try assumption.
  apply curve_monotone; assumption.
Qed.

(** ** A dictionary with a negative coefficient *)
Definition case_steep (h d wn dh : num TA) : prop TA :=
  setzs [(MDP, 1); (KWX, 0)]%Z
    (setns [(HG0, h); (HG1, h); (HE0, h); (HE1, h); (DL0, d); (DL1, d); (THE0, L 5 100); (THE1, L 5 100); (WN, wn);
            (ENS, PI 301); (DH, dh); (GME, L 117700 1000000000000); (ZGR, L 2415 10000); (ZGI, L (-144) 1000)] (empty_prop TA)).
Lemma los_negative : exists p0 p1 p2 (k2 a1 a2 : num TA),
  lrprop TA (PI 0) (case_steep (PI 100) (PI 100000) (PI 10) (PI 500)) = Ok p0 /\
  lrprop TA (PI 5000) (case_steep (PI 100) (PI 100000) (PI 10) (PI 500)) = Ok p1 /\
  lrprop TA (PI 20000) (case_steep (PI 100) (PI 100000) (PI 10) (PI 500)) = Ok p2 /\
  pb p0 WLOS = Some true /\ pn p0 AK2 = Some k2 /\ @n_ltb TA k2 (PI (-30)) = true /\
  has_n p0 EMD (fun e => @n_ltb TA (PI 0) e) = true /\
  pn p1 AREF = Some a1 /\ pn p2 AREF = Some a2 /\ @n_ltb TA (@n_add TA a2 (PI 40)) a1 = true /\
  pz p1 KWX = Some 0%Z /\ pz p2 KWX = Some 0%Z.
Proof.
  set (s := case_steep _ _ _ _).
  assert (H : on_ok (lrprop TA (PI 0) s) (fun p0 => on_ok (lrprop TA (PI 5000) s) (fun p1 => on_ok (lrprop TA (PI 20000) s) (fun p2 =>
    has_n p0 AK2 (fun k2 => has_n p1 AREF (fun a1 => has_n p2 AREF (fun a2 =>
      has_b p0 WLOS true && @n_ltb TA k2 (PI (-30)) && has_n p0 EMD (fun e => @n_ltb TA (PI 0) e) &&
      @n_ltb TA (@n_add TA a2 (PI 40)) a1 && has_z p1 KWX 0 && has_z p2 KWX 0)))))) = true) by (vm_compute; reflexivity).
  apply on_ok_inv in H as [p0 [E0 H]]. apply on_ok_inv in H as [p1 [E1 H]]. apply on_ok_inv in H as [p2 [E2 H]].
  apply has_n_inv in H as [k2 [K H]]. apply has_n_inv in H as [a1 [A1 H]]. apply has_n_inv in H as [a2 [A2 H]].
  apply andb_true_iff in H as [H H6]. apply andb_true_iff in H as [H H5]. apply andb_true_iff in H as [H H4].
  apply andb_true_iff in H as [H H3]. apply andb_true_iff in H as [H1 H2].
  exists p0, p1, p2, k2, a1, a2. do 3 (split; [assumption|]). split; [apply has_b_inv; exact H1|].
  do 6 (split; [assumption|]). split; apply has_z_inv; assumption.
Qed.
